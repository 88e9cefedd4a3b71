(** Cases of drawings handed to the element model (C104). *)
From Coq Require Import Reals Lra Lia List String Arith Bool ZArith.
From Verif Require Import Base BaseFacts General SpecGeneral GeneralProofs GeneralProofs2 GeneralProofs3 GeneralProofs4 Mesh SpecMesh MeshProofs.
Import ListNotations.
Local Open Scope R_scope.

(** A bar of the default section, its second end held, a load along it, a second load case. *)
Definition bar_ops : list gop := old_frame ++
  [GSetRestraint (ticks 1) [true; true; true; false; false; false];
   GSetDist "F" "S" [0; 0; 5; 0; 0; 0; 0; 0; 5; 0; 0; 0]; GAddCase "T" "static-linear"].
Definition bar_db : db := s_db (fst (grun ticks create bar_ops)).
Lemma bar_eq : bar_db = with_cases [("S", "static-linear"); ("T", "static-linear")]%string
  (with_dist [FLoad "F" "S" [0*1; 0*1; 5*1; 0*(1*1); 0*(1*1); 0*(1*1); 0*1; 0*1; 5*1; 0*(1*1); 0*(1*1); 0*(1*1)]]
  (with_rest [(ticks 1, [true; true; true; false; false; false])] old_db)).
Proof.
  unfold bar_db, bar_ops. unfold old_frame. cbn [app]. rewrite !grun_fst_cons. pose proof old_frame_eq as E. unfold old_frame in E.
  rewrite !grun_fst_cons in E. cbn [grun fst] in E. rewrite E. clear E. reflexivity.
Qed.
Lemma bar_plain : Forall plain bar_ops.
Proof. unfold bar_ops, old_frame. cbn [app]. repeat apply Forall_cons; try exact I. apply Forall_nil. Qed.
Lemma start_elastic : all_elastic start_db.
Proof.
  intros n m E H. unfold start_db in E. cbn [d_mats dget] in E.
  destruct (String.eqb n "Q345"); [apply some_eq in E; subst m; discriminate H|].
  destruct (String.eqb n "C35"); [apply some_eq in E; subst m; discriminate H|discriminate E].
Qed.
Lemma bar_elastic : all_elastic bar_db.
Proof. rewrite bar_eq. exact start_elastic. Qed.
Definition bar_calls : list fecall :=
  let h := 4/10*1 in let b := 2/10*1 in
  [CNode (5/10*1) (0*1) (0*1); CNode 10 0 0;
   CBeam 0 1 (200000000000 * (1 * / 1^2)) (3/10) (b*b*2 + h*(h-2*b)) (2*b*b^3/12 + (h-2*b)*h^3/12) (b*h^3/12 - (b-h)*(h-2*b)^3/12)
     ((b*b^3*2 + (h-b)*h^3)/3) (7849 * (1 * / 1^4));
   CDisp 1 [Some 0; Some 0; Some 0; None; None; None]].
Lemma bar_mesh : mesh (fun i => i) bar_db = Some (bar_calls, [(ticks 0, 0%nat); (ticks 1, 1%nat)]).
Proof. rewrite bar_eq. reflexivity. Qed.

Definition bar_weight (c : string) : option R := if String.eqb c "S" then Some 1 else if String.eqb c "T" then Some 0 else None.
Definition bar_pn : dict nat := [(ticks 0, 0%nat); (ticks 1, 1%nat)].
Lemma bar_run : run_calls bar_weight [(0%nat, 1%nat, 200)] bar_pn bar_db [] ["S"; "T"]%string =
  [("S"%string, weight_calls 1 [(0%nat, 1%nat, 200)]); ("T"%string, weight_calls 1 [(0%nat, 1%nat, 200)] ++ weight_calls 0 [(0%nat, 1%nat, 200)])].
Proof. rewrite bar_eq. reflexivity. Qed.

Lemma c104_run_refuted : exists uuid ops hid cs pn weight beams a b fa fb h, fresh_names uuid /\ Forall plain ops /\
  let d := s_db (fst (grun uuid create ops)) in
  mesh hid d = Some (cs, pn) /\ run_calls weight beams pn d [] [a; b] = [(a, fa); (b, fb)] /\
  force_at h 2 fa = own_force weight beams pn d h 2 a /\ force_at h 2 fb <> own_force weight beams pn d h 2 b.
Proof.
  exists ticks, bar_ops, (fun i => i), bar_calls, bar_pn, bar_weight, [(0%nat, 1%nat, 200)], "S"%string, "T"%string.
  eexists. eexists. exists 0%nat. split; [exact ticks_fresh|]. split; [exact bar_plain|]. cbv zeta. fold bar_db.
  split; [exact bar_mesh|]. split; [exact bar_run|].
  assert (Q : forall c, own_force bar_weight [(0%nat, 1%nat, 200)] bar_pn bar_db 0 2 c = match bar_weight c with Some w => - (981/100) * w * 100 | None => 0 end).
  { intro c. unfold own_force. rewrite bar_eq. cbn [with_cases with_dist with_rest with_frames with_joints with_tol old_db start_db d_jloads stored_at].
    cbn [Nat.eqb mass_at]. destruct (bar_weight c); lra. }
  rewrite !Q. rewrite force_at_app, !weight_at. cbn [Nat.eqb mass_at bar_weight String.eqb Ascii.eqb Bool.eqb]. split; lra.
Qed.

Lemma c104_members_refuted : exists uuid ops hid cs pn weight fs l, fresh_names uuid /\ Forall plain ops /\
  let d := s_db (fst (grun uuid create ops)) in
  mesh hid d = Some (cs, pn) /\ In l (d_dist d) /\ fl_case l = "S"%string /\ nth 2 (fl_cols l) 0 <> 0 /\
  apply_load weight [] pn "S" d = Some fs /\ forall h k, force_at h k fs = 0.
Proof.
  exists ticks, bar_ops, (fun i => i), bar_calls, bar_pn, bar_weight, [], (FLoad "F" "S" [0*1; 0*1; 5*1; 0*(1*1); 0*(1*1); 0*(1*1); 0*1; 0*1; 5*1; 0*(1*1); 0*(1*1); 0*(1*1)]).
  split; [exact ticks_fresh|]. split; [exact bar_plain|]. cbv zeta. fold bar_db. split; [exact bar_mesh|].
  rewrite bar_eq. split; [left; reflexivity|]. split; [reflexivity|]. split; [cbn [fl_cols nth]; lra|]. split; [reflexivity|]. reflexivity.
Qed.
(** A bar of a material without elastic constants. *)
Definition wood_ops : list gop :=
  [GAddMaterial "W" 600 "timber" None; GAddSection "P" "W" "o" [1]; GSetTolerance 1; GAddFrame ((5/10, 0), 0) ((10, 0), 0) "P" (Some "F"%string)].
Definition wood_db : db :=
  with_frames [Frame "F" "P" (ticks 0) (ticks 1) "01"] (with_joints [Joint (ticks 0) (5/10*1) (0*1) (0*1); Joint (ticks 1) 10 0 0]
  (with_tol (1*1) (with_secs (dset "P" (GSec "W" [1*1] (PI*(1*1)^2/4) (PI*(1*1)^4/32) (PI*(1*1)^4/64) (PI*(1*1)^4/64)) (d_secs start_db))
  (with_mats (dset "W" (GMat (600 * (1 * / 1^4)) None) (d_mats start_db)) start_db)))).
Lemma wood_eq : s_db (fst (grun ticks create wood_ops)) = wood_db.
Proof.
  rewrite create_eq. unfold wood_ops. rewrite !grun_fst_cons. cbn [grun fst gstep].
  assert (E1 : fst (add_material "W" 600 "timber" None (Session start_db start_db 0)) = Session (with_mats (dset "W" (GMat (600 * (1 * / 1^4)) None) (d_mats start_db)) start_db) start_db 0) by reflexivity.
  rewrite E1.
  set (d1 := with_mats _ start_db).
  assert (E2 : fst (add_frame_section "P" "W" "o" [1] (Session d1 start_db 0)) = Session (with_secs (dset "P" (GSec "W" [1*1] (PI*(1*1)^2/4) (PI*(1*1)^4/32) (PI*(1*1)^4/64) (PI*(1*1)^4/64)) (d_secs start_db)) d1) start_db 0).
  { unfold add_frame_section. cbn [s_db]. change (dget "P" (d_secs d1)) with (@None gsec). change (dget "W" (d_mats d1)) with (Some (GMat (600 * (1 * / 1^4)) None)).
    change (scale (d_unit d1)) with (Some (1, 1)). unfold section_row. cbn [String.eqb Ascii.eqb Bool.eqb]. unfold circle_consts. rewrite reqb_false by lra. reflexivity. }
  rewrite E2. set (d2 := with_secs _ d1).
  assert (E3 : fst (set_tolerance 1 (Session d2 start_db 0)) = Session (with_tol (1*1) d2) start_db 0) by reflexivity.
  rewrite E3. unfold add_frame. cbn [s_db].
  change (find_frame "F" (with_tol (1*1) d2)) with (@None frame). cbn [s_db].
  change (dget "P" (d_secs (with_tol (1*1) d2))) with (Some (GSec "W" [1*1] (PI*(1*1)^2/4) (PI*(1*1)^4/32) (PI*(1*1)^4/64) (PI*(1*1)^4/64))).
  change (scale (d_unit (with_tol (1*1) d2))) with (Some (1, 1)).
  unfold joint_at at 1. cbn [upd s_db]. change (d_joints (with_tol (1*1) d2)) with (@nil joint). cbn [find]. cbn [add_joint].
  unfold joint_at. cbn [draw upd s_db d_joints with_tol with_joints d_tol]. change (d_joints d2) with (@nil joint). cbn [app find].
  unfold at_point. cbn [j_x j_y j_z]. rdec. cbn [andb]. reflexivity.
Qed.
Lemma c104_inelastic_refuted : exists uuid ops, fresh_names uuid /\ Forall plain ops /\ frames_ok (s_db (fst (grun uuid create ops))) /\
  forall hid, mesh hid (s_db (fst (grun uuid create ops))) = None.
Proof.
  assert (P : Forall plain wood_ops) by (unfold wood_ops; repeat apply Forall_cons; try exact I; apply Forall_nil).
  exists ticks, wood_ops. split; [exact ticks_fresh|]. split; [exact P|]. split; [apply c73_partial; exact P|].
  intro hid. rewrite wood_eq. reflexivity.
Qed.
