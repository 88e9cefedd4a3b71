(** Properties C104 and C105: handing a drawing to the element model, and project files.
    Only statements, each closed by a lemma proved elsewhere, with the assumptions it
    rests on and an instance of its hypotheses. *)
From Coq Require Import Reals Lra Lia List String Arith Bool ZArith Sorting.Permutation Sorting.Sorted.
From Verif Require Import Base General SpecGeneral GeneralProofs GeneralProofs2 GeneralProofs3 Mesh SpecMesh MeshProofs MeshCases ProjectProofs.
Import ListNotations.
Local Open Scope string_scope.
Local Open Scope list_scope.
Local Open Scope R_scope.

(** C104. Of every model drawn by single calls whose materials all have elastic constants, meshing makes
    one node for every joint at its place, one beam for every frame from the joint it was drawn from to
    the joint it was drawn to with the constants of its section and material, and one support for every
    restraint, zero where fixed and free elsewhere; the map from joints to nodes is the one used. *)
Theorem C104_mesh_partial : forall uuid ops hid, fresh_names uuid -> Forall plain ops ->
  let d := s_db (fst (grun uuid create ops)) in all_elastic d ->
  exists ns bs rs pn, mesh hid d = Some (ns ++ bs ++ rs, pn) /\
    ns = map (fun j => CNode (j_x j) (j_y j) (j_z j)) (d_joints d) /\
    Forall2 (beam_of hid d) (d_frames d) bs /\ Forall2 (support_of hid d) (d_rest d) rs /\
    forall n h, dget n pn = Some h <-> node_of hid d n h.
Proof. exact c104_mesh_partial. Qed.
Print Assumptions C104_mesh_partial.
Example C104_mesh_partial_example : fresh_names ticks /\ Forall plain bar_ops /\ all_elastic bar_db /\
  mesh (fun i => i) bar_db = Some (bar_calls, [(ticks 0, 0%nat); (ticks 1, 1%nat)]).
Proof. exact (conj ticks_fresh (conj bar_plain (conj bar_elastic bar_mesh))). Qed.

(** C104. A frame of a material without elastic constants stops the meshing. *)
Theorem C104_inelastic_refuted : exists uuid ops, fresh_names uuid /\ Forall plain ops /\ frames_ok (s_db (fst (grun uuid create ops))) /\
  forall hid, mesh hid (s_db (fst (grun uuid create ops))) = None.
Proof. exact c104_inelastic_refuted. Qed.
Print Assumptions C104_inelastic_refuted.
Example C104_inelastic_refuted_example : s_db (fst (grun ticks create wood_ops)) = wood_db /\ mesh (fun i => i) wood_db = None.
Proof. split; [exact wood_eq|reflexivity]. Qed.

(** C104. None of the calls that meshing makes is one that the element model accepts, and with a joint there
    is at least one call. *)
Theorem C104_core : forall hid d cs pn, mesh hid d = Some (cs, pn) -> Forall (fun c => accepted c = false) cs /\ (d_joints d <> [] -> cs <> []).
Proof. exact c104_core. Qed.
Print Assumptions C104_core.
Example C104_core_example : d_joints bar_db <> [] /\ accepted (CNode 0 0 0) = false /\ core_signature "add_node" = Some (Sig 4 5).
Proof. split; [rewrite bar_eq; discriminate|]. split; reflexivity. Qed.

(** C104. The forces that a load case puts on a node are its stored joint loads and, downwards, half the
    weight of every beam that ends there, times the weight factor. *)
Theorem C104_loads : forall weight beams pn c d cs h k, apply_load weight beams pn c d = Some cs ->
  force_at h k cs = own_force weight beams pn d h k c.
Proof. exact c104_loads. Qed.
Print Assumptions C104_loads.
Example C104_loads_example : exists cs, apply_load bar_weight [(0%nat, 1%nat, 200)] bar_pn "S" bar_db = Some cs /\ force_at 1 2 cs = - 981.
Proof.
  eexists. split; [rewrite bar_eq; reflexivity|].
  rewrite (C104_loads bar_weight [(0%nat, 1%nat, 200)] bar_pn "S" bar_db _ 1 2) by (rewrite bar_eq; reflexivity).
  unfold own_force. rewrite bar_eq. cbn [with_cases with_dist with_rest with_frames with_joints with_tol old_db start_db d_jloads stored_at].
  cbn [Nat.eqb mass_at bar_weight String.eqb Ascii.eqb Bool.eqb]. lra.
Qed.

(** C104. Over all nodes the weight adds up to the mass of all beams times 9.81 and the weight factor. *)
Theorem C104_weight : forall weight beams pn c d cs w k, apply_load weight beams pn c d = Some cs -> weight c = Some w ->
  force_total k cs = stored_total c k (d_jloads d) + if Nat.eqb k 2 then - (981/100) * w * mass_total beams else 0.
Proof. exact c104_weight. Qed.
Print Assumptions C104_weight.
Example C104_weight_example : exists cs, apply_load bar_weight [(0%nat, 1%nat, 200); (1%nat, 2%nat, 300)] bar_pn "S" bar_db = Some cs /\ force_total 2 cs = - 4905.
Proof.
  eexists. split; [rewrite bar_eq; reflexivity|].
  rewrite (C104_weight bar_weight [(0%nat, 1%nat, 200); (1%nat, 2%nat, 300)] bar_pn "S" bar_db _ 1 2) by (try reflexivity; rewrite bar_eq; reflexivity).
  rewrite bar_eq. cbn [with_cases with_dist with_rest with_frames with_joints with_tol old_db start_db d_jloads stored_total].
  cbn [Nat.eqb mass_total]. lra.
Qed.

(** C104. After meshing a model drawn by single calls, every load case that has a weight factor can be applied. *)
Theorem C104_applies : forall uuid ops hid weight beams c w cs pn, fresh_names uuid -> Forall plain ops ->
  let d := s_db (fst (grun uuid create ops)) in mesh hid d = Some (cs, pn) -> weight c = Some w ->
  exists fs, apply_load weight beams pn c d = Some fs.
Proof. exact c104_applies. Qed.
Print Assumptions C104_applies.
Example C104_applies_example : exists fs, apply_load bar_weight [(0%nat, 1%nat, 200)] bar_pn "T" bar_db = Some fs.
Proof. exact (C104_applies ticks bar_ops (fun i => i) bar_weight [(0%nat, 1%nat, 200)] "T" 0 bar_calls bar_pn ticks_fresh bar_plain bar_mesh eq_refl). Qed.

(** C104. A model with a load on a member, and the case of that load applied: no force on any node. *)
Theorem C104_members_refuted : exists uuid ops hid cs pn weight fs l, fresh_names uuid /\ Forall plain ops /\
  let d := s_db (fst (grun uuid create ops)) in
  mesh hid d = Some (cs, pn) /\ In l (d_dist d) /\ fl_case l = "S"%string /\ nth 2 (fl_cols l) 0 <> 0 /\
  apply_load weight [] pn "S" d = Some fs /\ forall h k, force_at h k fs = 0.
Proof. exact c104_members_refuted. Qed.
Print Assumptions C104_members_refuted.
Example C104_members_refuted_example : apply_load bar_weight [] bar_pn "S" bar_db = Some [] /\ List.length (d_dist bar_db) = 1%nat.
Proof. rewrite bar_eq. split; reflexivity. Qed.

(** C104. In a run of several cases, each case is solved under its own forces and those of all static cases
    before it in the run. *)
Theorem C104_run : forall weight beams pn d cases c cs, In (c, cs) (run_calls weight beams pn d [] cases) ->
  exists before after, cases = before ++ c :: after /\
    forall h k, force_at h k cs = total (map (own_force weight beams pn d h k) (filter (is_static d) (before ++ [c]))).
Proof. exact c104_run. Qed.
Print Assumptions C104_run.
Example C104_run_example : exists before after, ["S"; "T"]%string = before ++ "T"%string :: after /\
  forall h k, force_at h k (weight_calls 1 [(0%nat, 1%nat, 200)] ++ weight_calls 0 [(0%nat, 1%nat, 200)]) =
    total (map (own_force bar_weight [(0%nat, 1%nat, 200)] bar_pn bar_db h k) (filter (is_static bar_db) (before ++ ["T"%string]))).
Proof. apply C104_run. rewrite bar_run. right. left. reflexivity. Qed.

(** C104. Two cases run together: the second is not solved under its own forces. *)
Theorem C104_run_refuted : exists uuid ops hid cs pn weight beams a b fa fb h, fresh_names uuid /\ Forall plain ops /\
  let d := s_db (fst (grun uuid create ops)) in
  mesh hid d = Some (cs, pn) /\ run_calls weight beams pn d [] [a; b] = [(a, fa); (b, fb)] /\
  force_at h 2 fa = own_force weight beams pn d h 2 a /\ force_at h 2 fb <> own_force weight beams pn d h 2 b.
Proof. exact c104_run_refuted. Qed.
Print Assumptions C104_run_refuted.
Example C104_run_refuted_example : force_at 0 2 (weight_calls 1 [(0%nat, 1%nat, 200)] ++ weight_calls 0 [(0%nat, 1%nat, 200)]) = - 981.
Proof. rewrite force_at_app, !weight_at. cbn [Nat.eqb mass_at]. lra. Qed.

(** C104. A case run alone is solved under its own forces. *)
Theorem C104_alone : forall weight beams pn d c cs h k, run_calls weight beams pn d [] [c] = [(c, cs)] -> force_at h k cs = own_force weight beams pn d h k c.
Proof. exact c104_alone. Qed.
Print Assumptions C104_alone.
Example C104_alone_example : force_at 0 2 (weight_calls 1 [(0%nat, 1%nat, 200)]) = own_force bar_weight [(0%nat, 1%nat, 200)] bar_pn bar_db 0 2 "S".
Proof. apply C104_alone. rewrite bar_eq. reflexivity. Qed.

(** C105. A project opened, edited, saved and closed holds what was drawn, no other file has changed, the
    working copy is gone, nothing raised, and opening it again shows the drawing. *)
Theorem C105_kept : forall uuid p b d ops, dget (b ++ ".mdo") (p_disk p) = Some d ->
  let r := prun uuid p (POpen (b ++ ".mdo") :: edits ops ++ [PSave; PClose]) in
  let drawing := s_db (fst (grun uuid (Session d d (p_drawn p)) ops)) in
  ~ In DRaise (snd r) /\ dget (b ++ ".mdo") (p_disk (fst r)) = Some drawing /\ dget (b ++ ".op") (p_disk (fst r)) = None /\
  (forall q, q <> (b ++ ".mdo")%string -> q <> (b ++ ".op")%string -> dget q (p_disk (fst r)) = dget q (p_disk p)) /\
  at_work (fst (pstep uuid (fst r) (POpen (b ++ ".mdo")))) = Some drawing.
Proof. exact c105_kept. Qed.
Print Assumptions C105_kept.
Definition one_project : proj := Proj [("A.mdo", start_db); ("B.mdo", a_kn)]%string None None 0.
Example C105_kept_example : dget "A.mdo" (p_disk (fst (prun ticks one_project [POpen "A.mdo"; PEdit (GSetUnit "kN_m_C"); PSave; PClose]))) = Some a_kn.
Proof. exact (proj1 (proj2 (C105_kept ticks one_project "A" start_db [GSetUnit "kN_m_C"] eq_refl))). Qed.

(** C105. Without saving, the project is as it was before. *)
Theorem C105_lost : forall uuid p b d ops, dget (b ++ ".mdo") (p_disk p) = Some d ->
  let r := prun uuid p (POpen (b ++ ".mdo") :: edits ops ++ [PClose]) in
  ~ In DRaise (snd r) /\ dget (b ++ ".op") (p_disk (fst r)) = None /\ same_but (b ++ ".op") (p_disk (fst r)) (p_disk p) /\
  at_work (fst (pstep uuid (fst r) (POpen (b ++ ".mdo")))) = Some d.
Proof. exact c105_lost. Qed.
Print Assumptions C105_lost.
Example C105_lost_example : at_work (fst (pstep ticks (fst (prun ticks one_project [POpen "A.mdo"; PEdit (GSetUnit "kN_m_C"); PClose])) (POpen "A.mdo"))) = Some start_db.
Proof. exact (proj2 (proj2 (proj2 (C105_lost ticks one_project "A" start_db [GSetUnit "kN_m_C"] eq_refl)))). Qed.

(** C105. While a project is being edited no file but its working copy changes. *)
Theorem C105_storage : forall uuid p b d ops, dget (b ++ ".mdo") (p_disk p) = Some d ->
  let p' := fst (prun uuid p (POpen (b ++ ".mdo") :: edits ops)) in
  at_work p' = Some (s_db (fst (grun uuid (Session d d (p_drawn p)) ops))) /\ same_but (b ++ ".op") (p_disk p') (p_disk p).
Proof. exact c105_storage. Qed.
Print Assumptions C105_storage.
Example C105_storage_example : dget "B.mdo" (p_disk (fst (prun ticks one_project [POpen "A.mdo"; PEdit (GSetUnit "kN_m_C"); PEdit GSave]))) = Some a_kn.
Proof. apply (proj2 (C105_storage ticks one_project "A" start_db [GSetUnit "kN_m_C"; GSave] eq_refl)). discriminate. Qed.

(** C105. A project created where there was none holds the default materials, section and case. *)
Theorem C105_new : forall uuid p b, dget (b ++ ".mdo") (p_disk p) = None ->
  let r := pstep uuid p (PCreate (b ++ ".mdo")) in
  snd r = DDone /\ at_work (fst r) = Some (s_db create) /\ dget (b ++ ".mdo") (p_disk (fst r)) = Some (s_db create) /\ same_but (b ++ ".mdo") (p_disk (fst r)) (p_disk p).
Proof. exact c105_new. Qed.
Print Assumptions C105_new.
Example C105_new_example : at_work (fst (pstep ticks one_project (PCreate "C.mdo"))) = Some (s_db create).
Proof. exact (proj1 (proj2 (C105_new ticks one_project "C" eq_refl))). Qed.

(** C105. Paths that do not end in .mdo are refused, and so are projects that do not exist. *)
Theorem C105_suffix : forall uuid p q, (forall b, q <> (b ++ ".mdo")%string) -> pstep uuid p (POpen q) = (p, DRaise) /\ pstep uuid p (PCreate q) = (p, DRaise).
Proof. exact c105_suffix. Qed.
Print Assumptions C105_suffix.
Example C105_suffix_example : pstep ticks one_project (PCreate "A") = (one_project, DRaise).
Proof. apply (C105_suffix ticks one_project "A"). intros [|c [|d r]] H; discriminate. Qed.

(** C105. Opening a project that is not there raises and creates nothing. *)
Theorem C105_missing : forall uuid p q, dget q (p_disk p) = None -> pstep uuid p (POpen q) = (p, DRaise).
Proof. exact c105_missing. Qed.
Print Assumptions C105_missing.
Example C105_missing_example : pstep ticks one_project (POpen "C.mdo") = (one_project, DRaise).
Proof. apply C105_missing. reflexivity. Qed.

(** C105. So opening does not create a project that is missing, as its code means to. *)
Theorem C105_open_refuted : exists uuid b, let r := pstep uuid no_project (POpen (b ++ ".mdo")) in snd r = DRaise /\ dget (b ++ ".mdo") (p_disk (fst r)) = None.
Proof. exact c105_open_refuted. Qed.
Print Assumptions C105_open_refuted.
Example C105_open_refuted_example : snd (pstep ticks no_project (POpen "A.mdo")) = DRaise.
Proof. reflexivity. Qed.

(** C105. Creating a project over one that has the default names leaves the old drawing in it. *)
Theorem C105_over : forall uuid p b d, dget (b ++ ".mdo") (p_disk p) = Some d -> furnished d ->
  let r := pstep uuid p (PCreate (b ++ ".mdo")) in
  snd r = DDone /\ at_work (fst r) = Some d /\ dget (b ++ ".mdo") (p_disk (fst r)) = Some d.
Proof. exact c105_over. Qed.
Print Assumptions C105_over.
Example C105_over_example : at_work (fst (pstep ticks one_project (PCreate "B.mdo"))) = Some a_kn.
Proof. exact (proj1 (proj2 (C105_over ticks one_project "B" a_kn eq_refl start_furnished))). Qed.

(** C105. So a project just created is not always a new one. *)
Theorem C105_create_refuted : exists uuid b os, let p := fst (prun uuid no_project os) in
  snd (pstep uuid p (PCreate (b ++ ".mdo"))) = DDone /\ at_work (fst (pstep uuid p (PCreate (b ++ ".mdo")))) <> Some (s_db create).
Proof. exact c105_create_refuted. Qed.
Print Assumptions C105_create_refuted.
Example C105_create_refuted_example : d_unit a_kn <> d_unit (s_db create).
Proof. rewrite create_eq. discriminate. Qed.

(** C105. In a program that has opened nothing, saving a created project raises, though what was drawn is in
    its file, and closing it raises. *)
Theorem C105_created : forall uuid p b ops, dget (b ++ ".mdo") (p_disk p) = None -> p_paths p = None ->
  let p' := fst (prun uuid p (PCreate (b ++ ".mdo") :: edits ops)) in
  let drawing := s_db (fst (grun uuid (Session (s_db create) (s_db create) (p_drawn p)) ops)) in
  at_work p' = Some drawing /\ snd (pstep uuid p' PSave) = DRaise /\ snd (pstep uuid p' PClose) = DRaise /\
  dget (b ++ ".mdo") (p_disk (fst (pstep uuid p' PSave))) = Some drawing.
Proof. exact c105_created. Qed.
Print Assumptions C105_created.
Example C105_created_example : snd (pstep ticks (fst (prun ticks no_project (PCreate "A.mdo" :: edits [GSetUnit "kN_m_C"]))) PSave) = DRaise.
Proof. exact (proj1 (proj2 (C105_created ticks no_project "A" [GSetUnit "kN_m_C"] eq_refl eq_refl))). Qed.

(** C105. Saving a project created while another is open writes the other, which nobody saved. *)
Theorem C105_switch_refuted : exists uuid os a b before after,
  dget (a ++ ".mdo") (p_disk (fst (prun uuid no_project os))) = Some before /\
  ~ In PSave os /\
  let r := prun uuid (fst (prun uuid no_project os)) [PCreate (b ++ ".mdo"); PSave] in
  a <> b /\ snd r = [DDone; DDone] /\ dget (a ++ ".mdo") (p_disk (fst r)) = Some after /\ after <> before.
Proof. exact c105_switch_refuted. Qed.
Print Assumptions C105_switch_refuted.
Example C105_switch_refuted_example : a_kn <> start_db.
Proof. intro K. assert (U : d_unit a_kn = d_unit start_db) by (rewrite K; reflexivity). discriminate. Qed.

(** C105. In every file that any use of projects leaves, drawn by single calls, every frame runs between
    joints of the file and has a section of the file. *)
Theorem C105_frames_partial : forall uuid os q d, Forall plain_pop os -> dget q (p_disk (fst (prun uuid no_project os))) = Some d -> frames_ok d.
Proof. exact c105_frames_partial. Qed.
Print Assumptions C105_frames_partial.
Example C105_frames_partial_example : Forall plain_pop [PCreate "A.mdo"; POpen "A.mdo"; PEdit (GAddFrame ((0, 0), 0) ((1, 0), 0) dflt None); PSave; PClose].
Proof. repeat apply Forall_cons; try exact I. apply Forall_nil. Qed.
