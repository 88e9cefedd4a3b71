(** Two modes of the cantilever of the examples: lengthening and twisting (C116).
    (Examples only; nothing here is part of the model.) *)
From Coq Require Import Reals Lra Lia List String Arith Bool ZArith Sorting.Permutation.
From Verif Require Import Base BaseFacts Csys Sections Element Load FeModel Assembly Solver Post Api
  SpecApi ApiFacts WfFacts HidFacts ApiProofs1 LoadFacts SpecElim ElimFacts SpecGeom CsysFacts SpecBeam BeamFacts AsmFacts SpecAsm AsmProofs
  AsmTotal AsmProofs2 SpecLoad LoadProofs AsmProofs3 SpecSolve AsmSolve Demo SolveDemo SpecMass MassProofs SpecStatics StaticsProofs StaticsProofs2
  StaticsMain StaticsDemo StaticsDemo2 Dynamic SpecDyn DynProofs DynDemo SpecModal ModalProofs SpecModal2 ModalProofs2.
Import ListNotations.
Local Open Scope string_scope.
Local Open Scope list_scope.
Local Open Scope R_scope.

(** An eigensolver that answers the given pairs, but only where they are exact and fewer than asked for. *)
Definition trial_eigens (ps : list (R * list R)) : eigensolver := fun N k K M =>
  if (k <? N)%nat && forallb (fun p => pair_ok (fst p) (snd p) N K M) ps then Some (map fst ps, map snd ps) else None.
Lemma trial_eigens_exact ps : exact_eigen (trial_eigens ps).
Proof.
  intros N k K M o modes H i l y HO HX. unfold trial_eigens in H. destruct (_ && _) eqn:E; [|discriminate]. apply some_inj in H. apply andb_true_iff in E as (_ & E).
  assert (o = map fst ps) by congruence. assert (modes = map snd ps) by congruence. subst. rewrite nth_error_map in HO, HX.
  destruct (nth_error ps i) as [[l' y']|] eqn:P; [|discriminate]. cbn in HO, HX. apply some_inj in HO, HX. subst l' y'.
  apply nth_error_In in P. rewrite forallb_forall in E. specialize (E _ P). cbn [fst snd] in E. unfold pair_ok in E. apply andb_true_iff in E as (E1 & E2). split.
  - apply existsb_exists in E1 as (j & J & NZ). exists j. apply in_seq in J. split; [lia|]. intros Z. apply Reqb_true in Z. rewrite Z in NZ. discriminate.
  - intros r Hr. rewrite forallb_forall in E2. apply Reqb_true, E2, in_seq. lia.
Qed.

Lemma trial_eigens_fewer ps : answers_fewer (trial_eigens ps).
Proof. intros N k K M L. unfold trial_eigens. replace (k <? N)%nat with false by (symmetry; apply Nat.ltb_ge; exact L). reflexivity. Qed.

Lemma demo_mass_twist M p : fem_wf demo_fem -> assemble_M demo_asm None = Some M -> coo_get M p 9 = 1/1000000000000 * delta p 9.
Proof.
  intros W H. rewrite <- bil_delta. destruct (assemble_M_bil demo_asm M (delta p) (delta 9) W H) as (-> & _).
  cbn [a_model demo_asm demo_fem f_nodes f_beams dvals map lsum snd].
  unfold node_inertia. cbn [fst snd nodeA nodeB node_at n_mass].
  rewrite !(rsum_0 6 (fun i => nth i [0;0;0;0;0;0] 0 * _ * _)) by (intros i Hi; destruct i as [|[|[|[|[|[|i]]]]]]; try lia; cbn [nth]; ring).
  unfold member_inertia, member_mass. cbn [b_ni b_nj b_prop demo_beam density area]. unfold nodeA, nodeB, node_at, n_loc; cbn [n_csys cs_O].
  rewrite demo_dist. unfold beam_ends, demo_beam; cbn [b_ni b_nj n_name nodeA nodeB node_at].
  change (num _ "A") with 0%nat. change (num _ "B") with 1%nat. unfold ends_at, disp_at, rot_at, dot3; cbn [d_i d_j r_i r_j vx vy vz Nat.mul Nat.add].
  rewrite delta_same. rewrite !(delta_other 9) by lia. field.
Qed.
Lemma demo_twist a K p : like_demo 0 1 (a_model a) -> assemble_K zero_ker a = Some K -> coo_get K p 9 = / 2 * (delta p 9 - delta p 3).
Proof.
  intros (W & Eb & Es & N0 & N1 & NE) HK. rewrite <- bil_delta.
  destruct (assemble_K_bil zero_ker a K (delta p) (delta 9) W HK) as (-> & _). rewrite Eb, Es. cbn [dvals map lsum snd].
  unfold beam_work. cbn [b_ni b_nj b_prop demo_beam]. unfold nodeA, nodeB, node_at, n_loc; cbn [n_csys cs_O].
  rewrite demo_dist, demo_x, demo_y, demo_z. unfold beam_ends, demo_beam; cbn [b_ni b_nj n_name nodeA nodeB node_at]. rewrite N0, N1.
  replace (props (PSimple 1 0 1 1 1 1 1)) with (Stiff 1 (/2) 1 1) by (cbn [props]; f_equal; field).
  unfold member_work, ends_along, ends_at, along, disp_at, rot_at, dot3; cbn [EA GJ EI2 EI3 d_i d_j r_i r_j vx vy vz Nat.mul Nat.add].
  rewrite delta_same. rewrite !(delta_other 9) by lia. unfold bend. field.
Qed.

Definition twist : list R := [0;0;0;1;0;0].
Definition two_modes : eigensolver := trial_eigens [(2, axial); (500000000000, twist)].
Lemma demo_two : solve_eigen zero_ker two_modes demo_asm "C" (Modal 2 None) = Some ([axial; twist], [2; 500000000000]).
Proof.
  pose proof (demo_fresh_nodes tip_solver) as NR. pose proof (demo_final tip_solver) as DF.
  assert (Ha : read_asb (final tip_solver init demo) = Some demo_asm) by (rewrite DF; reflexivity).
  assert (Hm : assembled_model (final tip_solver init demo) = Some demo_fem) by (rewrite DF; reflexivity).
  assert (HP : forall k b, In (k, b) (f_beams demo_fem) -> 1 + poisson (b_prop b) <> 0).
  { intros k b [H|[]]. injection H as <- <-. cbn. lra. }
  destruct (c21_defined tip_solver demo _ demo_fem eq_refl NR Hm HP) as (K & HK).
  destruct (c40_defined tip_solver demo _ demo_fem eq_refl NR Hm) as (M & HM).
  unfold stiffness in HK. unfold mass_matrix in HM. rewrite Ha in HK, HM. cbn [bindO] in HK, HM. cbn [x_ker tip_solver trial] in HK.
  assert (W : fem_wf demo_fem) by (apply (assembled_good _ _ _ _ eq_refl NR Hm)).
  destruct (assemble_K_bil zero_ker demo_asm K (fun _ => 0) (fun _ => 0) W HK) as (_ & RK).
  destruct (assemble_M_bil demo_asm M (fun _ => 0) (fun _ => 0) W HM) as (_ & RM).
  change (size (a_model demo_asm)) with 12%nat in RK, RM.
  assert (ND : NoDup [0;1;2;3;4;5]%nat) by (repeat constructor; cbn; lia).
  assert (BB : forall i, In i [0;1;2;3;4;5]%nat -> (i < 12)%nat) by (intros i; cbn; lia).
  destruct (drop_matrix_free 12 K _ ND BB RK) as (K_ & EK & _ & GK). destruct (drop_matrix_free 12 M _ ND BB RM) as (M_ & EM & _ & GM).
  change (free 12 [0;1;2;3;4;5]%nat) with [6;7;8;9;10;11]%nat in *. cbn [List.length] in EK, EM, GK, GM.
  unfold solve_eigen. cbn [ms_base]. rewrite HK. cbn [bindO]. rewrite HM. cbn [bindO].
  change (boundary_dofs demo_asm "C") with (Some [0;1;2;3;4;5]%nat). cbn [bindO].
  change (node_count (a_model demo_asm) * 6)%nat with 12%nat. rewrite EK. cbn [bindO]. rewrite EM. cbn [bindO fst snd].
  unfold two_modes, trial_eigens at 1. cbn [forallb fst snd].
  assert (OK : pair_ok 2 axial 6 K_ M_ = true).
  { apply andb_true_iff. split.
    - cbn. destruct (Reqb 1 0) eqn:E; [apply Reqb_true in E; lra|reflexivity].
    - apply forallb_forall. intros r Hr. apply in_seq in Hr. apply Reqb_true.
      assert (S1 : forall A : coo, rsum 6 (fun j => coo_get A r j * nth j axial 0) = coo_get A r 0) by (intros A; unfold axial; cbn [rsum nth]; ring).
      rewrite !S1. rewrite GK, GM by lia. change (nth 0 [6;7;8;9;10;11]%nat 0%nat) with 6%nat.
      rewrite (demo_mass_column M _ W HM). destruct (demo_column 0 1 demo_asm K (nth r [6;7;8;9;10;11]%nat 0%nat) (demo_like W) HK) as [C1 _]. cbn [Nat.mul Nat.add] in C1. rewrite C1.
      assert (D0 : delta (nth r [6;7;8;9;10;11]%nat 0%nat) 0 = 0) by (destruct r as [|[|[|[|[|[|r]]]]]]; try lia; reflexivity).
      rewrite D0. field. }
  assert (OK' : pair_ok 500000000000 twist 6 K_ M_ = true).
  { apply andb_true_iff. split.
    - apply existsb_exists. exists 3%nat. split; [cbn; lia|]. cbn [nth twist]. destruct (Reqb 1 0) eqn:E; [apply Reqb_true in E; lra|reflexivity].
    - apply forallb_forall. intros r Hr. apply in_seq in Hr. apply Reqb_true.
      assert (S1 : forall A : coo, rsum 6 (fun j => coo_get A r j * nth j twist 0) = coo_get A r 3) by (intros A; unfold twist; cbn [rsum nth]; ring).
      rewrite !S1. rewrite GK, GM by lia. change (nth 3 [6;7;8;9;10;11]%nat 0%nat) with 9%nat.
      rewrite (demo_mass_twist M _ W HM), (demo_twist demo_asm K _ (demo_like W) HK).
      assert (D0 : delta (nth r [6;7;8;9;10;11]%nat 0%nat) 3 = 0) by (destruct r as [|[|[|[|[|[|r]]]]]]; try lia; reflexivity).
      rewrite D0. field. }
  rewrite OK, OK'. reflexivity.
Qed.

Definition demo_ops : list op := demo_model ++ demo_loads.
Notation demo_end := (final tip_solver init (demo_ops ++ [OpAssemble])).
Lemma demo_end_is : demo_end = demo_world.
Proof. exact (demo_final tip_solver). Qed.
Lemma demo_ops_fresh : never_readds_nodes tip_solver demo_ops.
Proof. pose proof (demo_fresh_nodes tip_solver) as H. rewrite demo_split in H. unfold never_readds_nodes in *. apply guarded_app in H. apply H. Qed.
Lemma demo_end_asb : read_asb demo_end = Some demo_asm.
Proof. rewrite demo_end_is. reflexivity. Qed.
Lemma demo_end_model : assembled_model demo_end = Some demo_fem.
Proof. rewrite demo_end_is. reflexivity. Qed.
Lemma demo_end_symmetric : symmetric_elements tip_solver demo_end.
Proof. intros m0 E. rewrite demo_end_model in E. apply some_inj in E. subst m0. left. reflexivity. Qed.
Lemma demo_end_positive k b : In (k, b) (f_beams demo_fem) -> props_pos (b_prop b).
Proof. intros [H|[]]. injection H as <- <-. cbn. lra. Qed.
Lemma demo_end_elastic : elastic tip_solver demo_end.
Proof.
  intros m0 E. rewrite demo_end_model in E. apply some_inj in E. subst m0. split; [|left; reflexivity].
  intros k b H. apply demo_end_positive in H. unfold props_pos in H. unfold props_nonneg. destruct (b_prop b); repeat split; lra.
Qed.
Lemma demo_end_massive : massive demo_end.
Proof.
  intros m0 E. rewrite demo_end_model in E. apply some_inj in E. subst m0. split.
  - intros k n i [H|[H|[]]]; injection H as <- <-; cbn [n_mass nodeA nodeB node_at]; do 6 (destruct i as [|i]; [cbn; lra|]); destruct i; cbn; lra.
  - intros k b [H|[]]. injection H as <- <-. cbn. lra.
Qed.
Lemma demo_end_stable : stable tip_solver demo_end "C".
Proof.
  assert (MU : forall k b, In (k, b) (f_beams demo_fem) -> 1 + poisson (b_prop b) <> 0).
  { intros k b [H|[]]. injection H as <- <-. cbn. lra. }
  destruct (c21_defined tip_solver (demo_ops ++ [OpAssemble]) _ demo_fem eq_refl (told_guard _ _ demo_ops_fresh) demo_end_model MU) as (K & HK).
  apply (m107_clamped tip_solver demo_ops "C" demo_fem demo_ops_fresh demo_end_model); [rewrite HK; discriminate|exact demo_end_positive|left; reflexivity|].
  assert (CA : carried tip_solver demo_end "C" demo_fem "A").
  { apply carried_clamp. intros j Hj. unfold governing. rewrite demo_end_is. do 6 (destruct j as [|j]; [reflexivity|]). lia. }
  intros k n [H|[H|[]]]; injection H as <- _; [exact CA|].
  apply (carried_end tip_solver demo_end "C" demo_fem "b" demo_beam); [left; reflexivity|exact CA].
Qed.
(** The displacements of the two modes. *)
Definition along_x (q : nat) : R := if Nat.eqb q 6 then 1 else 0.
Definition about_x (q : nat) : R := if Nat.eqb q 9 then 1 else 0.
Lemma demo_end_free : lists_free (equations demo_end) (restrained_for tip_solver demo_end "C") [6;7;8;9;10;11]%nat.
Proof.
  assert (HB : boundary_dofs demo_asm "C" = Some [0;1;2;3;4;5]%nat) by reflexivity.
  destruct (boundary_sem tip_solver demo_ops demo_end demo_asm "C" _ (told_guard _ _ demo_ops_fresh) eq_refl demo_end_asb HB) as (_ & SB & _).
  apply (lists_free_ext _ (fun q => In q [0;1;2;3;4;5]%nat)); [intros q _; apply SB|].
  unfold equations. rewrite demo_end_model. apply (free_lists 12 [0;1;2;3;4;5]%nat).
Qed.
Lemma demo_end_shape x U : (forall j, (j < 6)%nat -> U j = 0) -> (forall j, (j < 6)%nat -> U (6 + j)%nat = nth j x 0) -> shape_of tip_solver demo_end "C" x U.
Proof.
  intros Z V. split.
  - intros q Hq R. destruct (lt_dec q 6) as [L|L]; [apply Z, L|]. exfalso. assert (I : In q [6;7;8;9;10;11]%nat).
    { unfold equations in Hq. rewrite demo_end_model in Hq. change (size demo_fem) with 12%nat in Hq. cbn. lia. }
    apply demo_end_free in I. tauto.
  - exists [6;7;8;9;10;11]%nat. split; [exact demo_end_free|]. intros j Hj. cbn [List.length] in Hj. rewrite <- (V j Hj). f_equal.
    do 6 (destruct j as [|j]; [reflexivity|]). lia.
Qed.
Lemma axial_shape : shape_of tip_solver demo_end "C" axial along_x.
Proof. apply demo_end_shape; intros j Hj; do 6 (destruct j as [|j]; [reflexivity|]); lia. Qed.
Lemma twist_shape : shape_of tip_solver demo_end "C" twist about_x.
Proof. apply demo_end_shape; intros j Hj; do 6 (destruct j as [|j]; [reflexivity|]); lia. Qed.

Definition two_values (i : nat) : R := match i with O => 2 | _ => 500000000000 end.
Definition two_shapes (i : nat) : nat -> R := match i with O => along_x | _ => about_x end.
Lemma demo_end_first : first_modes tip_solver demo_end "C" [axial; twist] [2; 500000000000] 2 two_values two_shapes.
Proof.
  split.
  - cbn [firstn]. constructor; [cbn [In]; intros [H|[]]; lra|]. constructor; [intros []|constructor].
  - intros i Hi. destruct i as [|[|i]]; [| |lia]; (split; [reflexivity|]); eexists; (split; [reflexivity|]); [exact axial_shape|exact twist_shape].
Qed.
(** The whole structure moved along x. *)
Definition shifted_x (q : nat) : R := if Nat.eqb (q mod 6) 0 then 1 else 0.
Lemma shifted_rigid : rigid_motion demo_fem (V3 1 0 0) zero3 shifted_x.
Proof.
  intros k n [H|[H|[]]]; injection H as <- <-; cbn; split; unfold disp_at, rot_at, shifted_x; cbn; try reflexivity; unfold moved, vadd, cross, zero3; cbn [vx vy vz]; apply vec3_eq; cbn [vx vy vz]; ring.
Qed.
Lemma along_x_left q : (q < equations demo_end)%nat -> ~ restrained_for tip_solver demo_end "C" q -> along_x q = shifted_x q.
Proof.
  intros Hq N. assert (I : In q [6;7;8;9;10;11]%nat) by (apply demo_end_free; split; assumption).
  cbn in I. destruct I as [<-|[<-|[<-|[<-|[<-|[<-|[]]]]]]]; reflexivity.
Qed.
Lemma demo_end_globally q : restrained_for tip_solver demo_end "C" q <-> restrained_globally tip_solver demo_end q.
Proof. rewrite demo_end_is. reflexivity. Qed.
Lemma demo_end_solved : solved tip_solver demo_end "C".
Proof.
  destruct demo_solved as [S1 _]. split; [exact S1|apply trial_exact|]. rewrite demo_end_is. left. reflexivity.
Qed.
Lemma m118_refuted : exists ext ops a c n F, never_readds_nodes ext ops /\ let w := final ext init (ops ++ [OpAssemble]) in
  read_asb w = Some a /\ stable ext w c /\ lists_free (equations w) (restrained_for ext w c) F
  /\ (exists eigsh modes o, exact_eigen eigsh /\ answers_fewer eigsh /\ solve_eigen (x_ker ext) eigsh a c (Modal n None) = Some (modes, o))
  /\ forall k eigsh, (List.length F <= k)%nat -> answers_fewer eigsh -> solve_eigen (x_ker ext) eigsh a c (Modal k None) = None.
Proof.
  exists tip_solver, demo_ops, demo_asm, "C", 2%nat, [6;7;8;9;10;11]%nat. split; [exact demo_ops_fresh|]. intros w.
  split; [exact demo_end_asb|]. split; [exact demo_end_stable|]. split; [exact demo_end_free|]. split.
  - exists two_modes, [axial; twist], [2; 500000000000]. split; [apply trial_eigens_exact|]. split; [apply trial_eigens_fewer|exact demo_two].
  - intros k eigsh L AF. apply (m118_all tip_solver demo_ops eigsh demo_asm "C" (Modal k None) [6;7;8;9;10;11]%nat demo_ops_fresh AF demo_end_asb demo_end_free); [|exact L].
    intros q _. apply demo_end_globally.
Qed.
