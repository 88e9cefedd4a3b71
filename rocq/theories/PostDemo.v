(** A member whose start node was created after its end node (examples and witnesses only). *)
From Coq Require Import Reals Lra Lia List String Arith Bool Sorting.Sorted ZArith.
From Verif Require Import Base BaseFacts Csys Sections Element Load FeModel Assembly Solver Post Api SpecApi ApiFacts
  WfFacts HidFacts ApiProofs1 SpecElim ElimFacts SpecGeom CsysFacts SpecBeam BeamFacts AsmFacts SpecAsm AsmProofs Demo AsmTotal AsmProofs2
  SpecLoad LoadProofs SpecSolve AsmSolve SolveDemo AsmSolve2 SpecPost PostProofs.
Import ListNotations.
Local Open Scope R_scope.
Local Open Scope string_scope.
Local Open Scope list_scope.

Definition back_model : list op :=
  [OpAddNode "B" 1 0 0; OpAddNode "A" 0 0 0; OpAddSimpleBeam "b" "A" "B" 1 0 1 1 1 1 1; OpSetRestraint "B" all_fixed].
Definition back_loads : list op :=
  [OpAddPattern "P"; OpSetNodalLoad "P" "A" tip_load; OpAddStatic "C"; OpAddCasePattern "C" "P" 2].
Definition back : list op := (back_model ++ back_loads) ++ [OpAssemble].
Definition back_fem : fem :=
  Fem [("B", nodeB); ("A", nodeA)] [("B", list6 all_fixed)] [] [] [] [("b", demo_beam)] []
      [("B", 0%nat); ("A", 1%nat)] [("b", 0%nat)] [].
Definition back_pat : pattern := Pattern "P" [("A", [1;0;0;0;0;0])] [] [] [].
Definition back_asm : asm := Asm back_fem [("C", demo_case)] [back_pat] 6%Z [0;1;2;3;4;5]%nat.
Definition back_core : core := Core back_fem [("P", 0%nat)] [back_pat] [("C", demo_case)].
Definition back_world : world := World back_core [(asb_file, FAsb back_asm)].

Lemma back_final ext : final ext init back = back_world.
Proof.
  unfold back. rewrite <- app_assoc, final_app.
  replace (final ext init back_model) with (World (Core back_fem [] [] []) []).
  - reflexivity.
  - unfold final, back_model. cbn [run]. rewrite !step_add_node.
    match goal with |- context [step ext ?w (OpAddSimpleBeam _ _ _ _ _ _ _ _ _ _)] =>
      rewrite (step_ab ext w) by reflexivity end. cbn. reflexivity.
Qed.
Lemma back_fresh ext : never_readds_nodes ext back.
Proof.
  unfold never_readds_nodes, back, back_model, back_loads. cbn [app guarded fresh_node].
  split; [exists []; split; [reflexivity|simpl; tauto]|].
  split; [|cbn; tauto].
  exists ["B"]; split; [|simpl; intros [H|[]]; discriminate].
  unfold answer, after. rewrite !step_add_node. reflexivity.
Qed.

Lemma back_K ext : exists K, assemble_K (x_ker ext) back_asm = Some K.
Proof.
  destruct (c21_defined ext back _ back_fem eq_refl (back_fresh _)) as (K & HK); [rewrite back_final; reflexivity| |].
  - intros k b [H|[]]. injection H as <- <-. cbn. lra.
  - rewrite back_final in HK. exists K. exact HK.
Qed.

Lemma demo_column_start i j a K p : like_demo i j (a_model a) -> assemble_K zero_ker a = Some K ->
  coo_get K p (6 * i) = delta p (6 * i) - delta p (6 * j) /\ coo_get K (6 * i) p = delta p (6 * i) - delta p (6 * j).
Proof.
  intros (W & Eb & Es & N0 & N1 & NE) HK.
  assert (V : forall x y, bil K x y = member_work (Stiff 1 (/2) 1 1) 1 (ends_along (V3 1 0 0) (V3 0 0 1) (V3 0 (-1) 0) (ends_at x i j))
                             (ends_along (V3 1 0 0) (V3 0 0 1) (V3 0 (-1) 0) (ends_at y i j))).
  { intros x y. destruct (assemble_K_bil zero_ker a K x y W HK) as (-> & _). rewrite Eb, Es. cbn [dvals map lsum snd].
    unfold beam_work. cbn [b_ni b_nj b_prop demo_beam]. unfold nodeA, nodeB, node_at, n_loc; cbn [n_csys cs_O].
    rewrite demo_dist, demo_x, demo_y, demo_z. unfold beam_ends, demo_beam; cbn [b_ni b_nj n_name nodeA nodeB node_at]. rewrite N0, N1.
    replace (props (PSimple 1 0 1 1 1 1 1)) with (Stiff 1 (/2) 1 1) by (cbn [props]; f_equal; field). rewrite !Rplus_0_r. reflexivity. }
  rewrite <- !bil_delta, !V. unfold member_work, ends_along, ends_at, along, disp_at, rot_at, dot3; cbn [EA GJ EI2 EI3 d_i d_j r_i r_j vx vy vz].
  rewrite delta_same. rewrite !(delta_other (6 * i)) by lia. unfold bend. split; field.
Qed.

Lemma back_solve : solve_linear tip_solver back_asm "C" = Some [0;0;0;0;0;0; 2;0;0;0;0;0].
Proof.
  pose proof (back_fresh tip_solver) as NR. pose proof (back_final tip_solver) as DF.
  assert (Ha : read_asb (final tip_solver init back) = Some back_asm) by (rewrite DF; reflexivity).
  assert (Hm : assembled_model (final tip_solver init back) = Some back_fem) by (rewrite DF; reflexivity).
  assert (HP : forall k b, In (k, b) (f_beams back_fem) -> 1 + poisson (b_prop b) <> 0).
  { intros k b [H|[]]. injection H as <- <-. cbn. lra. }
  destruct (back_K tip_solver) as (K & HK).
  destruct (proj2 (c26_defined tip_solver back _ back_fem "C" eq_refl NR Hm HP)) as (f & HF).
  { rewrite DF. exists back_asm, demo_case. split; reflexivity. }
  assert (EF : forall q, coo_get f q 0 = 2 * delta q 6).
  { intros q. rewrite (nodal_load tip_solver back _ back_fem "C" f q eq_refl Hm HF); rewrite DF.
    - change (applied back_world "C") with [(2, back_pat)]. cbn [map lsum fst snd back_fem f_nodes dkeys].
      unfold node_power, node_force, node_moment, triple, load_entry; cbn [back_pat p_nodal dget String.eqb Ascii.eqb Bool.eqb nth Nat.add].
      change (num back_fem "B") with 0%nat. change (num back_fem "A") with 1%nat. unfold disp_at, rot_at, dot3; cbn [vx vy vz Nat.mul Nat.add]. ring.
    - intros fp [<-|[]]. split; reflexivity. }
  unfold load_vector in HF. rewrite Ha in HF. cbn [bindO] in HF.
  assert (W : fem_wf back_fem) by (apply (assembled_good _ _ _ _ eq_refl NR Hm)).
  assert (LK : like_demo 1 0 back_fem) by (split; [exact W|repeat split; discriminate]).
  unfold tip_solver. rewrite (solve_trial (back_model ++ back_loads) "C" [2;0;0;0;0;0] _ back_asm K f [0;1;2;3;4;5]%nat [0;1;2;3;4;5]%nat NR eq_refl Ha HK HF); try reflexivity.
  intros i Hi. change (List.length (free (size (a_model back_asm)) [0;1;2;3;4;5]%nat)) with 6%nat in *.
  change (free (size (a_model back_asm)) [0;1;2;3;4;5]%nat) with [6;7;8;9;10;11]%nat.
  set (p := nth i [6;7;8;9;10;11]%nat 0%nat).
  assert (D0 : delta p 0 = 0) by (unfold p; do 6 (destruct i as [|i]; [reflexivity|]); lia).
  clearbody p. cbn [rsum nth]. rewrite EF. destruct (demo_column_start 1 0 back_asm K p LK HK) as [C1 C2]. cbn [Nat.mul Nat.add] in C1, C2. rewrite C1, C2.
  rewrite D0. field.
Qed.

Lemma back_solved_world : exists K, final tip_solver init (back ++ [OpSolveStatic "C"])
  = World back_core [(asb_file, FAsb back_asm); (stiff_file, FStiff K); ("C.d.npy", FDisp [0;0;0;0;0;0; 2;0;0;0;0;0])].
Proof.
  rewrite final_app, back_final, final_cons, final_nil. unfold after. cbn [step]. unfold do_solve_static.
  change (read_asb back_world) with (Some back_asm). destruct (back_K tip_solver) as (K & HK). rewrite HK, back_solve.
  exists K. reflexivity.
Qed.
Lemma back_fresh2 ext : never_readds_nodes ext (back ++ [OpSolveStatic "C"]).
Proof. apply guarded_app. split; [apply back_fresh|]. cbn. tauto. Qed.

(** The fixed end B stands still, the deformation query shows its displacement as 2. *)
Lemma c41_refuted : exists ext ops b s e c v, never_readds_nodes ext ops
  /\ let w := final ext init ops in
     answer ext w (OpBeamNodeNames b) = RNames [s; e]
     /\ answer ext w (OpNodalDisp e c) = RVec [0;0;0;0;0;0]
     /\ answer ext w (OpBeamDeformation b 1 c) = RVec v /\ nth 0 v 0 = 2.
Proof.
  exists tip_solver, (back ++ [OpSolveStatic "C"]), "b", "A", "B", "C".
  destruct back_solved_world as (K & F).
  destruct (c41_wrong tip_solver (back ++ [OpSolveStatic "C"]) back_asm [0;0;0;0;0;0; 2;0;0;0;0;0] "b" demo_beam "C" (back_fresh2 _))
    as (v0 & v1 & _ & E1 & _ & _ & _ & H); try (rewrite F; reflexivity); try reflexivity.
  exists v1. split; [apply back_fresh2|]. cbv zeta. rewrite F in *. split; [reflexivity|]. split; [reflexivity|].
  unfold deformation in E1. destruct (answer _ _ (OpBeamDeformation _ _ _)) eqn:EA; try discriminate. injection E1 as ->.
  split; [reflexivity|]. destruct H as [H _]; [cbn; lia|]. rewrite H. cbn [nth].
  change (b_ni demo_beam) with nodeA. unfold member_ends. change (n_loc (b_ni demo_beam)) with (V3 0 0 0). change (n_loc (b_nj demo_beam)) with (V3 1 0 0).
  rewrite demo_x, demo_y, demo_z. cbn. unfold dot3; cbn. ring.
Qed.
