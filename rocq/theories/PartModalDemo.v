(** The lowest mode of the cantilever, alone and beside another one (C131).
    (Examples only; nothing here is part of the model.) *)
From Coq Require Import Reals Lra Lia List String Arith Bool ZArith Sorting.Permutation Sorting.Sorted.
From Verif Require Import Base BaseFacts Csys Sections Element Load FeModel Assembly Solver Post Api
  SpecApi ApiFacts WfFacts HidFacts ApiProofs1 LoadFacts SpecElim ElimFacts SpecGeom CsysFacts SpecBeam BeamFacts AsmFacts SpecAsm AsmProofs
  AsmTotal AsmProofs2 SpecLoad LoadProofs AsmProofs3 SpecSolve AsmSolve Demo SolveDemo SpecMass MassProofs SpecStatics StaticsProofs StaticsProofs2
  SpecTold ToldProofs SpecToldLoad ToldLoadProofs SpecSame SameProofs SameProofs2
  StaticsMain StaticsDemo StaticsDemo2 StaticsDemo3 Dynamic SpecDyn DynProofs DynDemo SpecModal ModalProofs SpecModal2 ModalProofs2 ModalDemo SpecFreq FreqProofs FreqProofs2 FreqDemo
  SpecCut CutFacts CutProofs CutProofs2 CutDemo SpecPart PartProofs PartProofs2 PartProofs3 PartDemo PartDemo2 SpecPartModal PartModal.
Import ListNotations.
Local Open Scope string_scope.
Local Open Scope list_scope.
Local Open Scope R_scope.

(** Displacements with given values at the free equations. *)
Definition filled (F : list nat) (v : nat -> R) (q : nat) : R := rsum (List.length F) (fun j => v j * delta (nth j F O) q).
Lemma filled_at F v j : NoDup F -> (j < List.length F)%nat -> filled F v (nth j F O) = v j.
Proof.
  intros ND Hj. unfold filled. rewrite (rsum_only _ j); [rewrite delta_same; ring|exact Hj|].
  intros i Hi NE. rewrite delta_other; [ring|]. intros E. apply NE. symmetry. apply (proj1 (NoDup_nth F O) ND j i Hj Hi). exact E.
Qed.
Lemma filled_off F v q : ~ In q F -> filled F v q = 0.
Proof. intros N. unfold filled. apply rsum_0. intros j Hj. rewrite delta_other; [ring|]. intros ->. apply N, nth_In, Hj. Qed.
Lemma sorted_nodup F : StronglySorted lt F -> NoDup F.
Proof. induction 1 as [|x l S IH A]; constructor; [|exact IH]. intros I. rewrite Forall_forall in A. specialize (A x I). lia. Qed.

(** An eigensolver that knows the lowest pair of one structure. *)
Lemma tuned ext ops c a fixed lam x U : never_readds_nodes ext ops -> let w := final ext init (ops ++ [OpAssemble]) in
  read_asb w = Some a -> stiffness ext w <> None -> mass_matrix w <> None -> boundary_dofs a c = Some fixed -> (1 <= a_dof a)%Z ->
  (1 < List.length (free (size (a_model a)) fixed))%nat ->
  permitted ext w c U -> (forall j, (j < List.length (free (size (a_model a)) fixed))%nat -> U (nth j (free (size (a_model a)) fixed) O) = nth j x 0) ->
  (exists j, (j < List.length (free (size (a_model a)) fixed))%nat /\ nth j x 0 <> 0) ->
  (forall v, permitted ext w c v -> energy ext w v U = lam * inertia w v U) ->
  (forall v, permitted ext w c v -> inertia w v U = 0 -> lam * inertia w v v <= energy ext w v v) ->
  shape_of ext w c x U /\ exists eigsh, exact_eigen eigsh /\ lowest_eigen eigsh /\ solve_eigen (x_ker ext) eigsh a c (Modal 1 None) = Some ([x], [lam]).
Proof.
  intros NR0 w Ha SK MK HB HD HF PU VU NZ EQ LE. pose proof (told_guard _ _ NR0) as NR.
  destruct (boundary_sem ext ops w a c fixed NR eq_refl Ha HB) as (ND & SB & BB).
  assert (Wf : fem_wf (a_model a)) by (apply (assembled_wf ext (ops ++ [OpAssemble]) w a eq_refl Ha)).
  destruct (stiffness ext w) as [K|] eqn:HK; [|contradiction]. destruct (mass_matrix w) as [M|] eqn:HM; [|contradiction].
  pose proof HK as HK0. pose proof HM as HM0. unfold stiffness in HK0. rewrite Ha in HK0. cbn [bindO] in HK0. unfold mass_matrix in HM0. rewrite Ha in HM0. cbn [bindO] in HM0.
  destruct (assemble_K_bil (x_ker ext) a K (fun _ => 0) (fun _ => 0) Wf HK0) as (_ & RK).
  destruct (assemble_M_bil a M (fun _ => 0) (fun _ => 0) Wf HM0) as (_ & RM).
  destruct (drop_matrix_free _ K fixed ND BB RK) as (K_ & EK & _ & GK). destruct (drop_matrix_free _ M fixed ND BB RM) as (M_ & EM & _ & GM).
  set (F := free (size (a_model a)) fixed) in *.
  assert (LF : lists_free (equations w) (restrained_for ext w c) F).
  { apply (lists_free_ext _ (fun q => In q fixed)); [intros q _; apply SB|]. unfold equations, assembled_model. rewrite Ha. apply free_lists. }
  assert (NF : NoDup F) by (apply sorted_nodup, LF).
  assert (PF : forall v, permitted ext w c (filled F v)).
  { intros v q Hq Rq. apply filled_off. intros I. apply (proj2 LF) in I. tauto. }
  assert (FP : forall v y, permitted ext w c v -> permitted ext w c y ->
    energy ext w v y = rsum (List.length F) (fun r => v (nth r F O) * rsum (List.length F) (fun j => coo_get K (nth r F O) (nth j F O) * y (nth j F O)))
    /\ inertia w v y = rsum (List.length F) (fun r => v (nth r F O) * rsum (List.length F) (fun j => coo_get M (nth r F O) (nth j F O) * y (nth j F O)))).
  { intros v y PV PY. split.
    - rewrite <- (free_products ext ops c F K v y NR LF PV PY). fold w. unfold energy, holding, stiff_at. rewrite HK. reflexivity.
    - rewrite <- (free_products ext ops c F M v y NR LF PV PY). fold w. unfold inertia, mass_at. rewrite HM. reflexivity. }
  split; [split; [exact PU|exists F; split; [exact LF|exact VU]]|].
  exists (knows (List.length F) (fun i j => coo_get K (nth i F O) (nth j F O)) (fun i j => coo_get M (nth i F O) (nth j F O)) lam x). split; [|split].
  - apply knows_exact; [exact NZ|]. intros r Hr.
    assert (RW : forall A, rsum (List.length F) (fun s => delta r s * rsum (List.length F) (fun j => coo_get A (nth s F O) (nth j F O) * U (nth j F O)))
                 = rsum (List.length F) (fun j => coo_get A (nth r F O) (nth j F O) * nth j x 0)).
    { intros A. rewrite (rsum_only _ r); [|exact Hr|intros s Hs NE; rewrite delta_other by exact NE; ring]. rewrite delta_same, Rmult_1_l.
      apply rsum_ext. intros j Hj. rewrite (VU j Hj). reflexivity. }
    destruct (FP (filled F (delta r)) U (PF _) PU) as (E1 & E2). specialize (EQ (filled F (delta r)) (PF _)). rewrite E1, E2 in EQ.
    rewrite <- (RW K), <- (RW M).
    transitivity (rsum (List.length F) (fun s => filled F (delta r) (nth s F O) * rsum (List.length F) (fun j => coo_get K (nth s F O) (nth j F O) * U (nth j F O))));
      [apply rsum_ext; intros s Hs; rewrite filled_at by assumption; reflexivity|].
    rewrite EQ. f_equal. apply rsum_ext; intros s Hs; rewrite filled_at by assumption; reflexivity.
  - apply knows_lowest. intros v.
    assert (FO : forall A,
       form_of (List.length F) (fun i j => coo_get A (nth i F O) (nth j F O)) v v
       = rsum (List.length F) (fun r => filled F v (nth r F O) * rsum (List.length F) (fun j => coo_get A (nth r F O) (nth j F O) * filled F v (nth j F O)))).
    { intros A. unfold form_of. apply rsum_ext. intros r Hr. rewrite (filled_at F v r NF Hr). f_equal. apply rsum_ext. intros j Hj. rewrite (filled_at F v j NF Hj). reflexivity. }
    rewrite (FO K), (FO M). destruct (FP (filled F v) (filled F v) (PF _) (PF _)) as (<- & <-).
    intros O. apply LE; [apply PF|]. rewrite (proj2 (FP (filled F v) U (PF _) PU)), <- O. unfold form_of, entries. apply rsum_ext. intros r Hr. rewrite (filled_at F v r NF Hr). f_equal.
    apply rsum_ext. intros j Hj. rewrite (VU j Hj). reflexivity.
  - unfold solve_eigen. cbn [ms_base ms_n]. rewrite HK0. cbn [bindO]. rewrite HM0. cbn [bindO]. rewrite HB. cbn [bindO].
    replace (node_count (a_model a) * 6)%nat with (size (a_model a)) by (unfold size, node_count; lia). rewrite EK, EM. cbn [bindO fst snd].
    replace (Z.ltb (a_dof a) (Z.of_nat 1)) with false by (symmetry; apply Z.ltb_ge; lia).
    unfold knows. rewrite Nat.eqb_refl. replace (1 <? List.length F)%nat with true by (symmetry; apply Nat.ltb_lt; exact HF).
    replace (entries_are _ K_ _) with true by (symmetry; apply entries_true; intros i j Hi Hj; apply GK; assumption).
    replace (entries_are _ M_ _) with true by (symmetry; apply entries_true; intros i j Hi Hj; apply GM; assumption).
    reflexivity.
Qed.

Lemma right_axes : axis_x half p1 = V3 1 0 0 /\ axis_y half p1 = V3 0 0 1 /\ axis_z half p1 = V3 0 (-1) 0 /\ distance half p1 = 3/4.
Proof.
  assert (H : part_way (1/4) p0 p1 = half) by (unfold part_way, p0, p1, vadd, vscale, vsub, half; cbn [vx vy vz]; apply vec3_eq; cbn [vx vy vz]; lra).
  destruct (part_axes (1/4) p0 p1) as (_ & (A1 & A2 & A3) & _ & D); [lra| |].
  - left. rewrite H. split; unfold not_steep, plan_offset, p0, p1, half; cbn [vx vy vz]; (eapply Rle_trans; [|apply Rmax_l]); rewrite Rabs_left by lra; lra.
  - cbv zeta in A1, A2, A3, D. rewrite H in A1, A2, A3, D. unfold p0, p1 in A1, A2, A3. rewrite demo_x in A1. rewrite demo_y in A2. rewrite demo_z in A3.
    rewrite dist_p in D. unfold p1 at 1 2 3. repeat split; auto. rewrite D. lra.
Qed.
Definition stretched : nat -> R := delta 6.

Section Alone.
Variable ext : externals.
Let w := final ext init (canti_ops false ++ [OpAssemble]).
Lemma alone_zero c v j : c = "C" \/ c = "D" -> permitted ext w c v -> (j < 6)%nat -> v j = 0.
Proof.
  intros HC PV Hj. pose proof (assembled_good ext _ w _ eq_refl (told_guard _ _ (canti_fresh ext false)) (canti_model ext false)) as G.
  assert (PS : permitted ext w c (spread (canti_fem false true) (named (canti_fem false true) v))).
  { intros q Hq Rq. rewrite spread_named; [apply PV; assumption|exact G|]. unfold equations in Hq. unfold w in Hq. rewrite canti_model in Hq. exact Hq. }
  pose proof (proj1 (permitted_named ext (canti_ops false) c _ _ (told_guard _ _ (canti_fresh ext false)) (canti_model ext false)) PS "A" j) as X.
  unfold named in X. change (num (canti_fem false true) "A") with 0%nat in X. rewrite Nat.mul_0_r, Nat.add_0_l in X. apply X; [left; reflexivity|exact Hj|].
  rewrite (canti_governing ext c HC). unfold flag, entry. rewrite lookup_dget. cbn [dget]. do 6 (destruct j as [|j]; [reflexivity|]). lia.
Qed.
Lemma alone_energy x y : stiffness ext w <> None -> (forall j, (j < 6)%nat -> x j = 0) -> (forall j, (j < 6)%nat -> y j = 0) ->
  energy ext w x y = 4 * (x 6%nat * y 6%nat + 1/2 * x 9%nat * y 9%nat + 12 * x 7%nat * y 7%nat - 6 * (x 7%nat * y 11%nat + x 11%nat * y 7%nat) + 4 * x 11%nat * y 11%nat
                          + 12 * x 8%nat * y 8%nat + 6 * (x 8%nat * y 10%nat + x 10%nat * y 8%nat) + 4 * x 10%nat * y 10%nat).
Proof.
  intros SK X Y. destruct (stiffness ext w) as [K|] eqn:HK; [|contradiction].
  rewrite (energy_named ext _ w _ K x y eq_refl (canti_model ext false) HK). cbn [canti_fem f_beams f_shells dvals map lsum snd].
  unfold beam_work, rod. cbn [b_ni b_nj b_prop]. unfold nd, node_at, n_loc; cbn [n_csys cs_O]. rewrite !vec_eta, dist_p. unfold p0, p1. rewrite demo_x, demo_y, demo_z.
  unfold beam_ends. cbn [b_ni b_nj n_name].
  replace (num _ "A") with 0%nat by reflexivity. replace (num _ "B") with 1%nat by reflexivity.
  replace (props (PSimple 4 0 1 1 1 1 1)) with (Stiff 4 2 4 4) by (cbn [props]; f_equal; field).
  unfold member_work, ends_along, ends_at, along, disp_at, rot_at, dot3; cbn [EA GJ EI2 EI3 d_i d_j r_i r_j vx vy vz Nat.mul Nat.add].
  rewrite (X 0%nat), (X 1%nat), (X 2%nat), (X 3%nat), (X 4%nat), (X 5%nat), (Y 0%nat), (Y 1%nat), (Y 2%nat), (Y 3%nat), (Y 4%nat), (Y 5%nat) by lia. unfold bend. field.
Qed.
Lemma alone_inertia x y : (forall j, (j < 6)%nat -> x j = 0) ->
  inertia w x y = (1/2 * (x 6%nat * y 6%nat + x 7%nat * y 7%nat + x 8%nat * y 8%nat) + 1/1000000000000 * (x 9%nat * y 9%nat + x 10%nat * y 10%nat + x 11%nat * y 11%nat)).
Proof.
  intros X. destruct (c40_defined ext (canti_ops false ++ [OpAssemble]) w _ eq_refl (told_guard _ _ (canti_fresh ext false)) (canti_model ext false)) as (M & HM).
  rewrite (inertia_named ext _ w _ M x y eq_refl (canti_model ext false) HM).
  assert (NZ : lsum (map (node_inertia (canti_fem false true) x y) (f_nodes (canti_fem false true))) = 0).
  { cbn [canti_fem f_nodes map lsum]. unfold node_inertia. cbn [fst snd nd node_at n_mass].
    rewrite !(rsum_0 6 (fun i => nth i [0;0;0;0;0;0] 0 * _ * _)) by (intros z Hz; destruct z as [|[|[|[|[|[|z]]]]]]; try lia; cbn [nth]; ring). ring. }
  rewrite NZ. cbn [canti_fem f_beams dvals map lsum snd]. unfold member_inertia, member_mass, rod. cbn [b_ni b_nj b_prop density area].
  unfold nd, node_at, n_loc; cbn [n_csys cs_O]. rewrite !vec_eta, dist_p. unfold beam_ends. cbn [b_ni b_nj n_name].
  replace (num _ "A") with 0%nat by reflexivity. replace (num _ "B") with 1%nat by reflexivity.
  unfold ends_at, disp_at, rot_at, dot3; cbn [d_i d_j r_i r_j vx vy vz Nat.mul Nat.add].
  rewrite (X 0%nat), (X 1%nat), (X 2%nat), (X 3%nat), (X 4%nat), (X 5%nat) by lia. field.
Qed.
End Alone.
