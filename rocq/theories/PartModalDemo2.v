(** The lowest mode of the cantilever, alone and beside another one (C131).
    (Examples only; nothing here is part of the model.) *)
From Coq Require Import Reals Lra Lia List String Arith Bool ZArith Sorting.Permutation Sorting.Sorted.
From Verif Require Import Base BaseFacts Csys Sections Element Load FeModel Assembly Solver Post Api
  SpecApi ApiFacts WfFacts HidFacts ApiProofs1 LoadFacts SpecElim ElimFacts SpecGeom CsysFacts SpecBeam BeamFacts AsmFacts SpecAsm AsmProofs
  AsmTotal AsmProofs2 SpecLoad LoadProofs AsmProofs3 SpecSolve AsmSolve Demo SolveDemo SpecMass MassProofs SpecStatics StaticsProofs StaticsProofs2
  SpecTold ToldProofs SpecToldLoad ToldLoadProofs SpecSame SameProofs SameProofs2
  StaticsMain StaticsDemo StaticsDemo2 StaticsDemo3 Dynamic SpecDyn DynProofs DynDemo SpecModal ModalProofs SpecModal2 ModalProofs2 ModalDemo SpecFreq FreqProofs FreqProofs2 FreqDemo
  SpecCut CutFacts CutProofs CutProofs2 CutDemo SpecPart PartProofs PartProofs2 PartProofs3 PartDemo PartDemo2 SpecPartModal PartModal PartModalDemo.
Import ListNotations.
Local Open Scope string_scope.
Local Open Scope list_scope.
Local Open Scope R_scope.

Section Alone2.
Variable ext : externals.
Let w := final ext init (canti_ops false ++ [OpAssemble]).
Lemma alone_mode : exists a, read_asb w = Some a /\ shape_of ext w "C" [1;0;0;0;0;0] stretched
  /\ exists eigsh, exact_eigen eigsh /\ lowest_eigen eigsh /\ solve_eigen (x_ker ext) eigsh a "C" (Modal 1 None) = Some ([[1;0;0;0;0;0]], [8]).
Proof.
  pose proof (told_guard _ _ (canti_fresh ext false)) as NR.
  destruct (assembled_now ext (canti_ops false) NR) as (_ & a & Ha & _ & _ & _ & _ & _ & _ & Ef & Ed). fold w in Ha.
  destruct (canti_asm ext false) as (a0 & Ha0 & Em & _ & Ec & _). change (read_asb w = Some a0) in Ha0. rewrite Ha in Ha0. apply some_inj in Ha0. subst a0.
  assert (AF : a_fixed a = [0;1;2;3;4;5]%nat) by (rewrite Em in Ef; symmetry; apply some_inj; rewrite <- Ef; reflexivity).
  assert (HB : boundary_dofs a "C" = Some [0;1;2;3;4;5]%nat) by (unfold boundary_dofs; rewrite Ec, <- AF; reflexivity).
  assert (FR : free (size (a_model a)) [0;1;2;3;4;5]%nat = [6;7;8;9;10;11]%nat) by (rewrite Em; reflexivity).
  exists a. split; [exact Ha|].
  assert (PU : permitted ext w "C" stretched).
  { intros q Hq Rq. apply (proj1 (proj2 (boundary_sem ext _ w a "C" _ NR eq_refl Ha HB))) in Rq. unfold stretched. apply delta_other. cbn in Rq. lia. }
  assert (U0 : forall j, (j < 6)%nat -> stretched j = 0) by (intros j Hj; unfold stretched; apply delta_other; lia).
  apply (tuned ext (canti_ops false) "C" a [0;1;2;3;4;5]%nat 8 [1;0;0;0;0;0] stretched (canti_fresh ext false) Ha (canti_stiffness ext false)).
  - destruct (c40_defined ext _ w _ eq_refl NR (canti_model ext false)) as (M & HM). fold w. rewrite HM. discriminate.
  - exact HB.
  - rewrite Ed, AF, Em. cbn. lia.
  - rewrite FR. cbn. lia.
  - exact PU.
  - rewrite FR. cbn [List.length]. intros j Hj. do 6 (destruct j as [|j]; [reflexivity|]). lia.
  - rewrite FR. exists 0%nat. cbn. split; [lia|lra].
  - intros v PV. assert (V0 := fun j => alone_zero ext "C" v j (or_introl eq_refl) PV).
    rewrite (alone_energy ext v stretched (canti_stiffness ext false) V0 U0), (alone_inertia ext v stretched V0). unfold stretched, delta. cbn [Nat.eqb]. lra.
  - intros v PV. assert (V0 := fun j => alone_zero ext "C" v j (or_introl eq_refl) PV).
    rewrite (alone_energy ext v v (canti_stiffness ext false) V0 V0), (alone_inertia ext v stretched V0), (alone_inertia ext v v V0). unfold stretched, delta. cbn [Nat.eqb]. intros O.
    assert (Z : v 6%nat = 0) by lra. rewrite Z.
    set (p := v 7%nat). set (b := v 8%nat). set (c := v 9%nat). set (d := v 10%nat). set (f := v 11%nat).
    assert (Q : 0 <= 4 * (11 * (p - 6/11 * f)^2 + 11 * (b + 6/11 * d)^2 + (4 - 36/11 - 2/1000000000000) * (f^2 + d^2) + (1/2 - 2/1000000000000) * c^2)).
    { apply Rmult_le_pos; [lra|]. pose proof (pow2_ge_0 (p - 6/11*f)). pose proof (pow2_ge_0 (b + 6/11*d)). pose proof (pow2_ge_0 f). pose proof (pow2_ge_0 d). pose proof (pow2_ge_0 c). lra. }
    match goal with |- ?x <= ?y => match type of Q with 0 <= ?z => enough (y - x = z) by lra end end. field.
Qed.
Lemma alone_massive : massive w.
Proof.
  intros m0 H. unfold w in H. rewrite canti_model in H. apply some_inj in H. subst m0. split.
  - intros k n i H. assert (Z : n_mass n = [0;0;0;0;0;0]) by (cbn [canti_fem f_nodes] in H; destruct H as [H|[H|[]]]; injection H as _ <-; reflexivity).
    rewrite Z. destruct i as [|[|[|[|[|[|i]]]]]]; try destruct i; cbn [nth]; lra.
  - intros k b [H|[]]. injection H as _ <-. cbn [rod b_prop density area]. lra.
Qed.
End Alone2.

Section Beside.
Variable ext : externals.
Let w := final ext init (duo_ops ++ [OpAssemble]).
Lemma duo_zero c v j : c = "C" \/ c = "D" -> permitted ext w c v -> (j < 6)%nat -> v j = 0 /\ v (12 + j)%nat = 0.
Proof.
  intros HC PV Hj. pose proof (assembled_good ext _ w _ eq_refl (told_guard _ _ (duo_fresh ext)) (duo_assembled ext)) as G.
  assert (PS : permitted ext w c (spread duo_model (named duo_model v))).
  { intros q Hq Rq. rewrite spread_named; [apply PV; assumption|exact G|]. unfold equations in Hq. unfold w in Hq. rewrite duo_assembled in Hq. exact Hq. }
  pose proof (proj1 (permitted_named ext duo_ops c _ _ (told_guard _ _ (duo_fresh ext)) (duo_assembled ext)) PS) as X. split.
  - specialize (X "A" j). unfold named in X. change (num duo_model "A") with 0%nat in X. rewrite Nat.mul_0_r, Nat.add_0_l in X. apply X; [left; reflexivity|exact Hj|].
    rewrite (duo_governing ext c HC). unfold flag, entry. rewrite lookup_dget. cbn [dget]. do 6 (destruct j as [|j]; [reflexivity|]). lia.
  - specialize (X "E" j). unfold named in X. change (num duo_model "E") with 2%nat in X. change (6 * 2)%nat with 12%nat in X. apply X; [right; right; left; reflexivity|exact Hj|].
    rewrite (duo_governing ext c HC). unfold flag, entry. rewrite lookup_dget. cbn [dget]. do 6 (destruct j as [|j]; [reflexivity|]). lia.
Qed.
Lemma duo_energy x y : (forall j, (j < 6)%nat -> x j = 0 /\ x (12 + j)%nat = 0) -> (forall j, (j < 6)%nat -> y j = 0 /\ y (12 + j)%nat = 0) ->
  energy ext w x y = 4 * (x 6%nat * y 6%nat + 1/2 * x 9%nat * y 9%nat + 12 * x 7%nat * y 7%nat - 6 * (x 7%nat * y 11%nat + x 11%nat * y 7%nat) + 4 * x 11%nat * y 11%nat
                          + 12 * x 8%nat * y 8%nat + 6 * (x 8%nat * y 10%nat + x 10%nat * y 8%nat) + 4 * x 10%nat * y 10%nat)
    + (16/3 * x 18%nat * y 18%nat + 8/3 * x 21%nat * y 21%nat + 1024/9 * x 19%nat * y 19%nat - 128/3 * (x 19%nat * y 23%nat + x 23%nat * y 19%nat) + 64/3 * x 23%nat * y 23%nat
       + 1024/9 * x 20%nat * y 20%nat + 128/3 * (x 20%nat * y 22%nat + x 22%nat * y 20%nat) + 64/3 * x 22%nat * y 22%nat).
Proof.
  intros X Y. pose proof (duo_stiffness ext) as SK. fold w in SK. destruct (stiffness ext w) as [K|] eqn:HK; [|contradiction].
  rewrite (energy_named ext _ w _ K x y eq_refl (duo_assembled ext) HK). destruct right_axes as (A1 & A2 & A3 & A4).
  unfold duo_model, duo_k, duo_k2. cbn [duo_fem f_beams f_shells dvals map lsum snd].
  unfold beam_work, rod. cbn [b_ni b_nj b_prop]. unfold nd, node_at, n_loc; cbn [n_csys cs_O]. rewrite !vec_eta, dist_p, A1, A2, A3, A4. unfold p0, p1. rewrite demo_x, demo_y, demo_z.
  unfold beam_ends. cbn [b_ni b_nj n_name].
  replace (num _ "A") with 0%nat by reflexivity. replace (num _ "B") with 1%nat by reflexivity. replace (num _ "E") with 2%nat by reflexivity. replace (num _ "F") with 3%nat by reflexivity.
  replace (props (PSimple 4 0 1 1 1 1 1)) with (Stiff 4 2 4 4) by (cbn [props]; f_equal; field).
  unfold member_work, ends_along, ends_at, along, disp_at, rot_at, dot3; cbn [EA GJ EI2 EI3 d_i d_j r_i r_j vx vy vz Nat.mul Nat.add].
  assert (X0 := fun j h => proj1 (X j h)). assert (Y0 := fun j h => proj1 (Y j h)). assert (X1 := fun j h => proj2 (X j h)). assert (Y1 := fun j h => proj2 (Y j h)).
  rewrite (X0 0%nat), (X0 1%nat), (X0 2%nat), (X0 3%nat), (X0 4%nat), (X0 5%nat), (Y0 0%nat), (Y0 1%nat), (Y0 2%nat), (Y0 3%nat), (Y0 4%nat), (Y0 5%nat) by lia.
  change (x 12%nat) with (x (12+0)%nat). change (x 13%nat) with (x (12+1)%nat). change (x 14%nat) with (x (12+2)%nat). change (x 15%nat) with (x (12+3)%nat). change (x 16%nat) with (x (12+4)%nat). change (x 17%nat) with (x (12+5)%nat). change (y 12%nat) with (y (12+0)%nat). change (y 13%nat) with (y (12+1)%nat). change (y 14%nat) with (y (12+2)%nat). change (y 15%nat) with (y (12+3)%nat). change (y 16%nat) with (y (12+4)%nat). change (y 17%nat) with (y (12+5)%nat).
  rewrite (X1 0%nat), (X1 1%nat), (X1 2%nat), (X1 3%nat), (X1 4%nat), (X1 5%nat), (Y1 0%nat), (Y1 1%nat), (Y1 2%nat), (Y1 3%nat), (Y1 4%nat), (Y1 5%nat) by lia.
  unfold bend. field.
Qed.
Lemma duo_inertia x y : (forall j, (j < 6)%nat -> x j = 0 /\ x (12 + j)%nat = 0) ->
  inertia w x y = 1/2 * (x 6%nat * y 6%nat + x 7%nat * y 7%nat + x 8%nat * y 8%nat) + 1/1000000000000 * (x 9%nat * y 9%nat + x 10%nat * y 10%nat + x 11%nat * y 11%nat)
    + (3/8 * (x 18%nat * y 18%nat + x 19%nat * y 19%nat + x 20%nat * y 20%nat) + 1/1000000000000 * (x 21%nat * y 21%nat + x 22%nat * y 22%nat + x 23%nat * y 23%nat)).
Proof.
  intros X. destruct (c40_defined ext (duo_ops ++ [OpAssemble]) w _ eq_refl (told_guard _ _ (duo_fresh ext)) (duo_assembled ext)) as (M & HM).
  rewrite (inertia_named ext _ w _ M x y eq_refl (duo_assembled ext) HM). destruct right_axes as (_ & _ & _ & A4).
  assert (NZ : lsum (map (node_inertia duo_model x y) (f_nodes duo_model)) = 0).
  { unfold duo_model. cbn [duo_fem f_nodes map lsum]. unfold node_inertia. cbn [fst snd nd node_at n_mass].
    rewrite !(rsum_0 6 (fun i => nth i [0;0;0;0;0;0] 0 * _ * _)) by (intros z Hz; destruct z as [|[|[|[|[|[|z]]]]]]; try lia; cbn [nth]; ring). ring. }
  rewrite NZ. unfold duo_model, duo_k, duo_k2. cbn [duo_fem f_beams dvals map lsum snd]. unfold member_inertia, member_mass, rod. cbn [b_ni b_nj b_prop density area].
  unfold nd, node_at, n_loc; cbn [n_csys cs_O]. rewrite !vec_eta, dist_p, A4. unfold beam_ends. cbn [b_ni b_nj n_name].
  replace (num _ "A") with 0%nat by reflexivity. replace (num _ "B") with 1%nat by reflexivity. replace (num _ "E") with 2%nat by reflexivity. replace (num _ "F") with 3%nat by reflexivity.
  unfold ends_at, disp_at, rot_at, dot3; cbn [d_i d_j r_i r_j vx vy vz Nat.mul Nat.add].
  assert (X0 := fun j h => proj1 (X j h)). assert (X1 := fun j h => proj2 (X j h)).
  rewrite (X0 0%nat), (X0 1%nat), (X0 2%nat), (X0 3%nat), (X0 4%nat), (X0 5%nat) by lia.
  change (x 12%nat) with (x (12+0)%nat). change (x 13%nat) with (x (12+1)%nat). change (x 14%nat) with (x (12+2)%nat). change (x 15%nat) with (x (12+3)%nat). change (x 16%nat) with (x (12+4)%nat). change (x 17%nat) with (x (12+5)%nat).
  rewrite (X1 0%nat), (X1 1%nat), (X1 2%nat), (X1 3%nat), (X1 4%nat), (X1 5%nat) by lia. field.
Qed.
Lemma duo_mode : exists a, read_asb w = Some a /\ shape_of ext w "C" [1;0;0;0;0;0;0;0;0;0;0;0] stretched
  /\ exists eigsh, exact_eigen eigsh /\ lowest_eigen eigsh /\ solve_eigen (x_ker ext) eigsh a "C" (Modal 1 None) = Some ([[1;0;0;0;0;0;0;0;0;0;0;0]], [8]).
Proof.
  pose proof (told_guard _ _ (duo_fresh ext)) as NR.
  destruct (assembled_now ext duo_ops NR) as (_ & a & Ha & _ & _ & _ & _ & _ & _ & Ef & Ed). fold w in Ha.
  destruct (duo_asm ext) as (a0 & Ha0 & Em & _ & Ec & _). change (read_asb w = Some a0) in Ha0. rewrite Ha in Ha0. apply some_inj in Ha0. subst a0.
  assert (AF : a_fixed a = [0;1;2;3;4;5;12;13;14;15;16;17]%nat) by (rewrite Em in Ef; symmetry; apply some_inj; rewrite <- Ef; reflexivity).
  assert (HB : boundary_dofs a "C" = Some [0;1;2;3;4;5;12;13;14;15;16;17]%nat) by (unfold boundary_dofs; rewrite Ec, <- AF; reflexivity).
  assert (FR : free (size (a_model a)) [0;1;2;3;4;5;12;13;14;15;16;17]%nat = [6;7;8;9;10;11;18;19;20;21;22;23]%nat) by (rewrite Em; reflexivity).
  exists a. split; [exact Ha|].
  assert (PU : permitted ext w "C" stretched).
  { intros q Hq Rq. apply (proj1 (proj2 (boundary_sem ext _ w a "C" _ NR eq_refl Ha HB))) in Rq. unfold stretched. apply delta_other. cbn in Rq. lia. }
  assert (U0 : forall j, (j < 6)%nat -> stretched j = 0 /\ stretched (12 + j)%nat = 0) by (intros j Hj; unfold stretched; split; apply delta_other; lia).
  apply (tuned ext duo_ops "C" a [0;1;2;3;4;5;12;13;14;15;16;17]%nat 8 [1;0;0;0;0;0;0;0;0;0;0;0] stretched (duo_fresh ext) Ha (duo_stiffness ext)).
  - destruct (c40_defined ext _ w _ eq_refl NR (duo_assembled ext)) as (M & HM). fold w. rewrite HM. discriminate.
  - exact HB.
  - rewrite Ed, AF, Em. cbn. lia.
  - rewrite FR. cbn. lia.
  - exact PU.
  - rewrite FR. cbn [List.length]. intros j Hj. do 12 (destruct j as [|j]; [reflexivity|]). lia.
  - rewrite FR. exists 0%nat. cbn. split; [lia|lra].
  - intros v PV. fold w in PV |- *. assert (V0 := fun j => duo_zero "C" v j (or_introl eq_refl) PV).
    rewrite (duo_energy v stretched V0 U0), (duo_inertia v stretched V0). unfold stretched, delta. cbn [Nat.eqb]. lra.
  - intros v PV. fold w in PV |- *. assert (V0 := fun j => duo_zero "C" v j (or_introl eq_refl) PV).
    rewrite (duo_energy v v V0 V0), (duo_inertia v stretched V0), (duo_inertia v v V0). unfold stretched, delta. cbn [Nat.eqb]. intros O.
    assert (Z : v 6%nat = 0) by lra. rewrite Z.
    set (p := v 7%nat). set (b := v 8%nat). set (c := v 9%nat). set (d := v 10%nat). set (f := v 11%nat).
    set (x' := v 18%nat). set (p' := v 19%nat). set (b' := v 20%nat). set (c' := v 21%nat). set (d' := v 22%nat). set (f' := v 23%nat).
    assert (Q : 0 <= 4 * (11 * (p - 6/11 * f)^2 + 11 * (b + 6/11 * d)^2 + (4 - 36/11 - 2/1000000000000) * (f^2 + d^2) + (1/2 - 2/1000000000000) * c^2)).
    { apply Rmult_le_pos; [lra|]. pose proof (pow2_ge_0 (p - 6/11*f)). pose proof (pow2_ge_0 (b + 6/11*d)). pose proof (pow2_ge_0 f). pose proof (pow2_ge_0 d). pose proof (pow2_ge_0 c). lra. }
    assert (Q' : 0 <= 7/3 * x'^2 + (8/3 - 8/1000000000000) * c'^2 + 21 * (f' - 128/63 * p')^2 + 21 * (d' + 128/63 * b')^2 + 4553/189 * (p'^2 + b'^2) + (1/3 - 8/1000000000000) * (f'^2 + d'^2)).
    { pose proof (pow2_ge_0 (f' - 128/63*p')). pose proof (pow2_ge_0 (d' + 128/63*b')). pose proof (pow2_ge_0 f'). pose proof (pow2_ge_0 d'). pose proof (pow2_ge_0 c').
      pose proof (pow2_ge_0 x'). pose proof (pow2_ge_0 p'). pose proof (pow2_ge_0 b'). lra. }
    match goal with |- ?l <= ?r => match type of Q with 0 <= ?y => match type of Q' with 0 <= ?z => enough (r - l = y + z) by lra end end end. field.
Qed.
Lemma duo_massive : massive w.
Proof.
  intros m0 H. unfold w in H. rewrite duo_assembled in H. apply some_inj in H. subst m0. split.
  - intros k n i H. assert (Z : n_mass n = [0;0;0;0;0;0]) by (cbn [duo_model duo_fem f_nodes] in H; destruct H as [H|[H|[H|[H|[]]]]]; injection H as _ <-; reflexivity).
    rewrite Z. destruct i as [|[|[|[|[|[|i]]]]]]; try destruct i; cbn [nth]; lra.
  - intros k b [H|[H|[]]]; injection H as _ <-; cbn [rod b_prop density area]; lra.
Qed.
Lemma duo_masses t t' : holds (canti_fem false true) t -> holds duo_model t' -> same_masses near t t'.
Proof.
  intros H H' k P. rewrite (told_node _ _ _ H), (told_node _ _ _ H'). unfold near in P. apply orb_true_iff in P. destruct P as [P|P]; apply String.eqb_eq in P; subst k; reflexivity.
Qed.
Lemma duo_seen : seen_in near (canti_fem false true) duo_model stretched stretched.
Proof.
  intros k j [<-|[<-|[<-|[<-|[]]]]] Hj; cbn [fst near String.eqb Ascii.eqb Bool.eqb orb]; unfold stretched;
  change (near "A") with true; change (near "B") with true; change (near "E") with false; change (near "F") with false; reflexivity.
Qed.
End Beside.
