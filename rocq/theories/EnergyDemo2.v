(** The bar of the other examples, clamped at one end: a stiff one and a soft one (C124).
    (Examples only; nothing here is part of the model.) *)
From Coq Require Import Reals Lra Lia List String Arith Bool ZArith Sorting.Permutation.
From Verif Require Import Base BaseFacts Csys Sections Element Load FeModel Assembly Solver Post Api
  SpecApi ApiFacts WfFacts HidFacts ApiProofs1 LoadFacts SpecElim ElimFacts SpecGeom CsysFacts SpecBeam BeamFacts AsmFacts SpecAsm AsmProofs
  AsmTotal AsmProofs2 SpecLoad LoadProofs AsmProofs3 SpecSolve AsmSolve Demo SolveDemo SpecMass MassProofs SpecStatics StaticsProofs StaticsProofs2
  SpecTold ToldProofs StaticsMain StaticsDemo StaticsDemo2 StaticsDemo3 Dynamic SpecDyn DynProofs DynDemo ModalProofs FreqDemo SpecEnergy EnergyProofs EnergyProofs2.
Import ListNotations.
Local Open Scope string_scope.
Local Open Scope list_scope.
Local Open Scope R_scope.

Definition bar_world (E : R) : world := final bench init (bar_calls true p0 p1 [("b", E)] ++ [OpAssemble]).
Lemma damping_inrange n M K : coo_inrange n n M = true -> coo_inrange n n K = true -> coo_inrange n n (damping_matrix M K) = true.
Proof.
  intros HM HK. unfold coo_inrange, damping_matrix in *. rewrite forallb_forall in *. intros t H. apply in_app_iff in H as [H|H];
  unfold coo_scale in H; apply in_map_iff in H as ([[r c] v] & <- & H); [exact (HM _ H)|exact (HK _ H)].
Qed.
Lemma bar_free E : exists a K_ M_ C_, read_asb (bar_world E) = Some a /\ free_system bench a "C" 6 K_ M_ C_
  /\ (forall i j, (i < 6)%nat -> (j < 6)%nat -> coo_get K_ i j = end_K E i j) /\ (forall i j, (i < 6)%nat -> (j < 6)%nat -> coo_get M_ i j = end_M i j).
Proof.
  destruct (bar_all true E) as (a & K & M & Ha & Em & Ec & Ed & Ef & HK & HM).
  destruct (assemble_K_bil zero_ker a K (fun _ => 0) (fun _ => 0) ltac:(rewrite Em; exact (bar_wf true E)) HK) as (_ & RK).
  destruct (assemble_M_bil a M (fun _ => 0) (fun _ => 0) ltac:(rewrite Em; exact (bar_wf true E)) HM) as (_ & RM).
  assert (S12 : size (a_model a) = 12%nat) by (rewrite Em; reflexivity). rewrite S12 in RK, RM.
  set (fx := [0;1;2;3;4;5]%nat).
  assert (ND : NoDup fx) by (unfold fx; repeat constructor; cbn; lia).
  assert (BB : forall i, In i fx -> (i < 12)%nat) by (unfold fx; intros i; cbn; lia).
  destruct (drop_matrix_free 12 K _ ND BB RK) as (K_ & EK & _ & GK). destruct (drop_matrix_free 12 M _ ND BB RM) as (M_ & EM & _ & GM).
  destruct (drop_matrix_free 12 _ _ ND BB (damping_inrange 12 M K RM RK)) as (C_ & EC & _ & _).
  assert (FR : free 12 fx = map (fun i => (6 * 1 + i)%nat) (seq 0 6)) by reflexivity.
  rewrite FR, map_length, seq_length in EK, EM, EC, GK, GM.
  assert (NT : forall i, (i < 6)%nat -> nth i (map (fun i => (6 * 1 + i)%nat) (seq 0 6)) 0%nat = (6 * 1 + i)%nat) by (intros i Hi; do 6 (destruct i as [|i]; [reflexivity|]); lia).
  exists a, K_, M_, C_. split; [exact Ha|]. split; [|split].
  - exists K, M, fx. cbv zeta. replace (node_count (a_model a) * 6)%nat with 12%nat by (rewrite <- S12; unfold size, node_count; lia).
    split; [exact HK|]. split; [exact HM|].
    split. { unfold boundary_dofs. rewrite Ec. cbn [bar_cases dget String.eqb Ascii.eqb Bool.eqb bindO c_rest one_case]. rewrite Ef. reflexivity. }
    split; [exact EK|]. split; [exists 6%nat; exact EM|exists 6%nat; exact EC].
  - intros i j Hi Hj. rewrite (GK i j Hi Hj), !NT by assumption. apply (bar_entry true E a K); auto.
  - intros i j Hi Hj. rewrite (GM i j Hi Hj), !NT by assumption. apply (bar_mass true E a M); auto.
Qed.
Definition pulled (i : nat) : R := if Nat.eqb i 0 then 1 else 0.
Lemma bar_shaking E w K_ M_ : 2 * E = w^2 ->
  (forall i j, (i < 6)%nat -> (j < 6)%nat -> coo_get K_ i j = end_K E i j) -> (forall i j, (i < 6)%nat -> (j < 6)%nat -> coo_get M_ i j = end_M i j) ->
  symmetric_upto 6 (coo_get M_) /\ psd_upto 6 (coo_get M_) /\ symmetric_upto 6 (coo_get K_) /\ mode_of 6 (coo_get K_) (coo_get M_) w pulled
  /\ energy_form 6 (coo_get M_) pulled pulled = 1/2.
Proof.
  intros HE GK GM. split; [|split; [|split; [|split]]].
  - intros i j Hi Hj. rewrite !GM by assumption. unfold end_M. rewrite Nat.eqb_sym. destruct (Nat.eqb_spec j i); [subst; reflexivity|reflexivity].
  - intros x. apply rsum_nonneg. intros i Hi. rewrite (rsum_single 6 i _ Hi).
    + rewrite GM by exact Hi. unfold end_M. rewrite Nat.eqb_refl. assert (0 <= x i ^ 2) by apply pow2_ge_0. destruct (Nat.ltb i 3); lra.
    + intros j Hj NE. rewrite GM by assumption. unfold end_M. destruct (Nat.eqb_spec i j); [congruence|ring].
  - intros i j Hi Hj. rewrite !GK by assumption. unfold end_K.
    destruct i as [|[|[|[|[|[|i]]]]]]; try (exfalso; lia); destruct j as [|[|[|[|[|[|j]]]]]]; try (exfalso; lia); reflexivity.
  - intros i Hi. rewrite (rsum_single 6 0 _ ltac:(lia)); [|intros j Hj NE; unfold pulled; destruct (Nat.eqb_spec j 0); [lia|ring]].
    rewrite (rsum_single 6 0 _ ltac:(lia)); [|intros j Hj NE; unfold pulled; destruct (Nat.eqb_spec j 0); [lia|ring]].
    rewrite GK, GM by lia. rewrite <- HE. unfold end_K, end_M, pulled.
    destruct i as [|[|[|[|[|[|i]]]]]]; try (exfalso; lia); cbn [nth Nat.eqb Nat.ltb Nat.leb]; field.
  - unfold energy_form. rewrite (rsum_single 6 0 _ ltac:(lia)); [|intros j Hj NE; unfold pulled; destruct (Nat.eqb_spec j 0); [lia|ring]].
    rewrite (rsum_single 6 0 _ ltac:(lia)); [|intros j Hj NE; unfold pulled; destruct (Nat.eqb_spec j 0); [lia|ring]].
    rewrite GM by lia. unfold pulled, end_M. cbn [Nat.eqb Nat.ltb Nat.leb]. field.
Qed.
Lemma c124_refuted : exists ops a c N K_ M_ C_ x, read_asb (final bench init (ops ++ [OpAssemble])) = Some a /\ free_system bench a c N K_ M_ C_
  /\ (exists w, 0 < w /\ mode_of N (coo_get K_) (coo_get M_) w x) /\ energy_form N (coo_get C_) x x < 0.
Proof.
  destruct (bar_free 200) as (a & K_ & M_ & C_ & Ha & FS & GK & GM).
  destruct (bar_shaking 200 20 K_ M_ ltac:(lra) GK GM) as (SM & PM & SK & HX & EX).
  exists (bar_calls true p0 p1 [("b", 200)]), a, "C", 6%nat, K_, M_, C_, pulled. split; [exact Ha|]. split; [exact FS|]. split; [exists 20; split; [lra|exact HX]|].
  apply (c124_drives bench a "C" 6 K_ M_ C_ 20 pulled FS SM SK HX); [|lra]. pose proof PI_4. lra.
Qed.
