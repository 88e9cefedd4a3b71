(** The lowest mode of the bars of the examples (C121).
    (Examples only; nothing here is part of the model.) *)
From Coq Require Import Reals Lra Lia List String Arith Bool ZArith Sorting.Permutation.
From Verif Require Import Base BaseFacts Csys Sections Element Load FeModel Assembly Solver Post Api
  SpecApi ApiFacts WfFacts HidFacts ApiProofs1 LoadFacts SpecElim ElimFacts SpecGeom CsysFacts SpecBeam BeamFacts AsmFacts SpecAsm AsmProofs
  AsmTotal AsmProofs2 SpecLoad LoadProofs AsmProofs3 SpecSolve AsmSolve Demo SolveDemo SpecMass MassProofs SpecStatics StaticsProofs StaticsProofs2
  SpecTold ToldProofs SpecToldLoad ToldLoadProofs SpecSame SameProofs SameProofs2
  StaticsMain StaticsDemo StaticsDemo2 StaticsDemo3 Dynamic SpecDyn DynProofs DynDemo SpecModal ModalProofs SpecModal2 ModalProofs2 ModalDemo SpecFreq FreqProofs FreqProofs2.
Import ListNotations.
Local Open Scope string_scope.
Local Open Scope list_scope.
Local Open Scope R_scope.

(** An eigensolver that knows the lowest pair of one system. *)
Definition entries_are (N : nat) (A : coo) (f : nat -> nat -> R) : bool :=
  forallb (fun i => forallb (fun j => Reqb (coo_get A i j) (f i j)) (seq 0 N)) (seq 0 N).
Definition knows (N0 : nat) (Kf Mf : nat -> nat -> R) (l : R) (x : list R) : eigensolver := fun N k K M =>
  if (N =? N0)%nat && (k <? N)%nat && entries_are N K Kf && entries_are N M Mf then Some ([l], [x]) else None.
Lemma entries_true N A f : entries_are N A f = true <-> forall i j, (i < N)%nat -> (j < N)%nat -> coo_get A i j = f i j.
Proof.
  unfold entries_are. rewrite forallb_forall. split.
  - intros H i j Hi Hj. specialize (H i ltac:(apply in_seq; lia)). rewrite forallb_forall in H. apply Reqb_true, H, in_seq. lia.
  - intros H i Hi. apply forallb_forall. intros j Hj. apply in_seq in Hi, Hj. apply Reqb_true, H; lia.
Qed.
Lemma knows_some N0 Kf Mf l x N k K M o modes : knows N0 Kf Mf l x N k K M = Some (o, modes) ->
  N = N0 /\ o = [l] /\ modes = [x] /\ (forall i j, (i < N)%nat -> (j < N)%nat -> coo_get K i j = Kf i j) /\ (forall i j, (i < N)%nat -> (j < N)%nat -> coo_get M i j = Mf i j).
Proof.
  unfold knows. destruct (_ && _) eqn:E; [|discriminate]. intros H. apply some_inj in H. rewrite !andb_true_iff in E. destruct E as (((E1 & _) & E3) & E4).
  apply Nat.eqb_eq in E1. rewrite entries_true in E3, E4. repeat split; auto; congruence.
Qed.
Lemma knows_exact N0 Kf Mf l x : (exists j, (j < N0)%nat /\ nth j x 0 <> 0) ->
  (forall r, (r < N0)%nat -> rsum N0 (fun j => Kf r j * nth j x 0) = l * rsum N0 (fun j => Mf r j * nth j x 0)) -> exact_eigen (knows N0 Kf Mf l x).
Proof.
  intros NZ EQ N k K M o modes H i lambda y HO HX. apply knows_some in H as (-> & -> & -> & HK & HM).
  destruct i as [|i]; [|destruct i; discriminate]. cbn in HO, HX. apply some_inj in HO, HX. subst. split; [exact NZ|]. intros r Hr.
  transitivity (rsum N0 (fun j => Kf r j * nth j y 0)); [apply rsum_ext; intros j Hj; rewrite HK by assumption; reflexivity|].
  rewrite (EQ r Hr). f_equal. apply rsum_ext. intros j Hj. rewrite HM by assumption. reflexivity.
Qed.
Definition form_of (N : nat) (f : nat -> nat -> R) (x y : nat -> R) : R := rsum N (fun r => x r * rsum N (fun j => f r j * y j)).
Lemma knows_lowest N0 Kf Mf l x : (forall v, form_of N0 Mf v (entries x) = 0 -> l * form_of N0 Mf v v <= form_of N0 Kf v v) -> lowest_eigen (knows N0 Kf Mf l x).
Proof.
  intros LE N k K M o modes H. apply knows_some in H as (-> & -> & -> & HK & HM).
  assert (E : forall A f y z, (forall i j, (i < N0)%nat -> (j < N0)%nat -> coo_get A i j = f i j) -> product_with N0 A y z = form_of N0 f y z).
  { intros A f y z H. unfold product_with, form_of. apply rsum_ext. intros r Hr. f_equal. apply rsum_ext. intros j Hj. rewrite H by assumption. reflexivity. }
  split.
  - reflexivity.
  - intros i j a b L A B. destruct i; [|destruct i; discriminate]. destruct j; [|destruct j; discriminate]. cbn in A, B. apply some_inj in A, B. subst. apply Rle_refl.
  - intros i j y z NE A B. destruct i; [|destruct i; discriminate]. destruct j; [|destruct j; discriminate]. congruence.
  - intros v OR a [<-|[]]. rewrite (E M Mf v v HM), (E K Kf v v HK). apply LE. rewrite <- (E M Mf _ _ HM). apply OR. left. reflexivity.
Qed.

(** Stiffness and mass of the free end. *)
Definition end_K (E : R) (i j : nat) : R := E * nth j (nth i
  [[1;0;0;0;0;0]; [0;12;0;0;0;-6]; [0;0;12;0;6;0]; [0;0;0;1/2;0;0]; [0;0;6;0;4;0]; [0;-6;0;0;0;4]] []) 0.
Definition end_M (i j : nat) : R := if Nat.eqb i j then (if Nat.ltb i 3 then 1/2 else 1/1000000000000) else 0.
Definition kept (i : nat) : nat := match i with O => 0 | S k => S (S k) end%nat.
Definition bar_mode (E : R) : eigensolver := knows 6 (end_K E) end_M (2 * E) [1;0;0;0;0;0].
Definition guided_mode (E : R) : eigensolver := knows 5 (fun i j => end_K E (kept i) (kept j)) (fun i j => end_M (kept i) (kept j)) (2 * E) [1;0;0;0;0].
Lemma bar_mode_exact E : exact_eigen (bar_mode E).
Proof.
  apply knows_exact; [exists 0%nat; split; [lia|cbn; lra]|]. intros r Hr. destruct r as [|[|[|[|[|[|r]]]]]]; try lia; unfold end_K, end_M; cbn [rsum nth Nat.eqb Nat.ltb Nat.leb kept]; field.
Qed.
Lemma guided_mode_exact E : exact_eigen (guided_mode E).
Proof.
  apply knows_exact; [exists 0%nat; split; [lia|cbn; lra]|]. intros r Hr. destruct r as [|[|[|[|[|r]]]]]; try lia; unfold end_K, end_M; cbn [rsum nth Nat.eqb Nat.ltb Nat.leb kept]; field.
Qed.
Lemma bar_mode_lowest E : 0 < E -> lowest_eigen (bar_mode E).
Proof.
  intros P. apply knows_lowest. intros v. unfold form_of, entries, end_K, end_M. cbn [rsum nth Nat.eqb Nat.ltb Nat.leb kept]. intros O. assert (Z : v 0%nat = 0) by lra. rewrite Z.
  set (a := v 1%nat). set (b := v 2%nat). set (c := v 3%nat). set (d := v 4%nat). set (f := v 5%nat).
  assert (Q : 0 <= E * (11 * (a - 6/11 * f)^2 + 11 * (b + 6/11 * d)^2 + (4 - 36/11 - 2/1000000000000) * (f^2 + d^2) + (1/2 - 2/1000000000000) * c^2)).
  { apply Rmult_le_pos; [lra|]. pose proof (pow2_ge_0 (a - 6/11*f)). pose proof (pow2_ge_0 (b + 6/11*d)). pose proof (pow2_ge_0 f). pose proof (pow2_ge_0 d). pose proof (pow2_ge_0 c). lra. }
  match goal with |- ?x <= ?y => match type of Q with 0 <= ?z => enough (y - x = z) by lra end end. field.
Qed.
Lemma guided_mode_lowest E : 0 < E -> lowest_eigen (guided_mode E).
Proof.
  intros P. apply knows_lowest. intros v. unfold form_of, entries, end_K, end_M. cbn [rsum nth Nat.eqb Nat.ltb Nat.leb kept]. intros O. assert (Z : v 0%nat = 0) by lra. rewrite Z.
  set (b := v 1%nat). set (c := v 2%nat). set (d := v 3%nat). set (f := v 4%nat).
  assert (Q : 0 <= E * (11 * (b + 6/11 * d)^2 + (4 - 2/1000000000000) * f^2 + (4 - 36/11 - 2/1000000000000) * d^2 + (1/2 - 2/1000000000000) * c^2)).
  { apply Rmult_le_pos; [lra|]. pose proof (pow2_ge_0 (b + 6/11*d)). pose proof (pow2_ge_0 f). pose proof (pow2_ge_0 d). pose proof (pow2_ge_0 c). lra. }
  match goal with |- ?x <= ?y => match type of Q with 0 <= ?z => enough (y - x = z) by lra end end. field.
Qed.

Section Bar.
Variables (ab : bool) (E : R).
Let bs := [("b", E)].
Let ops := bar_calls ab p0 p1 bs.
Let w := final bench init (ops ++ [OpAssemble]).
Let iB := if ab then 1%nat else 0%nat.
Lemma one_nodup : NoDup (map fst bs).
Proof. repeat constructor. intros []. Qed.
Lemma bar_wf : fem_wf (bar_fem ab p0 p1 bs).
Proof. apply (assembled_good bench _ w _ eq_refl (told_guard _ _ (bar_told bench ab p0 p1 bs)) (bars_model bench ab p0 p1 bs sep_p one_nodup)). Qed.
Lemma bar_entry a K i j : a_model a = bar_fem ab p0 p1 bs -> assemble_K zero_ker a = Some K -> (i < 6)%nat -> (j < 6)%nat -> coo_get K (6 * iB + i) (6 * iB + j) = end_K E i j.
Proof.
  intros Em HK Hi Hj. rewrite <- bil_delta. destruct (assemble_K_bil zero_ker a K (delta (6 * iB + i)) (delta (6 * iB + j)) ltac:(rewrite Em; exact bar_wf) HK) as (-> & _).
  rewrite Em. cbn [bar_fem f_beams f_shells bs map dvals lsum snd fst].
  unfold beam_work. cbn [b_ni b_nj b_prop bar_beam]. unfold nd, node_at, n_loc; cbn [n_csys cs_O]. rewrite !vec_eta.
  rewrite dist_p. unfold p0, p1. rewrite demo_x, demo_y, demo_z. unfold beam_ends, bar_beam; cbn [b_ni b_nj n_name nd node_at].
  replace (num _ "A") with (if ab then 0%nat else 1%nat) by (destruct ab; reflexivity). replace (num _ "B") with (if ab then 1%nat else 0%nat) by (destruct ab; reflexivity).
  replace (props (PSimple E 0 1 1 1 1 1)) with (Stiff E (E/2) E E) by (cbn [props]; f_equal; field).
  unfold member_work, ends_along, ends_at, along, disp_at, rot_at, dot3, iB; cbn [EA GJ EI2 EI3 d_i d_j r_i r_j vx vy vz].
  destruct ab; cbn [Nat.mul Nat.add];
  destruct i as [|[|[|[|[|[|i]]]]]]; try (exfalso; lia); destruct j as [|[|[|[|[|[|j]]]]]]; try (exfalso; lia); unfold delta, end_K; cbn [Nat.eqb nth Nat.add]; unfold bend; field.
Qed.
Lemma bar_mass a M i j : a_model a = bar_fem ab p0 p1 bs -> assemble_M a None = Some M -> (i < 6)%nat -> (j < 6)%nat -> coo_get M (6 * iB + i) (6 * iB + j) = end_M i j.
Proof.
  intros Em HM Hi Hj. rewrite <- bil_delta. destruct (assemble_M_bil a M (delta (6 * iB + i)) (delta (6 * iB + j)) ltac:(rewrite Em; exact bar_wf) HM) as (-> & _).
  rewrite Em.
  assert (NZ : forall x y, lsum (map (node_inertia (bar_fem ab p0 p1 bs) x y) (f_nodes (bar_fem ab p0 p1 bs))) = 0).
  { intros x y. destruct ab; cbn [bar_fem f_nodes map lsum]; unfold node_inertia; cbn [fst snd nd node_at n_mass];
    rewrite !(rsum_0 6 (fun i => nth i [0;0;0;0;0;0] 0 * _ * _)) by (intros z Hz; destruct z as [|[|[|[|[|[|z]]]]]]; try lia; cbn [nth]; ring); ring. }
  rewrite NZ. cbn [bar_fem f_beams bs map dvals lsum snd fst].
  unfold member_inertia, member_mass. cbn [b_ni b_nj b_prop bar_beam density area]. unfold nd, node_at, n_loc; cbn [n_csys cs_O]. rewrite !vec_eta, dist_p.
  unfold beam_ends, bar_beam; cbn [b_ni b_nj n_name nd node_at].
  replace (num _ "A") with (if ab then 0%nat else 1%nat) by (destruct ab; reflexivity). replace (num _ "B") with (if ab then 1%nat else 0%nat) by (destruct ab; reflexivity).
  unfold ends_at, disp_at, rot_at, dot3, iB; cbn [d_i d_j r_i r_j vx vy vz].
  destruct ab; cbn [Nat.mul Nat.add];
  destruct i as [|[|[|[|[|[|i]]]]]]; try (exfalso; lia); destruct j as [|[|[|[|[|[|j]]]]]]; try (exfalso; lia); unfold delta, end_M; cbn [Nat.eqb Nat.ltb Nat.leb Nat.add]; field.
Qed.
Lemma bar_all : exists a K M, read_asb w = Some a /\ a_model a = bar_fem ab p0 p1 bs /\ a_cases a = bar_cases /\ a_dof a = 6%Z
  /\ a_fixed a = (if ab then [0;1;2;3;4;5] else [6;7;8;9;10;11])%nat /\ assemble_K zero_ker a = Some K /\ assemble_M a None = Some M.
Proof.
  pose proof (told_guard _ _ (bar_told bench ab p0 p1 bs)) as NR. fold ops in NR.
  destruct (assembled_now bench ops NR) as (_ & a & Ha & Em & _ & Ec & _ & _ & _ & Ef & Ed). fold w in Ha, Em, Ec.
  destruct (bar_asm bench ab p0 p1 (axis_x p0 p1) bs sep_p one_nodup) as (a0 & Ha0 & Em0 & _ & Ec0 & _).
  change (read_asb w = Some a0) in Ha0. rewrite Ha in Ha0. apply some_inj in Ha0. subst a0.
  destruct (bar_stiff bench ab p0 p1 (axis_x p0 p1) bs sep_p one_nodup) as (K & HK). change (stiffness bench w = Some K) in HK. unfold stiffness in HK. rewrite Ha in HK. cbn [bindO] in HK.
  destruct (c40_defined bench (ops ++ [OpAssemble]) w _ eq_refl NR (bars_model bench ab p0 p1 bs sep_p one_nodup)) as (M & HM). unfold mass_matrix in HM. rewrite Ha in HM. cbn [bindO] in HM.
  assert (AF : a_fixed a = (if ab then [0;1;2;3;4;5] else [6;7;8;9;10;11])%nat).
  { rewrite Em0 in Ef. symmetry. destruct ab; apply some_inj; rewrite <- Ef; reflexivity. }
  exists a, K, M. split; [exact Ha|]. split; [exact Em0|]. split; [exact Ec0|]. split; [|split; [exact AF|split; [exact HK|exact HM]]].
  rewrite Ed, AF, Em0. destruct ab; reflexivity.
Qed.
Lemma bar_C a : read_asb w = Some a -> solve_eigen (x_ker bench) (bar_mode E) a "C" (Modal 1 None) = Some ([[1;0;0;0;0;0]], [2 * E]).
Proof.
  intros Ha. destruct bar_all as (a0 & K & M & Ha0 & Em & Ec & Ed & Ef & HK & HM). rewrite Ha in Ha0. apply some_inj in Ha0. subst a0.
  destruct (assemble_K_bil zero_ker a K (fun _ => 0) (fun _ => 0) ltac:(rewrite Em; exact bar_wf) HK) as (_ & RK).
  destruct (assemble_M_bil a M (fun _ => 0) (fun _ => 0) ltac:(rewrite Em; exact bar_wf) HM) as (_ & RM).
  assert (S12 : size (a_model a) = 12%nat) by (rewrite Em; unfold size; destruct ab; reflexivity). rewrite S12 in RK, RM.
  set (fx := (if ab then [0;1;2;3;4;5] else [6;7;8;9;10;11])%nat).
  assert (ND : NoDup fx) by (unfold fx; destruct ab; repeat constructor; cbn; lia).
  assert (BB : forall i, In i fx -> (i < 12)%nat) by (unfold fx; destruct ab; intros i; cbn; lia).
  destruct (drop_matrix_free 12 K _ ND BB RK) as (K_ & EK & _ & GK). destruct (drop_matrix_free 12 M _ ND BB RM) as (M_ & EM & _ & GM).
  assert (FR : free 12 fx = map (fun i => (6 * iB + i)%nat) (seq 0 6)) by (unfold fx, iB; destruct ab; reflexivity).
  rewrite FR, map_length, seq_length in EK, EM, GK, GM.
  assert (NT : forall i, (i < 6)%nat -> nth i (map (fun i => (6 * iB + i)%nat) (seq 0 6)) 0%nat = (6 * iB + i)%nat) by (intros i Hi; do 6 (destruct i as [|i]; [reflexivity|]); lia).
  unfold solve_eigen. change (x_ker bench) with zero_ker. cbn [ms_base ms_n]. rewrite HK. cbn [bindO]. rewrite HM. cbn [bindO].
  unfold boundary_dofs. rewrite Ec. cbn [bar_cases dget String.eqb Ascii.eqb Bool.eqb bindO c_rest one_case]. rewrite Ef. fold fx.
  replace (node_count (a_model a) * 6)%nat with 12%nat by (rewrite <- S12; unfold size, node_count; lia). rewrite EK. cbn [bindO]. rewrite EM. cbn [bindO fst snd]. rewrite Ed.
  change (if Z.ltb 6 (Z.of_nat 1) then Z.to_nat 6 else 1%nat) with 1%nat.
  unfold bar_mode, knows.
  replace (entries_are 6 K_ (end_K E)) with true by (symmetry; apply entries_true; intros i j Hi Hj; rewrite (GK i j Hi Hj), !NT by assumption; apply (bar_entry a K); auto).
  replace (entries_are 6 M_ end_M) with true by (symmetry; apply entries_true; intros i j Hi Hj; rewrite (GM i j Hi Hj), !NT by assumption; apply (bar_mass a M); auto).
  reflexivity.
Qed.
Lemma bar_S a : read_asb w = Some a -> solve_eigen (x_ker bench) (guided_mode E) a "S" (Modal 1 None) = Some ([[1;0;0;0;0]], [2 * E]).
Proof.
  intros Ha. destruct bar_all as (a0 & K & M & Ha0 & Em & Ec & Ed & Ef & HK & HM). rewrite Ha in Ha0. apply some_inj in Ha0. subst a0.
  destruct (assemble_K_bil zero_ker a K (fun _ => 0) (fun _ => 0) ltac:(rewrite Em; exact bar_wf) HK) as (_ & RK).
  destruct (assemble_M_bil a M (fun _ => 0) (fun _ => 0) ltac:(rewrite Em; exact bar_wf) HM) as (_ & RM).
  assert (S12 : size (a_model a) = 12%nat) by (rewrite Em; unfold size; destruct ab; reflexivity). rewrite S12 in RK, RM.
  set (fx := (if ab then [0;1;2;3;4;5;7] else [6;7;8;9;10;11;1])%nat).
  assert (ND : NoDup fx) by (unfold fx; destruct ab; repeat constructor; cbn; lia).
  assert (BB : forall i, In i fx -> (i < 12)%nat) by (unfold fx; destruct ab; intros i; cbn; lia).
  destruct (drop_matrix_free 12 K _ ND BB RK) as (K_ & EK & _ & GK). destruct (drop_matrix_free 12 M _ ND BB RM) as (M_ & EM & _ & GM).
  assert (FR : free 12 fx = map (fun i => (6 * iB + kept i)%nat) (seq 0 5)) by (unfold fx, iB; destruct ab; reflexivity).
  rewrite FR, map_length, seq_length in EK, EM, GK, GM.
  assert (NT : forall i, (i < 5)%nat -> nth i (map (fun i => (6 * iB + kept i)%nat) (seq 0 5)) 0%nat = (6 * iB + kept i)%nat) by (intros i Hi; do 5 (destruct i as [|i]; [reflexivity|]); lia).
  assert (KB : forall i, (i < 5)%nat -> (kept i < 6)%nat) by (intros [|i] Hi; cbn; lia).
  unfold solve_eigen. change (x_ker bench) with zero_ker. cbn [ms_base ms_n]. rewrite HK. cbn [bindO]. rewrite HM. cbn [bindO].
  unfold boundary_dofs. rewrite Ec. cbn [bar_cases dget String.eqb Ascii.eqb Bool.eqb bindO c_rest one_case]. rewrite Em.
  replace (rest_dofs _ _) with (Some fx) by (unfold fx; destruct ab; reflexivity). cbn [bindO]. rewrite <- Em.
  replace (node_count (a_model a) * 6)%nat with 12%nat by (rewrite <- S12; unfold size, node_count; lia). rewrite EK. cbn [bindO]. rewrite EM. cbn [bindO fst snd]. rewrite Ed.
  change (if Z.ltb 6 (Z.of_nat 1) then Z.to_nat 6 else 1%nat) with 1%nat.
  unfold guided_mode, knows.
  replace (entries_are 5 K_ _) with true by (symmetry; apply entries_true; intros i j Hi Hj; rewrite (GK i j Hi Hj), !NT by assumption; apply (bar_entry a K); auto).
  replace (entries_are 5 M_ _) with true by (symmetry; apply entries_true; intros i j Hi Hj; rewrite (GM i j Hi Hj), !NT by assumption; apply (bar_mass a M); auto).
  reflexivity.
Qed.
Lemma bar_massive : massive w.
Proof.
  intros m0 H. change (assembled_model w = Some m0) in H. pose proof (bars_model bench ab p0 p1 bs sep_p one_nodup) as X. change (assembled_model w = Some (bar_fem ab p0 p1 bs)) in X.
  rewrite X in H. apply some_inj in H. subst m0. split.
  - intros k n i H. assert (Z : n_mass n = [0;0;0;0;0;0]) by (cbn [bar_fem f_nodes] in H; destruct ab; destruct H as [H|[H|[]]]; injection H as _ <-; reflexivity).
    rewrite Z. destruct i as [|[|[|[|[|[|i]]]]]]; try destruct i; cbn [nth]; lra.
  - intros k b [H|[]]. injection H as _ <-. cbn [bar_beam b_prop density area]. lra.
Qed.
End Bar.

Lemma bars_nodes_told ab ab' p q bs bs' t t' k : holds (bar_fem ab p q bs) t -> holds (bar_fem ab' p q bs') t' -> t_node t' k = t_node t k.
Proof.
  intros H H'. rewrite (told_node _ _ _ H), (told_node _ _ _ H'). cbn [bar_fem f_nodes]. destruct ab, ab'; cbn [dget];
  destruct (String.eqb_spec k "A") as [EA|NA]; destruct (String.eqb_spec k "B") as [EB|NB]; try reflexivity; exfalso; congruence.
Qed.
Lemma bars_lighter ab ab' p q bs bs' t t' : holds (bar_fem ab p q bs) t -> holds (bar_fem ab' p q bs') t' ->
  (forall k, match dget k bs, dget k bs' with Some E, Some E' => E <= E' | None, None => True | _, _ => False end) -> stiffer_lighter t t'.
Proof.
  intros H H' L. constructor; intros k.
  - rewrite (bars_nodes_told ab ab' p q bs bs' t t' k H H'). destruct (t_node t k) as [[x m]|]; [|exact I]. split; [reflexivity|]. intros; apply Rle_refl.
  - rewrite (told_shell _ _ _ H), (told_shell _ _ _ H'). reflexivity.
  - rewrite (bars_beam _ _ _ _ _ _ H), (bars_beam _ _ _ _ _ _ H'). specialize (L k). destruct (dget k bs), (dget k bs'); cbn [option_map]; auto.
    split; [reflexivity|]. split; [reflexivity|]. split; [unfold no_softer; cbn; repeat split; lra|cbn; lra].
Qed.
