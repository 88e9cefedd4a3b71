(** Proofs about the thick plate (C88, C89). *)
From Coq Require Import Reals Lra Lia List Arith Ranalysis.
From Verif Require Import Base BaseFacts Csys Sections Element Kernels SpecKernel Thick SpecThick KernelProofs KernelProofs2.
Import ListNotations.
Local Open Scope R_scope.

(** ** Rows of the script as formulas of a side *)
Definition e0 (k : nat) : nat := fst (side_ends k).
Definition e1 (k : nat) : nat := snd (side_ends k).
Lemma tm_b_side xl k : (k < 4)%nat -> tm_b xl k = - side_y xl (e0 k) (e1 k).
Proof. intros H. destruct k as [|[|[|[|]]]]; try lia; unfold tm_b, side_y, cy, at_y, vnth; cbn; ring. Qed.
Lemma tm_c_side xl k : (k < 4)%nat -> tm_c xl k = side_x xl (e0 k) (e1 k).
Proof. intros H. destruct k as [|[|[|[|]]]]; try lia; unfold tm_c, side_x, cx, at_x, vnth; cbn; ring. Qed.
Lemma tm_d_side xl k : (k < 4)%nat -> tm_d xl k = side_l xl (e0 k) (e1 k).
Proof.
  intros H. destruct k as [|[|[|[|]]]]; try lia; unfold tm_d, side_l, side_x, side_y, cx, cy, at_x, at_y, vnth;
    cbn [e0 e1 side_ends nth fst snd]; f_equal; ring.
Qed.

Lemma gamma_row mu t xl d k : (k < 4)%nat -> mvec 12 (tm_Gamma mu t xl) d k
  = tm_delta mu t xl k * (2 * (at_w d (e1 k) - at_w d (e0 k)) - tm_c xl k * (at_gx d (e0 k) + at_gx d (e1 k))
      + tm_b xl k * (at_gy d (e0 k) + at_gy d (e1 k))).
Proof.
  intros H. unfold mvec, tm_Gamma, of_rows, vnth, at_w, at_gx, at_gy, e0, e1.
  destruct k as [|[|[|[|]]]]; try lia; cbn [rsum nth side_ends fst snd Nat.mul Nat.add]; ring.
Qed.
Lemma alpha_row mu t xl d k : (k < 4)%nat -> mvec 12 (tm_alpha mu t xl) d k
  = tm_aw mu t xl k * (at_w d (e1 k) - at_w d (e0 k)) + tm_ax mu t xl k * (at_gx d (e0 k) + at_gx d (e1 k))
      + tm_ay mu t xl k * (at_gy d (e0 k) + at_gy d (e1 k)).
Proof.
  intros H. unfold mvec, tm_alpha, of_rows, vnth, at_w, at_gx, at_gy, e0, e1.
  destruct k as [|[|[|[|]]]]; try lia; cbn [rsum nth side_ends fst snd Nat.mul Nat.add]; ring.
Qed.
Lemma beta_row mu t xl d k : (k < 4)%nat -> mvec 12 (tm_beta mu t xl) d k
  = - tm_bw mu t xl k * (at_w d (e1 k) - at_w d (e0 k)) + tm_ay mu t xl k * (at_gx d (e0 k) + at_gx d (e1 k))
      + tm_by mu t xl k * (at_gy d (e0 k) + at_gy d (e1 k)).
Proof.
  intros H. unfold mvec, tm_beta, of_rows, vnth, at_w, at_gx, at_gy, e0, e1.
  destruct k as [|[|[|[|]]]]; try lia; cbn [rsum nth side_ends fst snd Nat.mul Nat.add]; ring.
Qed.

(** In terms of the slopes along and across. *)
Section Side.
Variables (mu t : R) (xl : list R) (d : nat -> R) (k : nat).
Hypothesis Hk : (k < 4)%nat.
Let i := e0 k.
Let j := e1 k.
Let l := side_l xl i j.
Let dl := tm_delta mu t xl k.
Hypothesis Hl : 0 < l.
Lemma l_sq : side_x xl i j ^ 2 + side_y xl i j ^ 2 = l ^ 2.
Proof. unfold l, side_l. rewrite <- (pow2_sqrt (_ + _)) at 1; [reflexivity|]. pose proof (pow2_ge_0 (side_x xl i j)). pose proof (pow2_ge_0 (side_y xl i j)). lra. Qed.
Lemma gamma_side : mvec 12 (tm_Gamma mu t xl) d k
  = dl * (2 * (at_w d j - at_w d i) - l * (along xl d i j i + along xl d i j j)).
Proof.
  rewrite gamma_row by exact Hk. fold i j dl. rewrite tm_b_side, tm_c_side by exact Hk. fold i j.
  unfold along. fold l. f_equal. field. lra.
Qed.
Lemma alpha_side : mvec 12 (tm_alpha mu t xl) d k
  = ((3/2 * (1 - 2 * dl) * (at_w d j - at_w d i) / l - 1/4 * (1 - 6 * dl) * (along xl d i j i + along xl d i j j)) * side_x xl i j
     - (across xl d i j i + across xl d i j j) / 2 * side_y xl i j) / l.
Proof.
  rewrite alpha_row by exact Hk. unfold tm_aw, tm_ax, tm_ay. fold i j dl.
  rewrite tm_b_side, tm_c_side, tm_d_side by exact Hk. fold i j. unfold along, across. fold l. field. lra.
Qed.
Lemma beta_side : mvec 12 (tm_beta mu t xl) d k
  = ((3/2 * (1 - 2 * dl) * (at_w d j - at_w d i) / l - 1/4 * (1 - 6 * dl) * (along xl d i j i + along xl d i j j)) * side_y xl i j
     + (across xl d i j i + across xl d i j j) / 2 * side_x xl i j) / l.
Proof.
  rewrite beta_row by exact Hk. unfold tm_bw, tm_by, tm_ay. fold i j dl.
  rewrite tm_b_side, tm_c_side, tm_d_side by exact Hk. fold i j. unfold along, across. fold l. field. lra.
Qed.
End Side.

(** ** The strip along a side *)
Lemma same_derivative f g (h : R -> R) : (forall x, derivable_pt_lim f x (h x)) -> (forall x, derivable_pt_lim g x (h x)) ->
  forall x, f x = f 0 - g 0 + g x.
Proof.
  intros F G x. set (u := fun x => f x - g x).
  assert (U : forall x, derivable_pt_lim u x 0).
  { intros y. replace 0 with (h y - h y) by ring. apply derivable_pt_lim_minus; auto. }
  assert (pr : derivable u) by (intros y; exists 0; apply U).
  assert (K : constant u).
  { apply (null_derivative_1 u pr). intros y. apply derive_pt_eq_0. apply U. }
  pose proof (K x 0) as E. unfold u in E. lra.
Qed.
Lemma poly_derive a b c e x : derivable_pt_lim (fun x => a + b * x + c * x^2 + e * x^3) x (b + c * (2 * x) + e * (3 * x^2)).
Proof.
  replace (b + c * (2 * x) + e * (3 * x^2)) with (0 + b * 1 + c * (INR 2 * x ^ 1) + e * (INR 3 * x ^ 2)) by (cbn [INR pow]; ring).
  repeat apply derivable_pt_lim_plus.
  - apply derivable_pt_lim_const.
  - apply (derivable_pt_lim_scal id). apply derivable_pt_lim_id.
  - apply (derivable_pt_lim_scal (fun x => x^2)). apply (derivable_pt_lim_pow x 2).
  - apply (derivable_pt_lim_scal (fun x => x^3)). apply (derivable_pt_lim_pow x 3).
Qed.
Lemma derive_as f g x l l' : (forall z, f z = g z) -> l = l' -> derivable_pt_lim g x l' -> derivable_pt_lim f x l.
Proof. intros E -> H. intros eps He. destruct (H eps He) as (dl & K). exists dl. intros h H1 H2. rewrite !E. now apply K. Qed.

Lemma strip_solved D C l w0 s0 w1 s1 W Psi g : 0 < l -> D <> 0 -> beam_strip D C l w0 s0 w1 s1 W Psi g ->
  let k := C * g / D in
  (w1 - w0) - l * (s0 + s1) / 2 = g * l + k * l^3 / 12 /\ Psi (l / 2) = (s0 + s1) / 2 + k * l^2 / 8.
Proof.
  intros L Dn (W0 & W1 & P0 & P1 & HW & Psi' & HP). intros k.
  pose proof (same_derivative Psi' (fun x => - k * x) (fun _ => - k)) as E1.
  assert (E1' : forall x, Psi' x = Psi' 0 - k * x).
  { intros x. rewrite E1.
    - ring.
    - intros y. apply HP.
    - intros y. apply (derive_as _ (fun x => 0 + - k * x + 0 * x^2 + 0 * x^3) _ _ (- k + 0 * (2 * y) + 0 * (3 * y^2))); [intros; ring|ring|apply poly_derive]. }
  set (a := Psi' 0) in *.
  assert (E2 : forall x, Psi x = s0 + a * x - k / 2 * x^2).
  { intros x. rewrite (same_derivative Psi (fun x => 0 + a * x + - (k / 2) * x^2 + 0 * x^3) (fun x => a - k * x)).
    - rewrite P0. ring.
    - intros y. rewrite <- E1'. apply HP.
    - intros y. apply (derive_as _ (fun x => 0 + a * x + - (k / 2) * x^2 + 0 * x^3) _ _ (a + - (k/2) * (2 * y) + 0 * (3 * y^2))); [reflexivity|field|apply poly_derive]. }
  assert (E3 : forall x, W x = w0 + (s0 + g) * x + a / 2 * x^2 - k / 6 * x^3).
  { intros x. rewrite (same_derivative W (fun x => 0 + (s0 + g) * x + (a / 2) * x^2 + - (k / 6) * x^3) (fun x => Psi x + g)).
    - rewrite W0. ring.
    - exact HW.
    - intros y. rewrite E2. apply (derive_as _ (fun x => 0 + (s0 + g) * x + (a / 2) * x^2 + - (k / 6) * x^3) _ _ (s0 + g + (a / 2) * (2 * y) + - (k/6) * (3 * y^2))); [reflexivity|field|apply poly_derive]. }
  rewrite E2 in P1. rewrite E3 in W1. rewrite E2.
  assert (A : a * l = s1 - s0 + k / 2 * l^2) by lra. split.
  - rewrite <- W1. replace (a / 2 * l^2) with ((a * l) * l / 2) by field. rewrite A. field.
  - replace (a * (l / 2)) with ((a * l) / 2) by field. rewrite A. field.
Qed.

Lemma strip_exists D C l w0 s0 w1 s1 : 0 < l -> 0 < D -> 0 < C -> exists W Psi g, beam_strip D C l w0 s0 w1 s1 W Psi g.
Proof.
  intros L HD HC.
  set (g := ((w1 - w0) - l * (s0 + s1) / 2) / (l + C / D * l^3 / 12)). set (k := C * g / D).
  set (a := (s1 - s0) / l + k / 2 * l).
  assert (Dd : 0 < C / D) by now apply Rdiv_lt_0_compat.
  assert (N : l + C / D * l ^ 3 / 12 <> 0). { assert (0 < l^3) by now apply pow_lt. nra. }
  exists (fun x => w0 + (s0 + g) * x + a / 2 * x^2 + - (k / 6) * x^3), (fun x => s0 + a * x + - (k / 2) * x^2 + 0 * x^3), g.
  unfold beam_strip. split; [ring|]. split.
  { assert (G : g * l + k * l^3 / 12 = (w1 - w0) - l * (s0 + s1) / 2).
    { unfold k. replace (g * l + C * g / D * l ^ 3 / 12) with (g * (l + C / D * l^3 / 12)) by (field; lra). unfold g. field.
      split; [lra|]. intros Q. apply N. replace (l + C / D * l ^ 3 / 12) with ((D * l * 12 + C * l ^ 3) / (12 * D)) by (field; lra).
      match type of Q with ?q = 0 => replace (D * l * 12 + C * l ^ 3) with q by ring end. rewrite Q. field. lra. }
    replace (a / 2 * l^2) with ((a * l) * l / 2) by field. assert (A : a * l = s1 - s0 + k / 2 * l^2) by (unfold a; field; lra).
    rewrite A. lra. }
  split; [ring|]. split; [unfold a; field; lra|]. split.
  - intros x. eapply derive_as; [reflexivity| |apply poly_derive]. field.
  - exists (fun x => a + - k * x + 0 * x^2 + 0 * x^3). intros x. split.
    + eapply derive_as; [reflexivity| |apply poly_derive]. field.
    + eapply derive_as; [reflexivity| |apply poly_derive]. fold k. ring.
Qed.

Lemma stiffness_ratio E mu t : 0 < E -> -1 < mu < 1 -> 0 < t ->
  shear_stiffness E mu t / bending_stiffness E mu t = 5 * (1 - mu) / t^2.
Proof. intros HE Hm Ht. unfold shear_stiffness, bending_stiffness. field. repeat split; nra. Qed.
Lemma stiffness_pos E mu t : 0 < E -> -1 < mu < 1 -> 0 < t -> 0 < shear_stiffness E mu t /\ 0 < bending_stiffness E mu t.
Proof.
  intros HE Hm Ht. unfold shear_stiffness, bending_stiffness. split.
  - apply Rmult_lt_0_compat; [|lra]. apply Rmult_lt_0_compat; [lra|]. apply Rdiv_lt_0_compat; lra.
  - apply Rdiv_lt_0_compat; [|nra]. apply Rmult_lt_0_compat; [lra|]. now apply pow_lt.
Qed.
Lemma delta_ratio mu t l : mu < 1 -> 0 < t -> 0 < l ->
  2 * ((t / l)^2 / (5/6 * (1 - mu) + 2 * (t / l)^2)) = / (1 + 5 * (1 - mu) / t^2 * l^2 / 12).
Proof.
  intros Hm Ht Hl. assert (T2 : 0 < t^2) by now apply pow_lt. assert (L2 : 0 < l^2) by now apply pow_lt.
  field. repeat split; try lra; nra.
Qed.

Lemma c88_side E mu t xl d k W Psi g : 0 < E -> -1 < mu < 1 -> 0 < t -> (k < 4)%nat ->
  let (i, j) := side_ends k in let l := side_l xl i j in 0 < l ->
  beam_strip (bending_stiffness E mu t) (shear_stiffness E mu t) l
    (at_w d i) (along xl d i j i) (at_w d j) (along xl d i j j) W Psi g ->
  mvec 12 (tm_Gamma mu t xl) d k = g * l /\
  mvec 12 (tm_alpha mu t xl) d k = (Psi (l / 2) * side_x xl i j - (across xl d i j i + across xl d i j j) / 2 * side_y xl i j) / l /\
  mvec 12 (tm_beta mu t xl) d k = (Psi (l / 2) * side_y xl i j + (across xl d i j i + across xl d i j j) / 2 * side_x xl i j) / l.
Proof.
  intros HE Hm Ht Hk. destruct (side_ends k) as [i j] eqn:Es. intros l Hl S.
  assert (Ei : i = e0 k) by (unfold e0; now rewrite Es). assert (Ej : j = e1 k) by (unfold e1; now rewrite Es).
  destruct (stiffness_pos E mu t HE Hm Ht) as [CP DP].
  apply strip_solved in S as [S1 S2]; [|exact Hl|lra].
  replace (shear_stiffness E mu t * g / bending_stiffness E mu t) with (5 * (1 - mu) / t^2 * g) in S1, S2
    by (rewrite <- (stiffness_ratio E mu t HE Hm Ht); field; lra).
  set (q := 5 * (1 - mu) / t ^ 2) in *. set (p := along xl d i j i + along xl d i j j) in *.
  assert (Q : 0 < q) by (apply Rdiv_lt_0_compat; [lra|now apply pow_lt]).
  assert (Dl : 2 * tm_delta mu t xl k = / (1 + q * l^2 / 12)).
  { unfold tm_delta. rewrite tm_d_side by exact Hk. rewrite <- Ei, <- Ej. fold l. now apply delta_ratio. }
  assert (Z : 0 < 1 + q * l^2 / 12). { assert (0 < l^2) by now apply pow_lt. nra. }
  assert (G : at_w d j - at_w d i = g * l * (1 + q * l^2 / 12) + l * p / 2) by lra.
  rewrite gamma_side, alpha_side, beta_side by (exact Hk || (rewrite <- Ei, <- Ej; exact Hl)).
  rewrite <- Ei, <- Ej. fold l p. rewrite S2.
  assert (D1 : tm_delta mu t xl k = / (1 + q * l^2 / 12) / 2) by lra. rewrite D1, G.
  assert (N : 12 + q * l^2 <> 0) by lra. split; [|split].
  - field. nra.
  - field. split; [lra|nra].
  - field. split; [lra|nra].
Qed.

Lemma c88_side_exists E mu t xl d k : 0 < E -> -1 < mu < 1 -> 0 < t -> (k < 4)%nat ->
  let (i, j) := side_ends k in let l := side_l xl i j in 0 < l ->
  exists W Psi g, beam_strip (bending_stiffness E mu t) (shear_stiffness E mu t) l
    (at_w d i) (along xl d i j i) (at_w d j) (along xl d i j j) W Psi g.
Proof.
  intros HE Hm Ht Hk. destruct (side_ends k) as [i j]. intros l Hl. destruct (stiffness_pos E mu t HE Hm Ht) as [CP DP].
  now apply strip_exists.
Qed.

(** ** Thin plates *)
Lemma sq_pos x : x <> 0 -> 0 < x^2.
Proof. intros H. pose proof (pow2_ge_0 x). assert (x^2 <> 0) by now apply pow_nonzero. lra. Qed.
Lemma c88_thin mu t xl d k : mu < 1 -> (k < 4)%nat -> let (i, j) := side_ends k in let l := side_l xl i j in 0 < l ->
  Rabs (mvec 12 (tm_Gamma mu t xl) d k)
  <= 6 / (5 * (1 - mu)) * (t / l)^2 * Rabs (2 * (at_w d j - at_w d i) - l * (along xl d i j i + along xl d i j j)).
Proof.
  intros Hm Hk. destruct (side_ends k) as [i j] eqn:Es. intros l Hl.
  assert (Ei : i = e0 k) by (unfold e0; now rewrite Es). assert (Ej : j = e1 k) by (unfold e1; now rewrite Es).
  rewrite gamma_side by (exact Hk || (rewrite <- Ei, <- Ej; exact Hl)). rewrite <- Ei, <- Ej. fold l. rewrite Rabs_mult.
  apply Rmult_le_compat_r; [apply Rabs_pos|]. unfold tm_delta. rewrite tm_d_side by exact Hk. rewrite <- Ei, <- Ej. fold l.
  pose proof (pow2_ge_0 (t / l)) as T. set (q := (t / l)^2) in *.
  assert (P : 0 <= q / (5/6 * (1 - mu) + 2 * q)) by (apply Rmult_le_pos; [exact T|]; left; apply Rinv_0_lt_compat; lra).
  rewrite Rabs_right by lra. replace (6 / (5 * (1 - mu)) * q) with (q / (5/6 * (1 - mu))) by (field; lra).
  unfold Rdiv. apply Rmult_le_compat_l; [exact T|]. apply Rinv_le_contravar; lra.
Qed.

Lemma delta_zero mu xl k : tm_delta mu 0 xl k = 0.
Proof. unfold tm_delta, Rdiv. rewrite Rmult_0_l. cbn [pow]. ring. Qed.
Lemma c88_kirchhoff mu xl d s r : four_sides xl ->
  eight_node (at_gx d) (mvec 12 (tm_alpha mu 0 xl) d) s r = quad_slope_x xl (as_rotations d) s r /\
  eight_node (at_gy d) (mvec 12 (tm_beta mu 0 xl) d) s r = quad_slope_y xl (as_rotations d) s r.
Proof.
  intros F.
  assert (L : forall k, (k < 4)%nat -> 0 < side_l xl (e0 k) (e1 k)).
  { intros k Hk. apply sqrt_lt_R0.
    assert (I : In (e0 k, e1 k) [(0, 1); (1, 2); (2, 3); (3, 0)]%nat).
    { destruct k as [|[|[|[|]]]]; try lia; cbn; auto. }
    apply F in I. unfold side_x, side_y.
    destruct I as [I|I].
    - pose proof (pow2_ge_0 (at_y xl (e1 k) - at_y xl (e0 k))). assert (0 < (at_x xl (e1 k) - at_x xl (e0 k))^2); [|lra]. apply sq_pos. lra.
    - pose proof (pow2_ge_0 (at_x xl (e1 k) - at_x xl (e0 k))). assert (0 < (at_y xl (e1 k) - at_y xl (e0 k))^2); [|lra]. apply sq_pos. lra. }
  assert (V : forall i, (i < 4)%nat -> corner_gx (as_rotations d) i = at_gx d i /\ corner_gy (as_rotations d) i = at_gy d i /\ corner_w (as_rotations d) i = at_w d i).
  { intros i Hi. unfold corner_gx, corner_gy, corner_w, as_rotations. destruct i as [|[|[|[|]]]]; try lia; cbn [Nat.mul Nat.add Nat.div Nat.modulo Nat.divmod fst snd Nat.sub]; repeat split; ring. }
  assert (K : forall k, (k < 4)%nat -> mvec 12 (tm_alpha mu 0 xl) d k = mid_gx xl (as_rotations d) (e0 k) (e1 k)
     /\ mvec 12 (tm_beta mu 0 xl) d k = mid_gy xl (as_rotations d) (e0 k) (e1 k)).
  { intros k Hk. specialize (L k Hk). rewrite alpha_side, beta_side by assumption. rewrite delta_zero.
    assert (I0 : (e0 k < 4)%nat) by (destruct k as [|[|[|[|]]]]; cbn; lia).
    assert (I1 : (e1 k < 4)%nat) by (destruct k as [|[|[|[|]]]]; cbn; lia).
    destruct (V _ I0) as (A1 & A2 & A3). destruct (V _ I1) as (B1 & B2 & B3).
    unfold mid_gx, mid_gy, mid_along, mid_across. cbv zeta. rewrite A1, A2, A3, B1, B2, B3. unfold along, across.
    split; field; lra. }
  unfold eight_node, quad_slope_x, quad_slope_y.
  destruct (K 0%nat) as [K0 K0']; [lia|]. destruct (K 1%nat) as [K1 K1']; [lia|].
  destruct (K 2%nat) as [K2 K2']; [lia|]. destruct (K 3%nat) as [K3 K3']; [lia|].
  rewrite K0, K1, K2, K3, K0', K1', K2', K3'.
  destruct (V 0%nat) as (-> & -> & _); [lia|]. destruct (V 1%nat) as (-> & -> & _); [lia|].
  destruct (V 2%nat) as (-> & -> & _); [lia|]. destruct (V 3%nat) as (-> & -> & _); [lia|]. split; reflexivity.
Qed.
