(** Bounds of the hyperbolic tangent and of the series used for torsion constants. *)
From Coq Require Import Reals Lra Lia List ZArith.
From Verif Require Import Base Sections SpecBeam BeamFacts.
Import ListNotations.
Local Open Scope R_scope.

Lemma dexp x : derivable_pt_lim (fun x => exp (- x)) x (- exp (- x)).
Proof.
  replace (- exp (- x)) with (exp (- x) * (- 1)) by ring.
  apply (derivable_pt_lim_comp (fun x => - x) exp x (-1) (exp (- x))).
  - change (fun x => - x) with (opp_fct id). apply derivable_pt_lim_opp, derivable_pt_lim_id.
  - apply derivable_pt_lim_exp.
Qed.

Lemma grow p s x : 0 <= x -> (forall c, 0 <= c -> 0 <= peval (pder p) c - s * exp (- c)) ->
  0 <= peval p 0 + s -> 0 <= peval p x + s * exp (- x).
Proof.
  intros Hx Hd H0. destruct Hx as [Hx|<-].
  2:{ rewrite Ropp_0, exp_0. lra. }
  destruct (MVT_cor2 (fun x => peval p x + s * exp (- x)) (fun c => peval (pder p) c + s * (- exp (- c))) 0 x Hx) as (c & E & Hc).
  - intros c _. apply derivable_pt_lim_plus; [apply peval_derivable|]. apply derivable_pt_lim_scal, dexp.
  - rewrite Ropp_0, exp_0 in E. specialize (Hd c ltac:(lra)).
    assert (0 <= (peval (pder p) c + s * - exp (- c)) * (x - 0)) by (apply Rmult_le_pos; lra). lra.
Qed.

Lemma exp_lower x : 0 <= x -> 1 - x + x^2/2 - x^3/6 <= exp (- x).
Proof.
  intros Hx.
  assert (G1 : forall x, 0 <= x -> 1 - x <= exp (- x)) by (intros y _; pose proof (exp_ineq1_le (- y)); lra).
  assert (G2 : forall x, 0 <= x -> exp (- x) <= 1 - x + x^2/2).
  { intros y Hy. pose proof (grow (Poly 1 (-1) (1/2) 0) (-1) y Hy) as G. unfold peval, pder in G; cbn [c0 c1 c2 c3] in G.
    assert (0 <= 1 + -1 * y + 1 / 2 * y ^ 2 + 0 * y ^ 3 + -1 * exp (- y)).
    { apply G; [|lra]. intros c Hc. specialize (G1 c Hc). lra. }
    lra. }
  pose proof (grow (Poly (-1) 1 (-1/2) (1/6)) 1 x Hx) as G. unfold peval, pder in G; cbn [c0 c1 c2 c3] in G.
  assert (0 <= -1 + 1 * x + -1 / 2 * x ^ 2 + 1 / 6 * x ^ 3 + 1 * exp (- x)).
  { apply G; [|lra]. intros c Hc. specialize (G2 c Hc). lra. }
  lra.
Qed.

Lemma tanh_v x : tanh x = (1 - exp (- (2 * x))) / (1 + exp (- (2 * x))).
Proof.
  unfold tanh, sinh, cosh. replace (- (2 * x)) with (- x + - x) by ring. rewrite exp_plus, exp_Ropp.
  pose proof (exp_pos x). field. repeat split; nra.
Qed.

Lemma tanh_range x : 0 <= x -> 0 <= tanh x < 1.
Proof.
  intros H. rewrite tanh_v. assert (P : 0 < exp (- (2 * x))) by apply exp_pos.
  assert (Q : exp (- (2 * x)) <= 1). { rewrite <- exp_0. destruct (Req_dec x 0) as [->|N]; [right; f_equal; ring|left; apply exp_increasing; lra]. }
  set (v := exp (- (2 * x))) in *. split.
  - apply Rmult_le_pos; [lra|left; apply Rinv_0_lt_compat; lra].
  - apply (Rmult_lt_reg_r (1 + v)); [lra|]. unfold Rdiv. rewrite Rmult_assoc, Rinv_l by lra. lra.
Qed.

(** upper bound with a small gain, below 2/5 *)
Lemma tanh_small e y : 0 <= e <= 1 -> 0 <= y <= 2/5 -> 15 * e <= y^2 -> tanh y <= y * (1 - e).
Proof.
  intros He Hy Hg. rewrite tanh_v. pose proof (exp_lower (2 * y) ltac:(lra)) as L.
  set (v := exp (- (2 * y))) in *. assert (P : 0 < v) by apply exp_pos.
  apply (Rmult_le_reg_r (1 + v)); [lra|]. unfold Rdiv. rewrite Rmult_assoc, Rinv_l by lra.
  set (q := 1 - 2 * y + (2 * y) ^ 2 / 2 - (2 * y) ^ 3 / 6) in *.
  assert (Q : 1 - q <= y * (1 - e) * (1 + q)).
  { unfold q.
    assert (K : 0 <= y * (y^2 * (1 - 2 * y) / 3 * 2 - e * 2 * (1 - y + y^2 - 2/3 * y^3))).
    { apply Rmult_le_pos; [lra|].
      assert (A : 1 - y + y^2 - 2/3 * y^3 <= 1) by nra.
      assert (B : e * 2 * (1 - y + y^2 - 2/3 * y^3) <= e * 2 * 1) by (apply Rmult_le_compat_l; lra).
      assert (C : y^2 * (1/5) <= y^2 * (1 - 2 * y)) by (apply Rmult_le_compat_l; [apply pow2_ge_0|lra]).
      lra. }
    lra. }
  assert (0 <= y * (1 - e)) by (apply Rmult_le_pos; lra).
  assert (0 <= (1 + y * (1 - e)) * (v - q)) by (apply Rmult_le_pos; lra). lra.
Qed.

Lemma tanh_double x : 0 <= x -> tanh (2 * x) <= 2 * tanh x.
Proof.
  intros H. pose proof (tanh_range x H) as [T0 T1].
  assert (E : tanh (2 * x) * (1 + tanh x * tanh x) = 2 * tanh x).
  { rewrite !tanh_v. replace (- (2 * (2 * x))) with (- (2 * x) + - (2 * x)) by ring. rewrite exp_plus.
    pose proof (exp_pos (- (2 * x))). set (v := exp (- (2 * x))) in *. field. split; nra. }
  assert (0 <= tanh (2 * x)) by (apply tanh_range; lra).
  assert (0 <= tanh (2 * x) * (tanh x * tanh x)) by (apply Rmult_le_pos; [lra|apply Rmult_le_pos; lra]). lra.
Qed.

Lemma tanh_le_e e y0 : 0 <= e <= 1 -> 0 <= y0 <= 1/5 -> 15 * e <= y0^2 ->
  forall n y, y0 <= y <= 2/5 * 2 ^ n -> tanh y <= y * (1 - e).
Proof.
  intros He H0 Hg. induction n as [|n IH]; intros y Hy.
  - apply tanh_small; [exact He|simpl in Hy; lra|]. nra.
  - destruct (Rle_lt_dec y (2/5)) as [L|L]; [apply tanh_small; [exact He|lra|nra]|].
    assert (B : tanh (y / 2) <= y / 2 * (1 - e)) by (apply IH; simpl in Hy; lra).
    pose proof (tanh_double (y / 2) ltac:(lra)) as D. replace (2 * (y / 2)) with y in D by field. lra.
Qed.

Lemma pow2_large y : exists n, y <= 2/5 * 2 ^ n.
Proof.
  destruct (Pow_x_infinity 2 ltac:(rewrite Rabs_right; lra) (3 * Rabs y)) as [n H]. exists n.
  specialize (H n (le_n n)). rewrite Rabs_right in H by (apply Rle_ge, pow_le; lra).
  pose proof (Rle_abs y). pose proof (Rabs_pos y). lra.
Qed.

Lemma tanh_gain e y0 y : 0 <= e <= 1 -> 0 <= y0 <= 1/5 -> 15 * e <= y0^2 -> y0 <= y -> tanh y <= y * (1 - e).
Proof. intros He H0 Hg Hy. destruct (pow2_large y) as [n Hn]. eapply (tanh_le_e e y0); eauto. Qed.

Lemma tanh_le y : 0 <= y -> tanh y <= y.
Proof. intros H. pose proof (tanh_gain 0 0 y ltac:(lra) ltac:(lra) ltac:(lra) H). lra. Qed.

Lemma tanh_ge y : 0 <= y -> y / (1 + y) <= tanh y.
Proof.
  intros H. unfold tanh, sinh, cosh. pose proof (exp_ineq1_le y) as L. pose proof (exp_ineq1_le (2 * y)) as L2.
  assert (P : 0 < exp (- y)) by apply exp_pos. assert (E : exp (2 * y) = exp y * exp y) by (replace (2 * y) with (y + y) by ring; apply exp_plus).
  rewrite exp_Ropp in *. set (a := exp y) in *. assert (Ha : 0 < a) by apply exp_pos.
  replace ((a - / a) / 2 / ((a + / a) / 2)) with ((a * a - 1) / (a * a + 1)) by (field; split; nra).
  rewrite <- E. set (u := exp (2 * y)) in *.
  apply (Rmult_le_reg_r ((1 + y) * (u + 1))); [apply Rmult_lt_0_compat; lra|].
  replace (y / (1 + y) * ((1 + y) * (u + 1))) with (y * (u + 1)) by (field; lra).
  replace ((u - 1) / (u + 1) * ((1 + y) * (u + 1))) with ((u - 1) * (1 + y)) by (field; lra). lra.
Qed.

(** ** The odd series *)
Fixpoint S4 (k : nat) : R := match k with O => 0 | S k' => S4 k' + / IZR (2 * Z.of_nat k' + 1) ^ 4 end.

Lemma odd_IZR k : INR (2 * k + 1) = IZR (2 * Z.of_nat k + 1).
Proof. rewrite INR_IZR_INZ. f_equal. lia. Qed.
Lemma odd_ge k : 1 <= IZR (2 * Z.of_nat k + 1).
Proof. apply IZR_le. lia. Qed.

Lemma term_le k r : 0 <= r -> tanh (IZR (2 * Z.of_nat k + 1) * r) / IZR (2 * Z.of_nat k + 1) ^ 5 <= r * / IZR (2 * Z.of_nat k + 1) ^ 4.
Proof.
  intros Hr. pose proof (odd_ge k) as M. set (m := IZR (2 * Z.of_nat k + 1)) in *.
  pose proof (tanh_le (m * r) ltac:(apply Rmult_le_pos; lra)) as T.
  replace (r * / m ^ 4) with (m * r / m ^ 5) by (field; lra).
  apply Rmult_le_compat_r; [|exact T]. left. apply Rinv_0_lt_compat, pow_lt. lra.
Qed.

Lemma series_arg k x y : y <> 0 -> INR (2 * k + 1) * pi6 * x / 2 / y = IZR (2 * Z.of_nat k + 1) * (pi6 * x / 2 / y).
Proof. intros H. rewrite odd_IZR. field. exact H. Qed.

Lemma ratio_nonneg x y : 0 < x -> 0 < y -> 0 < pi6 * x / 2 / y.
Proof. intros. unfold pi6. apply Rdiv_lt_0_compat; [|lra]. apply Rdiv_lt_0_compat; lra. Qed.

Lemma series_le k x y : 0 < x -> 0 < y -> odd_series k x y <= pi6 * x / 2 / y * S4 k.
Proof.
  intros Hx Hy. pose proof (ratio_nonneg x y Hx Hy) as Hr. induction k as [|k IH]; cbn [odd_series S4]; [lra|].
  rewrite series_arg, odd_IZR by lra. pose proof (term_le k (pi6 * x / 2 / y) ltac:(lra)). lra.
Qed.

Lemma series_gain k e x y : 0 < x -> 0 < y -> 0 <= e <= 1 ->
  tanh (pi6 * x / 2 / y) <= pi6 * x / 2 / y * (1 - e) ->
  odd_series (S k) x y <= pi6 * x / 2 / y * (S4 (S k) - e).
Proof.
  intros Hx Hy He T. pose proof (ratio_nonneg x y Hx Hy) as Hr. induction k as [|k IH].
  - cbn [odd_series S4]. rewrite series_arg, odd_IZR by lra. cbn [Z.of_nat Z.mul Z.add].
    replace (1 * (pi6 * x / 2 / y)) with (pi6 * x / 2 / y) by ring. lra.
  - change (odd_series (S (S k)) x y) with (odd_series (S k) x y + tanh (INR (2*(S k)+1) * pi6 * x / 2 / y) / INR (2*(S k)+1) ^ 5).
    change (S4 (S (S k))) with (S4 (S k) + / IZR (2 * Z.of_nat (S k) + 1) ^ 4).
    rewrite series_arg, odd_IZR by lra. pose proof (term_le (S k) (pi6 * x / 2 / y) ltac:(lra)). lra.
Qed.

Lemma series_ge k n x y : (k <= n)%nat -> 0 < x -> 0 < y ->
  pi6 * x / 2 / y * S4 k / (1 + INR (2 * n) * (pi6 * x / 2 / y)) <= odd_series k x y.
Proof.
  intros Hk Hx Hy. pose proof (ratio_nonneg x y Hx Hy) as Hr. set (r := pi6 * x / 2 / y) in *.
  assert (N : 0 <= INR (2 * n) * r) by (apply Rmult_le_pos; [apply pos_INR|lra]).
  induction k as [|k IH]; cbn [odd_series S4].
  - unfold Rdiv. lra.
  - rewrite series_arg, odd_IZR by lra. fold r. pose proof (odd_ge k) as M.
    assert (MN : IZR (2 * Z.of_nat k + 1) <= INR (2 * n)) by (rewrite <- odd_IZR; apply le_INR; lia).
    set (m := IZR (2 * Z.of_nat k + 1)) in *.
    pose proof (tanh_ge (m * r) ltac:(apply Rmult_le_pos; lra)) as T.
    assert (D : m * r <= INR (2 * n) * r) by (apply Rmult_le_compat_r; lra).
    assert (Q : r * / m ^ 4 / (1 + INR (2 * n) * r) <= tanh (m * r) / m ^ 5).
    { apply Rle_trans with (m * r / (1 + m * r) / m ^ 5).
      - replace (m * r / (1 + m * r) / m ^ 5) with (r * / m ^ 4 / (1 + m * r)) by (field; split; [|lra]; assert (0 <= m * r) by (apply Rmult_le_pos; lra); lra).
        apply Rmult_le_compat_l.
        + apply Rmult_le_pos; [lra|]. left. apply Rinv_0_lt_compat, pow_lt. lra.
        + apply Rinv_le_contravar; [|lra]. assert (0 <= m * r) by (apply Rmult_le_pos; lra). lra.
      - apply Rmult_le_compat_r; [|exact T]. left. apply Rinv_0_lt_compat, pow_lt. lra. }
    specialize (IH ltac:(lia)). replace (r * (S4 k + / m ^ 4) / (1 + INR (2 * n) * r)) with (r * S4 k / (1 + INR (2 * n) * r) + r * / m ^ 4 / (1 + INR (2 * n) * r)) by (field; split; lra).
    lra.
Qed.

Lemma S4_15 : 96 * S4 15 < pi6 ^ 4.
Proof. unfold pi6. cbn [S4 Z.of_nat Z.mul Z.add Pos.of_succ_nat Pos.succ Pos.mul Pos.add]. lra. Qed.
Lemma S4_30 : pi6 ^ 4 * (1 + 7 / 100000000) < 96 * S4 30 /\ 96 * (S4 30 - 1 / 10000000) < pi6 ^ 4.
Proof. unfold pi6. cbn [S4 Z.of_nat Z.mul Z.add Pos.of_succ_nat Pos.succ Pos.mul Pos.add]. split; lra. Qed.
