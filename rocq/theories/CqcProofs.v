(** The CQC coefficients form a positive semidefinite matrix: they are the products of the
    impulse responses of two oscillators, integrated over time. *)
From Coq Require Import Reals Lra Lia List Arith Bool Psatz.
From Verif Require Import Base BaseFacts Csys Sections Element Load FeModel Assembly Solver AsmProofs Dynamic SpecDyn DynProofs.
Local Open Scope R_scope.

(** ** Sums of differentiable functions *)
Lemma rsum_deriv n (F f : nat -> R -> R) t :
  (forall i, (i < n)%nat -> derivable_pt_lim (F i) t (f i t)) ->
  derivable_pt_lim (fun x => rsum n (fun i => F i x)) t (rsum n (fun i => f i t)).
Proof.
  induction n as [|n IH]; intros H; cbn [rsum].
  - apply (derivable_pt_lim_const 0).
  - apply (derivable_pt_lim_plus (fun x => rsum n (fun i => F i x)) (F n)); [apply IH; intros; apply H; lia|apply H; lia].
Qed.

(** ** A primitive of exp (-A t) cos (D t) *)
Definition prim (A D t : R) : R := exp (- A * t) * (- A * cos (D * t) + D * sin (D * t)) / (A^2 + D^2).
Lemma prim_deriv A D t : 0 < A -> derivable_pt_lim (prim A D) t (exp (- A * t) * cos (D * t)).
Proof.
  intros HA. assert (HD : 0 < A^2 + D^2) by nra.
  assert (L : forall c, derivable_pt_lim (fun x => c * x) t c).
  { intros c. pose proof (derivable_pt_lim_scal id c t 1 (derivable_pt_lim_id t)) as H. rewrite Rmult_1_r in H. exact H. }
  assert (E : derivable_pt_lim (fun x => exp (- A * x)) t (exp (- A * t) * - A)).
  { apply (derivable_pt_lim_comp (fun x => - A * x) exp); [apply L|apply derivable_pt_lim_exp]. }
  assert (C : derivable_pt_lim (fun x => cos (D * x)) t (- sin (D * t) * D)).
  { apply (derivable_pt_lim_comp (fun x => D * x) cos); [apply L|apply derivable_pt_lim_cos]. }
  assert (S : derivable_pt_lim (fun x => sin (D * x)) t (cos (D * t) * D)).
  { apply (derivable_pt_lim_comp (fun x => D * x) sin); [apply L|apply derivable_pt_lim_sin]. }
  assert (Q : derivable_pt_lim (fun x => - A * cos (D * x) + D * sin (D * x)) t (- A * (- sin (D * t) * D) + D * (cos (D * t) * D))).
  { apply (derivable_pt_lim_plus (fun x => - A * cos (D * x)) (fun x => D * sin (D * x))); apply derivable_pt_lim_scal; assumption. }
  pose proof (derivable_pt_lim_mult _ _ _ _ _ E Q) as M.
  pose proof (derivable_pt_lim_scal _ (/ (A^2 + D^2)) _ _ M) as G.
  replace (exp (- A * t) * cos (D * t)) with
    (/ (A^2 + D^2) * (exp (- A * t) * - A * (- A * cos (D * t) + D * sin (D * t)) + exp (- A * t) * (- A * (- sin (D * t) * D) + D * (cos (D * t) * D)))) by (field; lra).
  intros eps He. destruct (G eps He) as [d Hd]. exists d. intros h H1 H2. specialize (Hd h H1 H2).
  unfold mult_real_fct, mult_fct in Hd. unfold prim. 
  replace (exp (- A * (t + h)) * (- A * cos (D * (t + h)) + D * sin (D * (t + h))) / (A ^ 2 + D ^ 2)) with
    (/ (A ^ 2 + D ^ 2) * (exp (- A * (t + h)) * (- A * cos (D * (t + h)) + D * sin (D * (t + h))))) by (unfold Rdiv; ring).
  replace (exp (- A * t) * (- A * cos (D * t) + D * sin (D * t)) / (A ^ 2 + D ^ 2)) with
    (/ (A ^ 2 + D ^ 2) * (exp (- A * t) * (- A * cos (D * t) + D * sin (D * t)))) by (unfold Rdiv; ring).
  exact Hd.
Qed.
Lemma prim_0 A D : prim A D 0 = - A / (A^2 + D^2).
Proof. unfold prim. rewrite !Rmult_0_r, exp_0, cos_0, sin_0. unfold Rdiv. ring. Qed.
Lemma decay A t : 0 < A -> 0 < t -> 0 < exp (- A * t) <= / (A * t).
Proof.
  intros HA Ht. split; [apply exp_pos|]. replace (- A * t) with (- (A * t)) by ring. rewrite exp_Ropp.
  assert (0 < A * t) by nra. pose proof (exp_ineq1 (A * t) ltac:(lra)). apply Rinv_le_contravar; lra.
Qed.
Lemma prim_small A D t : 0 < A -> 0 < t -> Rabs (prim A D t) <= (A + Rabs D) / (A * (A^2 + D^2)) / t.
Proof.
  intros HA Ht. assert (HD : 0 < A^2 + D^2) by nra. unfold prim, Rdiv. rewrite !Rabs_mult.
  destruct (decay A t HA Ht) as [E1 E2]. rewrite (Rabs_pos_eq (exp _)) by lra.
  rewrite (Rabs_pos_eq (/ (A^2 + D^2))) by (left; apply Rinv_0_lt_compat; exact HD).
  assert (B : Rabs (- A * cos (D * t) + D * sin (D * t)) <= A + Rabs D).
  { eapply Rle_trans; [apply Rabs_triang|]. rewrite !Rabs_mult, Rabs_Ropp, (Rabs_pos_eq A) by lra.
    pose proof (COS_bound (D * t)). pose proof (SIN_bound (D * t)).
    assert (Rabs (cos (D * t)) <= 1) by (apply Rabs_le; lra). assert (Rabs (sin (D * t)) <= 1) by (apply Rabs_le; lra).
    pose proof (Rabs_pos D). nra. }
  replace ((A + Rabs D) * / (A * (A^2 + D^2)) * / t) with (/ (A * t) * (A + Rabs D) * / (A^2 + D^2)) by (field; repeat split; lra).
  apply Rmult_le_compat_r; [left; apply Rinv_0_lt_compat; exact HD|].
  apply Rmult_le_compat; [lra|apply Rabs_pos|exact E2|exact B].
Qed.

(** ** The matrix of the integrated products *)
Definition pair_int (xi s w v t : R) : R := (prim (xi * (w + v)) (s * (w - v)) t - prim (xi * (w + v)) (s * (w + v)) t) / 2.
Definition impulse (xi s w t : R) : R := exp (- (xi * w) * t) * sin (s * w * t).
Lemma pair_deriv xi s w v t : 0 < xi -> 0 < w -> 0 < v ->
  derivable_pt_lim (pair_int xi s w v) t (impulse xi s w t * impulse xi s v t).
Proof.
  intros X W V. assert (A : 0 < xi * (w + v)) by nra.
  pose proof (prim_deriv _ (s * (w - v)) t A) as P1. pose proof (prim_deriv _ (s * (w + v)) t A) as P2.
  pose proof (derivable_pt_lim_minus _ _ _ _ _ P1 P2) as M. pose proof (derivable_pt_lim_scal _ (/2) _ _ M) as G.
  replace (impulse xi s w t * impulse xi s v t) with
    (/ 2 * (exp (- (xi * (w + v)) * t) * cos (s * (w - v) * t) - exp (- (xi * (w + v)) * t) * cos (s * (w + v) * t))).
  - intros eps He. destruct (G eps He) as [d Hd]. exists d. intros h H1 H2. specialize (Hd h H1 H2).
    unfold mult_real_fct, minus_fct in Hd. unfold pair_int.
    replace ((prim (xi * (w + v)) (s * (w - v)) (t + h) - prim (xi * (w + v)) (s * (w + v)) (t + h)) / 2) with
      (/ 2 * (prim (xi * (w + v)) (s * (w - v)) (t + h) - prim (xi * (w + v)) (s * (w + v)) (t + h))) by field.
    replace ((prim (xi * (w + v)) (s * (w - v)) t - prim (xi * (w + v)) (s * (w + v)) t) / 2) with
      (/ 2 * (prim (xi * (w + v)) (s * (w - v)) t - prim (xi * (w + v)) (s * (w + v)) t)) by field.
    exact Hd.
  - unfold impulse. replace (s * (w - v) * t) with (s * w * t - s * v * t) by ring. replace (s * (w + v) * t) with (s * w * t + s * v * t) by ring.
    rewrite cos_minus, cos_plus. replace (- (xi * (w + v)) * t) with (- (xi * w) * t + - (xi * v) * t) by ring. rewrite exp_plus. field.
Qed.
Definition total (n : nat) (xi s : R) (w x : nat -> R) (t : R) : R :=
  rsum n (fun i => rsum n (fun j => x i * x j * pair_int xi s (w i) (w j) t)).
Lemma total_deriv n xi s w x t : 0 < xi -> (forall i, (i < n)%nat -> 0 < w i) ->
  derivable_pt_lim (total n xi s w x) t (rsum n (fun i => x i * impulse xi s (w i) t) ^ 2).
Proof.
  intros X W. rewrite <- sum_square. unfold total.
  apply (rsum_deriv n (fun i t => rsum n (fun j => x i * x j * pair_int xi s (w i) (w j) t)) (fun i t => rsum n (fun j => x i * impulse xi s (w i) t * (x j * impulse xi s (w j) t)))).
  intros i Hi. apply (rsum_deriv n (fun j t => x i * x j * pair_int xi s (w i) (w j) t) (fun j t => x i * impulse xi s (w i) t * (x j * impulse xi s (w j) t))).
  intros j Hj. replace (x i * impulse xi s (w i) t * (x j * impulse xi s (w j) t)) with (x i * x j * (impulse xi s (w i) t * impulse xi s (w j) t)) by ring.
  apply (derivable_pt_lim_scal (pair_int xi s (w i) (w j)) (x i * x j)). apply pair_deriv; auto.
Qed.
Lemma total_small n xi s w x : 0 < xi -> (forall i, (i < n)%nat -> 0 < w i) ->
  exists c, forall t, 0 < t -> total n xi s w x t <= c / t.
Proof.
  intros X W.
  set (b := fun i j => Rabs (x i * x j) * (((xi * (w i + w j) + Rabs (s * (w i - w j))) / (xi * (w i + w j) * ((xi * (w i + w j))^2 + (s * (w i - w j))^2))
     + (xi * (w i + w j) + Rabs (s * (w i + w j))) / (xi * (w i + w j) * ((xi * (w i + w j))^2 + (s * (w i + w j))^2))) / 2)).
  exists (rsum n (fun i => rsum n (fun j => b i j))). intros t Ht. unfold Rdiv at 1. rewrite <- rsum_scal_r. apply rsum_le. intros i Hi.
  rewrite <- rsum_scal_r. apply rsum_le. intros j Hj. pose proof (W i Hi) as Wi. pose proof (W j Hj) as Wj.
  assert (A : 0 < xi * (w i + w j)) by nra.
  pose proof (prim_small _ (s * (w i - w j)) t A Ht) as P1. pose proof (prim_small _ (s * (w i + w j)) t A Ht) as P2.
  unfold b, pair_int. apply Rle_trans with (Rabs (x i * x j * ((prim (xi * (w i + w j)) (s * (w i - w j)) t - prim (xi * (w i + w j)) (s * (w i + w j)) t) / 2))); [apply Rle_abs|].
  rewrite Rabs_mult, Rmult_assoc. apply Rmult_le_compat_l; [apply Rabs_pos|].
  set (p := prim _ (s * (w i - w j)) t) in *. set (q := prim _ (s * (w i + w j)) t) in *.
  set (c1 := (_ + Rabs (s * (w i - w j))) / _) in *. set (c2 := (_ + Rabs (s * (w i + w j))) / _) in *.
  unfold Rdiv. rewrite Rabs_mult, (Rabs_pos_eq (/2)) by lra.
  apply Rle_trans with ((Rabs p + Rabs q) * / 2). { apply Rmult_le_compat_r; [lra|]. unfold Rminus. rewrite <- (Rabs_Ropp q). apply Rabs_triang. }
  unfold Rdiv in P1, P2. lra.
Qed.
Lemma total_0 n xi s w x : 0 < xi -> (forall i, (i < n)%nat -> 0 < w i) -> total n xi s w x 0 <= 0.
Proof.
  intros X W. destruct (total_small n xi s w x X W) as [c Hc].
  assert (D : derivable (total n xi s w x)). { intros t. exists (rsum n (fun i => x i * impulse xi s (w i) t) ^ 2). apply total_deriv; assumption. }
  assert (I : increasing (total n xi s w x)).
  { apply (nonneg_derivative_1 _ D). intros t. rewrite (derive_pt_eq_0 _ _ _ (D t) (total_deriv n xi s w x t X W)). apply pow2_ge_0. }
  destruct (Rle_or_lt (total n xi s w x 0) 0) as [|P]; [assumption|exfalso].
  set (g := total n xi s w x 0) in *.
  assert (C : 0 < c). { pose proof (Hc 1 ltac:(lra)). pose proof (I 0 1 ltac:(lra)). fold g in H0. lra. }
  assert (T : 0 < 2 * c / g) by (apply Rdiv_lt_0_compat; lra).
  pose proof (Hc _ T) as H1. pose proof (I 0 (2 * c / g) ltac:(lra)) as H2. fold g in H2.
  replace (c / (2 * c / g)) with (g / 2) in H1 by (field; lra). lra.
Qed.

(** ** The coefficients *)
Lemma pair_start xi s w v : 0 < xi -> 0 < s -> s^2 = 1 - xi^2 -> 0 < w -> 0 < v ->
  - pair_int xi s w v 0 = 2 * xi * s^2 * w * v / ((w + v) * ((w - v)^2 + 4 * xi^2 * w * v)).
Proof.
  intros X S E W V. unfold pair_int. rewrite !prim_0.
  replace ((xi * (w + v))^2 + (s * (w - v))^2) with ((w - v)^2 + 4 * xi^2 * w * v) by (replace ((s * (w - v))^2) with (s^2 * (w - v)^2) by ring; rewrite E; ring).
  replace ((xi * (w + v))^2 + (s * (w + v))^2) with ((w + v)^2) by (replace ((s * (w + v))^2) with (s^2 * (w + v)^2) by ring; rewrite E; ring).
  assert (0 < (w - v)^2 + 4 * xi^2 * w * v). { pose proof (pow2_ge_0 (w - v)). pose proof (pow_lt xi 2 X). assert (0 < xi^2 * w) by (apply Rmult_lt_0_compat; lra). assert (0 < xi^2 * w * v) by (apply Rmult_lt_0_compat; lra). lra. }
  rewrite E. field. split; lra.
Qed.
Lemma rho_pair xi s p q : 0 < xi -> 0 < s -> s^2 = 1 - xi^2 -> 0 < p -> 0 < q ->
  cqc_rho xi ((p / q)^2) = 4 * xi / s^2 * (q * p * - pair_int xi s (q^2) (p^2) 0).
Proof.
  intros X S E P Q. pose proof (pow_lt p 2 P). pose proof (pow_lt q 2 Q). pose proof (pow_lt s 2 S). pose proof (pow_lt xi 2 X).
  rewrite pair_start by assumption. rewrite rho_sq by (apply Rdiv_lt_0_compat; assumption).
  assert (H3 : 0 < (q^2 - p^2)^2 + 4 * xi^2 * q^2 * p^2).
  { pose proof (pow2_ge_0 (q^2 - p^2)). assert (0 < xi^2 * q^2) by (apply Rmult_lt_0_compat; lra). assert (0 < xi^2 * q^2 * p^2) by (apply Rmult_lt_0_compat; lra). lra. }
  assert (ED : (1 - (p / q)^4)^2 + 4 * xi^2 * (p / q)^2 * (1 + (p / q)^2)^2 = (q^2 + p^2)^2 * ((q^2 - p^2)^2 + 4 * xi^2 * q^2 * p^2) / q^8) by (field; lra).
  rewrite ED. set (d := (q^2 - p^2)^2 + 4 * xi^2 * q^2 * p^2) in *.
  replace (1 + (p / q)^2) with ((q^2 + p^2) / q^2) by (field; lra). replace ((p / q)^3) with (p^3 / q^3) by (field; lra).
  field. repeat split; try lra. 
Qed.
Lemma c53_positive n xi T S : 0 < xi < 1 -> (forall i, (i < n)%nat -> 0 < T i) ->
  0 <= cqc_sum n xi T S /\ cqc n xi T S ^ 2 = cqc_sum n xi T S.
Proof.
  intros [X X1] P. assert (G : 0 <= cqc_sum n xi T S).
  - set (s := sqrt (1 - xi^2)). assert (S1 : 0 < 1 - xi^2) by nra.
    assert (Sp : 0 < s) by (apply sqrt_lt_R0; exact S1). assert (SE : s^2 = 1 - xi^2) by (unfold s; rewrite pow2_sqrt; lra).
    set (q := fun i => sqrt (T i)).
    assert (Qp : forall i, (i < n)%nat -> 0 < q i) by (intros i Hi; apply sqrt_lt_R0; auto).
    assert (QE : forall i, (i < n)%nat -> q i ^ 2 = T i) by (intros i Hi; unfold q; rewrite pow2_sqrt; [reflexivity|left; auto]).
    pose proof (total_0 n xi s (fun i => q i ^ 2) (fun i => q i * S i) X (fun i Hi => pow_lt _ 2 (Qp i Hi))) as Z.
    assert (0 < 4 * xi / s^2) by (apply Rdiv_lt_0_compat; [lra|apply pow_lt; exact Sp]).
    replace (cqc_sum n xi T S) with (4 * xi / s^2 * - total n xi s (fun i => q i ^ 2) (fun i => q i * S i) 0); [nra|].
    unfold cqc_sum, total. replace (- rsum n _) with (-1 * rsum n (fun i => rsum n (fun j => q i * S i * (q j * S j) * pair_int xi s (q i ^ 2) (q j ^ 2) 0))) by ring.
    rewrite <- !rsum_scal. apply rsum_ext. intros i Hi. rewrite <- !rsum_scal. apply rsum_ext. intros j Hj.
    assert (R : (if Nat.eqb i j then 1 else cqc_rho xi (T i / T j)) = cqc_rho xi ((q i / q j)^2)).
    { rewrite <- (QE i Hi), <- (QE j Hj). pose proof (Qp i Hi). pose proof (Qp j Hj). replace ((q i / q j)^2) with (q i ^ 2 / q j ^ 2) by (field; lra).
      destruct (Nat.eqb_spec i j) as [->|]; [|reflexivity]. replace (q j ^ 2 / q j ^ 2) with 1 by (field; lra). rewrite c53_equal; lra. }
    rewrite R, (rho_pair xi s (q i) (q j)) by auto.
    replace (pair_int xi s (q j ^ 2) (q i ^ 2) 0) with (pair_int xi s (q i ^ 2) (q j ^ 2) 0); [ring|].
    assert (N : forall a b, 0 < a -> 0 < b -> pair_int xi s a b 0 = pair_int xi s b a 0).
    { intros a b Ha Hb. pose proof (pair_start xi s a b X Sp SE Ha Hb) as E1. pose proof (pair_start xi s b a X Sp SE Hb Ha) as E2.
      replace ((b + a) * ((b - a)^2 + 4 * xi^2 * b * a)) with ((a + b) * ((a - b)^2 + 4 * xi^2 * a * b)) in E2 by ring.
      replace (2 * xi * s^2 * b * a) with (2 * xi * s^2 * a * b) in E2 by ring. lra. }
    apply N; apply pow_lt; auto.
  - split; [exact G|]. unfold cqc. apply pow2_sqrt. exact G.
Qed.
