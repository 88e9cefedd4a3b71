(** Proofs for the spectrum by Fourier transform. *)
From Coq Require Import Reals List Arith Lia Lra ZArith String.
From Verif Require Import Base BaseFacts Spectrum Seismic SpecSeismic SeismicProofs.
Import ListNotations.
Local Open Scope R_scope.

Lemma telescope_cos a phi n :
  2 * sin (a / 2) * rsum n (fun m => cos (a * INR m + phi)) = sin (a * INR n - a / 2 + phi) - sin (- (a / 2) + phi).
Proof.
  induction n; [cbn [rsum INR]; rewrite !Rmult_0_r; replace (0 - a / 2 + phi) with (- (a / 2) + phi) by ring; ring|].
  cbn [rsum]. rewrite Rmult_plus_distr_l, IHn, S_INR.
  set (x := a * INR n + phi).
  replace (a * (INR n + 1) - a / 2 + phi) with (x + a / 2) by (unfold x; field).
  replace (a * INR n - a / 2 + phi) with (x - a / 2) by (unfold x; field).
  rewrite (sin_plus x), (sin_minus x). ring.
Qed.

Lemma sin_turns x d : sin (x + 2 * PI * INR d) = sin x.
Proof. replace (2 * PI * INR d) with (2 * INR d * PI) by ring. apply sin_period. Qed.
Lemma cos_turns x d : cos (x + 2 * PI * INR d) = cos x.
Proof. replace (2 * PI * INR d) with (2 * INR d * PI) by ring. apply cos_period. Qed.

Lemma sin_part N d : (0 < N)%nat -> (0 < d < 2 * N)%nat -> d <> N -> sin (PI * INR d / INR N) <> 0.
Proof.
  intros HN D E. assert (P := PI_RGT_0). assert (0 < INR N) by (apply lt_0_INR; lia).
  assert (0 < INR d) by (apply lt_0_INR; lia).
  destruct (lt_dec d N) as [L|L].
  - assert (INR d < INR N) by (apply lt_INR; lia).
    apply Rgt_not_eq. apply sin_gt_0; [apply Rdiv_lt_0_compat; [nra|lra]|].
    apply (Rmult_lt_reg_r (INR N)); [lra|]. unfold Rdiv. rewrite Rmult_assoc, Rinv_l, Rmult_1_r by lra. nra.
  - assert (INR N < INR d) by (apply lt_INR; lia).
    assert (INR d < 2 * INR N) by (replace 2 with (INR 2) by reflexivity; rewrite <- mult_INR; apply lt_INR; lia).
    apply Rlt_not_eq. apply sin_lt_0.
    + apply (Rmult_lt_reg_r (INR N)); [lra|]. unfold Rdiv. rewrite Rmult_assoc, Rinv_l, Rmult_1_r by lra. nra.
    + apply (Rmult_lt_reg_r (INR N)); [lra|]. unfold Rdiv. rewrite Rmult_assoc, Rinv_l, Rmult_1_r by lra. nra.
Qed.

Lemma rsum_const n c : rsum n (fun _ => c) = INR n * c.
Proof. induction n; [cbn; ring|]. cbn [rsum]. rewrite IHn, S_INR. ring. Qed.

Lemma cos_sum N d phi : (0 < N)%nat -> (d < 2 * N)%nat ->
  rsum N (fun m => cos (turn N d m + phi)) = if orb (Nat.eqb d 0) (Nat.eqb d N) then INR N * cos phi else 0.
Proof.
  intros HN D. assert (0 < INR N) by (apply lt_0_INR; lia).
  destruct (Nat.eqb_spec d 0) as [->|D0]; cbn [orb].
  { rewrite <- rsum_const. apply rsum_ext. intros i _. f_equal. unfold turn. cbn [INR]. field. lra. }
  destruct (Nat.eqb_spec d N) as [->|DN].
  { rewrite <- rsum_const. apply rsum_ext. intros i _.
    replace (turn N N i + phi) with (phi + 2 * PI * INR i) by (unfold turn; field; lra). apply cos_turns. }
  pose proof (telescope_cos (2 * PI * INR d / INR N) phi N) as T.
  replace (2 * PI * INR d / INR N * INR N - 2 * PI * INR d / INR N / 2 + phi)
    with (- (2 * PI * INR d / INR N / 2) + phi + 2 * PI * INR d) in T by (field; lra).
  rewrite sin_turns in T. rewrite Rminus_diag_eq in T by reflexivity.
  apply Rmult_integral in T as [T|T].
  - exfalso. apply Rmult_integral in T as [T|T]; [lra|].
    replace (2 * PI * INR d / INR N / 2) with (PI * INR d / INR N) in T by (field; lra).
    revert T. apply sin_part; lia.
  - rewrite <- T. apply rsum_ext. intros i _. f_equal. unfold turn. field. lra.
Qed.

Lemma cos_sum_diff N j k phi : (0 < N)%nat -> (j < N)%nat -> (k < N)%nat ->
  rsum N (fun m => cos (turn N j m - turn N k m + phi)) = if Nat.eqb k j then INR N * cos phi else 0.
Proof.
  intros HN J K. assert (0 < INR N) by (apply lt_0_INR; lia).
  destruct (Nat.eqb_spec k j) as [->|E].
  { rewrite <- rsum_const. apply rsum_ext. intros i _. f_equal. ring. }
  destruct (lt_dec k j).
  - transitivity (rsum N (fun m => cos (turn N (j - k) m + phi))).
    { apply rsum_ext. intros i _. f_equal. unfold turn. rewrite minus_INR by lia. field. lra. }
    rewrite cos_sum by lia. destruct (Nat.eqb_spec (j - k) 0); [lia|]. destruct (Nat.eqb_spec (j - k) N); [lia|reflexivity].
  - transitivity (rsum N (fun m => cos (turn N (k - j) m + - phi))).
    { apply rsum_ext. intros i _. rewrite <- cos_neg. f_equal. unfold turn. rewrite minus_INR by lia. field. lra. }
    rewrite cos_sum by lia. destruct (Nat.eqb_spec (k - j) 0); [lia|]. destruct (Nat.eqb_spec (k - j) N); [lia|reflexivity].
Qed.

Definition here (b : bool) : R := if b then 1 else 0.

(** The transform of a harmonic record *)
Lemma fft_harmonic N a A phi j k : (0 < N)%nat -> (2 * j < N)%nat -> (k < N)%nat ->
  (forall m, (m < N)%nat -> vnth a m = A * cos (turn N j m + phi)) ->
  fst (fft_at N a k) = INR N * A / 2 * cos phi * (here (orb (Nat.eqb (j + k) 0) (Nat.eqb (j + k) N)) + here (Nat.eqb k j)) /\
  snd (fft_at N a k) = - (INR N * A / 2 * sin phi * (here (orb (Nat.eqb (j + k) 0) (Nat.eqb (j + k) N)) - here (Nat.eqb k j))).
Proof.
  intros HN J K H. unfold fft_at. cbn [fst snd].
  assert (P : forall f, rsum N (fun m => vnth a m * f m) = rsum N (fun m => A * cos (turn N j m + phi) * f m)).
  { intros f. apply rsum_ext. intros m Hm. now rewrite H. }
  split.
  - rewrite (P (fun m => cos (turn N k m))).
    transitivity (A / 2 * (rsum N (fun m => cos (turn N (j + k) m + phi)) + rsum N (fun m => cos (turn N j m - turn N k m + phi)))).
    + rewrite <- rsum_plus, <- rsum_scal. apply rsum_ext. intros m _.
      replace (turn N (j + k) m + phi) with ((turn N j m + phi) + turn N k m) by (unfold turn; rewrite plus_INR; field; apply not_0_INR; lia).
      replace (turn N j m - turn N k m + phi) with ((turn N j m + phi) - turn N k m) by ring.
      rewrite (cos_plus (turn N j m + phi)), (cos_minus (turn N j m + phi)). field.
    + rewrite cos_sum by lia. rewrite cos_sum_diff by lia. unfold here.
      destruct (orb _ _); destruct (Nat.eqb k j); field.
  - f_equal. rewrite (P (fun m => sin (turn N k m))).
    transitivity (A / 2 * (rsum N (fun m => cos (turn N (j + k) m + (phi - PI / 2))) - rsum N (fun m => cos (turn N j m - turn N k m + (phi - PI / 2))))).
    + rewrite <- rsum_minus, <- rsum_scal. apply rsum_ext. intros m _.
      replace (turn N (j + k) m + (phi - PI / 2)) with (- (PI / 2 - ((turn N j m + phi) + turn N k m))) by (unfold turn; rewrite plus_INR; field; apply not_0_INR; lia).
      replace (turn N j m - turn N k m + (phi - PI / 2)) with (- (PI / 2 - ((turn N j m + phi) - turn N k m))) by ring.
      rewrite !cos_neg, !cos_shift, (sin_plus (turn N j m + phi)), (sin_minus (turn N j m + phi)). field.
    + rewrite cos_sum by lia. rewrite cos_sum_diff by lia. unfold here.
      replace (phi - PI / 2) with (- (PI / 2 - phi)) by ring. rewrite cos_neg, cos_shift.
      destruct (orb _ _); destruct (Nat.eqb k j); field.
Qed.

Lemma rsum_two n i j f : (i < n)%nat -> (j < n)%nat -> i <> j ->
  (forall k, (k < n)%nat -> k <> i -> k <> j -> f k = 0) -> rsum n f = f i + f j.
Proof.
  intros I J E Z.
  assert (D : forall a c, (a < n)%nat -> rsum n (fun k => if Nat.eqb k a then c else 0) = c).
  { intros a c Ha. rewrite (rsum_single n a) by (try exact Ha; intros k Hk Q; now apply Nat.eqb_neq in Q as ->).
    now rewrite Nat.eqb_refl. }
  rewrite <- (D i (f i) I), <- (D j (f j) J), <- rsum_plus. apply rsum_ext. intros k Hk.
  destruct (Nat.eqb_spec k i) as [Ei|Ni]; destruct (Nat.eqb_spec k j) as [Ej|Nj]; try lia.
  - subst. lra.
  - subst. lra.
  - rewrite Z; auto. lra.
Qed.

(** The answer to a harmonic record is the steady motion of an oscillator of frequency [wd]. *)
Lemma response_harmonic N a A phi j dt xi wd n : (0 < N)%nat -> (2 * j < N)%nat -> 0 < dt -> wd <> 0 ->
  (forall m, (m < N)%nat -> vnth a m = A * cos (turn N j m + phi)) ->
  h_den (2 * PI * fftfreq_at N dt j) wd xi <> (0, 0) ->
  fft_response N a dt xi wd n = steady wd xi A (2 * PI * INR j / (INR N * dt)) phi (INR n * dt).
Proof.
  intros HN J Dt Wd H Den. assert (PN : 0 < INR N) by (apply lt_0_INR; lia).
  set (f := 2 * PI * INR j / (INR N * dt)).
  assert (Fj : 2 * PI * fftfreq_at N dt j = f).
  { unfold fftfreq_at, f. replace (Nat.ltb j ((N + 1) / 2)) with true; [field; lra|].
    symmetry. apply Nat.ltb_lt. apply Nat.div_le_lower_bound; lia. }
  rewrite Fj in Den.
  set (r := f / wd) in *.
  set (D := (1 - r * r) * (1 - r * r) + 2 * xi * r * (2 * xi * r)).
  assert (D0 : D <> 0).
  { intros E. apply Den. unfold h_den. fold r. unfold D in E.
    assert (G1 := Rle_0_sqr (1 - r * r)). assert (G2 := Rle_0_sqr (2 * xi * r)). unfold Rsqr in *.
    assert (E1 : (1 - r * r) * (1 - r * r) = 0) by lra. assert (E2 : 2 * xi * r * (2 * xi * r) = 0) by lra.
    f_equal; [apply Rmult_integral in E1|apply Rmult_integral in E2]; intuition lra. }
  unfold steady. fold r. cbv zeta. fold D.
  assert (Th : f * (INR n * dt) = turn N j n) by (unfold f, turn; field; lra). rewrite Th.
  set (th := turn N j n).
  unfold fft_response, ifft_real_at.
  match goal with |- 1 / INR N * ?X * INR N = _ => replace (1 / INR N * X * INR N) with X by (field; lra) end.
  pose proof (fun k Hk => fft_harmonic N a A phi j k HN J Hk H) as F.
  unfold cmul. cbn [fst snd].
  assert (Hj : cinv (h_den (2 * PI * fftfreq_at N dt j) wd xi) = ((1 - r * r) / D, - (2 * xi * r) / D)).
  { rewrite Fj. reflexivity. }
  destruct (Nat.eq_dec j 0) as [->|J0].
  - rewrite (rsum_single N 0) by (try lia; intros k Hk K0; destruct (F k Hk) as [-> ->];
      replace (0 + k =? 0)%nat with false by (symmetry; apply Nat.eqb_neq; lia);
      replace (0 + k =? N)%nat with false by (symmetry; apply Nat.eqb_neq; lia);
      replace (k =? 0)%nat with false by (symmetry; apply Nat.eqb_neq; lia); cbn [orb here]; field; lra).
    destruct (F 0%nat HN) as [-> ->]. rewrite Hj. cbn [Nat.add Nat.eqb orb here fst snd].
    assert (R0 : r = 0) by (unfold r, f; cbn [INR]; field; lra).
    assert (D1 : D = 1) by (unfold D; rewrite R0; ring).
    unfold th, turn. cbn [INR]. replace (2 * PI * 0 * INR n / INR N) with 0 by (field; lra).
    rewrite Rplus_0_l, cos_0, sin_0, D1, R0. field. lra.
  - assert (K : (N - j < N)%nat) by lia.
    rewrite (rsum_two N j (N - j)) by (try lia; intros k Hk K1 K2; destruct (F k Hk) as [-> ->];
      replace (j + k =? 0)%nat with false by (symmetry; apply Nat.eqb_neq; lia);
      replace (j + k =? N)%nat with false by (symmetry; apply Nat.eqb_neq; lia);
      replace (k =? j)%nat with false by (symmetry; apply Nat.eqb_neq; lia); cbn [orb here]; field; lra).
    assert (Hn : cinv (h_den (2 * PI * fftfreq_at N dt (N - j)) wd xi) = ((1 - r * r) / D, 2 * xi * r / D)).
    { assert (Fn : 2 * PI * fftfreq_at N dt (N - j) = - f).
      { unfold fftfreq_at, f. replace (Nat.ltb (N - j) ((N + 1) / 2)) with false.
        - rewrite minus_INR by lia. field; lra.
        - symmetry. apply Nat.ltb_ge. pose proof (Nat.div_lt_upper_bound (N + 1) 2 (N - j + 1)). lia. }
      rewrite Fn. unfold cinv, h_den. cbn [fst snd]. replace (- f / wd) with (- r) by (unfold r; field; exact Wd).
      replace ((1 - - r * - r) * (1 - - r * - r) + 2 * xi * - r * (2 * xi * - r)) with D by (unfold D; ring).
      f_equal; f_equal; ring. }
    rewrite Hj, Hn. destruct (F j) as [-> ->]; [lia|]. destruct (F (N - j)%nat K) as [-> ->].
    replace (j + j =? 0)%nat with false by (symmetry; apply Nat.eqb_neq; lia).
    replace (j + j =? N)%nat with false by (symmetry; apply Nat.eqb_neq; lia).
    rewrite Nat.eqb_refl. replace (j + (N - j) =? N)%nat with true by (symmetry; apply Nat.eqb_eq; lia).
    replace (N - j =? j)%nat with false by (symmetry; apply Nat.eqb_neq; lia).
    rewrite Bool.orb_true_r. cbn [orb here fst snd]. fold th.
    assert (Tn : turn N (N - j) n = - th + 2 * PI * INR n).
    { unfold th, turn. rewrite minus_INR by lia. field. lra. }
    rewrite Tn, cos_turns, sin_turns, cos_neg, sin_neg, cos_plus, sin_plus. field. split; lra.
Qed.
