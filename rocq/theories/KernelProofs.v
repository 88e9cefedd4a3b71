(** Proofs about the shell kernels. *)
From Coq Require Import Reals Lra Lia List Arith.
From Verif Require Import Base BaseFacts Csys Sections Element Kernels SpecKernel SpecAsm ShellFacts.
Import ListNotations.
Local Open Scope R_scope.

(** ** Differentiation *)
Lemma dxi_correct e eta xi : derivable_pt_lim (fun x => ev e x eta) xi (ev (dxi e) xi eta).
Proof.
  induction e; cbn [ev dxi].
  - apply derivable_pt_lim_const.
  - apply derivable_pt_lim_id.
  - apply derivable_pt_lim_const.
  - apply (derivable_pt_lim_plus (fun x => ev e1 x eta) (fun x => ev e2 x eta)); assumption.
  - apply (derivable_pt_lim_minus (fun x => ev e1 x eta) (fun x => ev e2 x eta)); assumption.
  - apply (derivable_pt_lim_mult (fun x => ev e1 x eta) (fun x => ev e2 x eta)); assumption.
Qed.
Lemma deta_correct e xi eta : derivable_pt_lim (fun y => ev e xi y) eta (ev (deta e) xi eta).
Proof.
  induction e; cbn [ev deta].
  - apply derivable_pt_lim_const.
  - apply derivable_pt_lim_const.
  - apply derivable_pt_lim_id.
  - apply (derivable_pt_lim_plus (fun x => ev e1 xi x) (fun x => ev e2 xi x)); assumption.
  - apply (derivable_pt_lim_minus (fun x => ev e1 xi x) (fun x => ev e2 xi x)); assumption.
  - apply (derivable_pt_lim_mult (fun x => ev e1 xi x) (fun x => ev e2 xi x)); assumption.
Qed.

(** ** Strain of GQ12 *)
Lemma gq_ddx_lin xl xi eta (f : nat -> ex) (z : nat -> R) n :
  rsum n (fun i => gq_ddx xl xi eta (f i) * z i)
  = (gq_J xl xi eta 1%nat 1%nat * rsum n (fun i => ev (dxi (f i)) xi eta * z i)
     - gq_J xl xi eta 0%nat 1%nat * rsum n (fun i => ev (deta (f i)) xi eta * z i)) / det2 (gq_J xl xi eta).
Proof.
  unfold gq_ddx. set (J := gq_J xl xi eta). clearbody J. induction n; cbn [rsum]; [unfold Rdiv; ring|].
  rewrite IHn. unfold Rdiv. ring.
Qed.
Lemma gq_ddy_lin xl xi eta (f : nat -> ex) (z : nat -> R) n :
  rsum n (fun i => gq_ddy xl xi eta (f i) * z i)
  = (- gq_J xl xi eta 1%nat 0%nat * rsum n (fun i => ev (dxi (f i)) xi eta * z i)
     + gq_J xl xi eta 0%nat 0%nat * rsum n (fun i => ev (deta (f i)) xi eta * z i)) / det2 (gq_J xl xi eta).
Proof.
  unfold gq_ddy. set (J := gq_J xl xi eta). clearbody J. induction n; cbn [rsum]; [unfold Rdiv; ring|].
  rewrite IHn. unfold Rdiv. ring.
Qed.

Lemma gq_N0_xi xl xi eta f :
  rsum 4 (fun i => ev (dxi (gq_N0 i)) xi eta * lin_at f (cx xl i) (cy xl i))
  = l_x f * gq_J xl xi eta 0%nat 0%nat + l_y f * gq_J xl xi eta 0%nat 1%nat.
Proof. unfold gq_J, lin_at. cbn [rsum gq_N0 ev dxi xi0 eta0 nth]. field. Qed.
Lemma gq_N0_eta xl xi eta f :
  rsum 4 (fun i => ev (deta (gq_N0 i)) xi eta * lin_at f (cx xl i) (cy xl i))
  = l_x f * gq_J xl xi eta 1%nat 0%nat + l_y f * gq_J xl xi eta 1%nat 1%nat.
Proof. unfold gq_J, lin_at. cbn [rsum gq_N0 ev deta xi0 eta0 nth]. field. Qed.

(** interpolated displacements from corner displacements, and from equal drilling rotations *)
Lemma gq_u_xi xl u v dr xi eta :
  rsum 12 (fun c => ev (dxi (gq_N xl 0 c)) xi eta * membrane_values xl u v dr c)
  = l_x u * gq_J xl xi eta 0%nat 0%nat + l_y u * gq_J xl xi eta 0%nat 1%nat
    + dr * ((1 - 3 * xi^2) * (gq_b1 xl + gq_b3 xl * eta) / 2).
Proof.
  rewrite <- gq_N0_xi. unfold membrane_values. change (at_x xl) with (cx xl). change (at_y xl) with (cy xl).
  cbn -[cx cy lin_at gq_b1 gq_b2 gq_b3 Rdiv]. field.
Qed.
Lemma gq_u_eta xl u v dr xi eta :
  rsum 12 (fun c => ev (deta (gq_N xl 0 c)) xi eta * membrane_values xl u v dr c)
  = l_x u * gq_J xl xi eta 1%nat 0%nat + l_y u * gq_J xl xi eta 1%nat 1%nat
    + dr * (xi * (1 - xi^2) * gq_b3 xl / 2).
Proof.
  rewrite <- gq_N0_eta. unfold membrane_values. change (at_x xl) with (cx xl). change (at_y xl) with (cy xl).
  cbn -[cx cy lin_at gq_b1 gq_b2 gq_b3 Rdiv]. field.
Qed.
Lemma gq_v_xi xl u v dr xi eta :
  rsum 12 (fun c => ev (dxi (gq_N xl 1 c)) xi eta * membrane_values xl u v dr c)
  = l_x v * gq_J xl xi eta 0%nat 0%nat + l_y v * gq_J xl xi eta 0%nat 1%nat
    - dr * ((1 - 3 * xi^2) * (gq_a1 xl + gq_a3 xl * eta) / 2).
Proof.
  rewrite <- gq_N0_xi. unfold membrane_values. change (at_x xl) with (cx xl). change (at_y xl) with (cy xl).
  cbn -[cx cy lin_at gq_a1 gq_a2 gq_a3 Rdiv]. field.
Qed.
Lemma gq_v_eta xl u v dr xi eta :
  rsum 12 (fun c => ev (deta (gq_N xl 1 c)) xi eta * membrane_values xl u v dr c)
  = l_x v * gq_J xl xi eta 1%nat 0%nat + l_y v * gq_J xl xi eta 1%nat 1%nat
    - dr * (xi * (1 - xi^2) * gq_a3 xl / 2).
Proof.
  rewrite <- gq_N0_eta. unfold membrane_values. change (at_x xl) with (cx xl). change (at_y xl) with (cy xl).
  cbn -[cx cy lin_at gq_a1 gq_a2 gq_a3 Rdiv]. field.
Qed.

(** what equal drilling rotations add to the strain *)
Definition gq_extra (xl : list R) (xi eta : R) (r : nat) : R :=
  let J := gq_J xl xi eta in
  let ux := (1 - 3 * xi^2) * (gq_b1 xl + gq_b3 xl * eta) / 2 in let ue := xi * (1 - xi^2) * gq_b3 xl / 2 in
  let vx := - ((1 - 3 * xi^2) * (gq_a1 xl + gq_a3 xl * eta) / 2) in let ve := - (xi * (1 - xi^2) * gq_a3 xl / 2) in
  match r with
  | O => (J 1%nat 1%nat * ux - J 0%nat 1%nat * ue) / det2 J
  | S O => (- J 1%nat 0%nat * vx + J 0%nat 0%nat * ve) / det2 J
  | _ => (- J 1%nat 0%nat * ux + J 0%nat 0%nat * ue) / det2 J + (J 1%nat 1%nat * vx - J 0%nat 1%nat * ve) / det2 J
  end.

Lemma gq_strain xl u v dr xi eta r : (r < 3)%nat -> det2 (gq_J xl xi eta) <> 0 ->
  mvec 12 (gq_B xl xi eta) (membrane_values xl u v dr) r = nth r (strain u v) 0 + dr * gq_extra xl xi eta r.
Proof.
  intros Hr HD. unfold mvec.
  assert (X : rsum 12 (fun c => gq_ddx xl xi eta (gq_N xl 0 c) * membrane_values xl u v dr c)
      = l_x u + dr * gq_extra xl xi eta 0).
  { rewrite (gq_ddx_lin xl xi eta (fun c => gq_N xl 0 c)), gq_u_xi, gq_u_eta. unfold gq_extra, det2 in *.
    set (J := gq_J xl xi eta) in *. clearbody J. field. exact HD. }
  assert (Y : rsum 12 (fun c => gq_ddy xl xi eta (gq_N xl 1 c) * membrane_values xl u v dr c)
      = l_y v + dr * gq_extra xl xi eta 1).
  { rewrite (gq_ddy_lin xl xi eta (fun c => gq_N xl 1 c)), gq_v_xi, gq_v_eta. unfold gq_extra, det2 in *.
    set (J := gq_J xl xi eta) in *. clearbody J. field. exact HD. }
  assert (Z : rsum 12 (fun c => (gq_ddy xl xi eta (gq_N xl 0 c) + gq_ddx xl xi eta (gq_N xl 1 c)) * membrane_values xl u v dr c)
      = l_y u + l_x v + dr * gq_extra xl xi eta 2).
  { transitivity (rsum 12 (fun c => gq_ddy xl xi eta (gq_N xl 0 c) * membrane_values xl u v dr c)
       + rsum 12 (fun c => gq_ddx xl xi eta (gq_N xl 1 c) * membrane_values xl u v dr c)).
    { rewrite <- rsum_plus. apply rsum_ext; intros. ring. }
    rewrite (gq_ddy_lin xl xi eta (fun c => gq_N xl 0 c)), (gq_ddx_lin xl xi eta (fun c => gq_N xl 1 c)), gq_u_xi, gq_u_eta, gq_v_xi, gq_v_eta. unfold gq_extra, det2 in *.
    set (J := gq_J xl xi eta) in *. clearbody J. field. exact HD. }
  destruct r as [|[|[|r]]]; [exact X|exact Y|exact Z|lia].
Qed.

(** ** DKT *)
Lemma dkt_l2 xl k : dkt_l xl k ^ 2 = dkt_x xl k ^ 2 + dkt_y xl k ^ 2.
Proof. unfold dkt_l. rewrite <- Rsqr_pow2. apply Rsqr_sqrt. nra. Qed.

Definition sides_ok (xl : list R) : Prop := forall k, (4 <= k <= 6)%nat -> dkt_x xl k ^ 2 + dkt_y xl k ^ 2 <> 0.

Lemma dkt_xxi xl w xi eta : sides_ok xl ->
  rsum 9 (fun c => vnth (dkt_Hxxi xl xi eta) c * plate_values xl w c)
  = w_xx w * dkt_x xl 6 + w_xy w * dkt_y xl 6.
Proof.
  intros S. pose proof (S 4%nat ltac:(lia)) as S4. pose proof (S 5%nat ltac:(lia)) as S5. pose proof (S 6%nat ltac:(lia)) as S6.
  unfold plate_values, slope_x, slope_y, defl, dkt_Hxxi, dkt_P, dkt_q, dkt_r. rewrite !dkt_l2.
  change (at_x xl) with (cx xl). change (at_y xl) with (cy xl).
  unfold dkt_x, dkt_y in *. cbn -[cx cy Rdiv pow] in *.
  field. auto.
Qed.
Lemma dkt_xeta xl w xi eta : sides_ok xl ->
  rsum 9 (fun c => vnth (dkt_Hxeta xl xi eta) c * plate_values xl w c)
  = - (w_xx w * dkt_x xl 5 + w_xy w * dkt_y xl 5).
Proof.
  intros S. pose proof (S 4%nat ltac:(lia)) as S4. pose proof (S 5%nat ltac:(lia)) as S5. pose proof (S 6%nat ltac:(lia)) as S6.
  unfold plate_values, slope_x, slope_y, defl, dkt_Hxeta, dkt_P, dkt_q, dkt_r. rewrite !dkt_l2.
  change (at_x xl) with (cx xl). change (at_y xl) with (cy xl).
  unfold dkt_x, dkt_y in *. cbn -[cx cy Rdiv pow] in *.
  field. auto.
Qed.
Lemma dkt_yxi xl w xi eta : sides_ok xl ->
  rsum 9 (fun c => vnth (dkt_Hyxi xl xi eta) c * plate_values xl w c)
  = w_xy w * dkt_x xl 6 + w_yy w * dkt_y xl 6.
Proof.
  intros S. pose proof (S 4%nat ltac:(lia)) as S4. pose proof (S 5%nat ltac:(lia)) as S5. pose proof (S 6%nat ltac:(lia)) as S6.
  unfold plate_values, slope_x, slope_y, defl, dkt_Hyxi, dkt_t, dkt_q, dkt_r. rewrite !dkt_l2.
  change (at_x xl) with (cx xl). change (at_y xl) with (cy xl).
  unfold dkt_x, dkt_y in *. cbn -[cx cy Rdiv pow] in *.
  field. auto.
Qed.
Lemma dkt_yeta xl w xi eta : sides_ok xl ->
  rsum 9 (fun c => vnth (dkt_Hyeta xl xi eta) c * plate_values xl w c)
  = - (w_xy w * dkt_x xl 5 + w_yy w * dkt_y xl 5).
Proof.
  intros S. pose proof (S 4%nat ltac:(lia)) as S4. pose proof (S 5%nat ltac:(lia)) as S5. pose proof (S 6%nat ltac:(lia)) as S6.
  unfold plate_values, slope_x, slope_y, defl, dkt_Hyeta, dkt_t, dkt_q, dkt_r. rewrite !dkt_l2.
  change (at_x xl) with (cx xl). change (at_y xl) with (cy xl).
  unfold dkt_x, dkt_y in *. cbn -[cx cy Rdiv pow] in *.
  field. auto.
Qed.

Definition sides4_ok (xl : list R) : Prop := forall k, (k < 4)%nat -> dkq_l2 xl k <> 0.
Lemma dkq_xxi xl w xi eta : sides4_ok xl ->
  rsum 12 (fun c => ev (dxi (dkq_Hx xl c)) xi eta * plate_values xl w c)
  = - (w_xx w * dkq_J xl xi eta 0%nat 0%nat + w_xy w * dkq_J xl xi eta 0%nat 1%nat).
Proof.
  intros S. pose proof (S 0%nat ltac:(lia)) as S0. pose proof (S 1%nat ltac:(lia)) as S1.
  pose proof (S 2%nat ltac:(lia)) as S2. pose proof (S 3%nat ltac:(lia)) as S3.
  unfold plate_values, slope_x, slope_y, defl, dkq_J.
  change (at_x xl) with (cx xl). change (at_y xl) with (cy xl).
  cbn -[cx cy Rdiv pow dkq_a dkq_b dkq_c dkq_d dkq_e dkq_x dkq_y].
  unfold dkq_a, dkq_b, dkq_c, dkq_d, dkq_e. unfold dkq_l2, dkq_x, dkq_y in *. 
  field. auto.
Qed.
Lemma dkq_xeta xl w xi eta : sides4_ok xl ->
  rsum 12 (fun c => ev (deta (dkq_Hx xl c)) xi eta * plate_values xl w c)
  = - (w_xx w * dkq_J xl xi eta 1%nat 0%nat + w_xy w * dkq_J xl xi eta 1%nat 1%nat).
Proof.
  intros S. pose proof (S 0%nat ltac:(lia)) as S0. pose proof (S 1%nat ltac:(lia)) as S1.
  pose proof (S 2%nat ltac:(lia)) as S2. pose proof (S 3%nat ltac:(lia)) as S3.
  unfold plate_values, slope_x, slope_y, defl, dkq_J.
  change (at_x xl) with (cx xl). change (at_y xl) with (cy xl).
  cbn -[cx cy Rdiv pow dkq_a dkq_b dkq_c dkq_d dkq_e dkq_x dkq_y].
  unfold dkq_a, dkq_b, dkq_c, dkq_d, dkq_e. unfold dkq_l2, dkq_x, dkq_y in *. 
  field. auto.
Qed.
Lemma dkq_yxi xl w xi eta : sides4_ok xl ->
  rsum 12 (fun c => ev (dxi (dkq_Hy xl c)) xi eta * plate_values xl w c)
  = - (w_xy w * dkq_J xl xi eta 0%nat 0%nat + w_yy w * dkq_J xl xi eta 0%nat 1%nat).
Proof.
  intros S. pose proof (S 0%nat ltac:(lia)) as S0. pose proof (S 1%nat ltac:(lia)) as S1.
  pose proof (S 2%nat ltac:(lia)) as S2. pose proof (S 3%nat ltac:(lia)) as S3.
  unfold plate_values, slope_x, slope_y, defl, dkq_J.
  change (at_x xl) with (cx xl). change (at_y xl) with (cy xl).
  cbn -[cx cy Rdiv pow dkq_a dkq_b dkq_c dkq_d dkq_e dkq_x dkq_y].
  unfold dkq_a, dkq_b, dkq_c, dkq_d, dkq_e. unfold dkq_l2, dkq_x, dkq_y in *. 
  field. auto.
Qed.
Lemma dkq_yeta xl w xi eta : sides4_ok xl ->
  rsum 12 (fun c => ev (deta (dkq_Hy xl c)) xi eta * plate_values xl w c)
  = - (w_xy w * dkq_J xl xi eta 1%nat 0%nat + w_yy w * dkq_J xl xi eta 1%nat 1%nat).
Proof.
  intros S. pose proof (S 0%nat ltac:(lia)) as S0. pose proof (S 1%nat ltac:(lia)) as S1.
  pose proof (S 2%nat ltac:(lia)) as S2. pose proof (S 3%nat ltac:(lia)) as S3.
  unfold plate_values, slope_x, slope_y, defl, dkq_J.
  change (at_x xl) with (cx xl). change (at_y xl) with (cy xl).
  cbn -[cx cy Rdiv pow dkq_a dkq_b dkq_c dkq_d dkq_e dkq_x dkq_y].
  unfold dkq_a, dkq_b, dkq_c, dkq_d, dkq_e. unfold dkq_l2, dkq_x, dkq_y in *. 
  field. auto.
Qed.

(** ** Curvatures *)
Lemma rsum_lin2 n (f g z : nat -> R) a b :
  rsum n (fun c => (a * f c + b * g c) * z c) = a * rsum n (fun c => f c * z c) + b * rsum n (fun c => g c * z c).
Proof. rewrite <- !rsum_scal, <- rsum_plus. apply rsum_ext; intros. ring. Qed.

Lemma dkt_curvature xl w xi eta r : (r < 3)%nat -> turn xl 0 1 2 <> 0 ->
  mvec 9 (dkt_B xl xi eta) (plate_values xl w) r = nth r (curvature w) 0.
Proof.
  intros Hr HT.
  assert (D : dkt_x xl 5 * dkt_y xl 6 - dkt_x xl 6 * dkt_y xl 5 <> 0).
  { intros H. apply HT. unfold turn. change (at_x xl) with (cx xl). change (at_y xl) with (cy xl).
    unfold dkt_x, dkt_y in H. lra. }
  assert (S : sides_ok xl).
  { intros k Hk H. assert (dkt_x xl k = 0 /\ dkt_y xl k = 0) as [H1 H2] by nra.
    apply HT. unfold turn. change (at_x xl) with (cx xl). change (at_y xl) with (cy xl).
    assert (k = 4 \/ k = 5 \/ k = 6)%nat as [-> | [-> | ->]] by lia; unfold dkt_x, dkt_y in H1, H2; nra. }
  unfold mvec, dkt_B. cbv zeta.
  set (x31 := dkt_x xl 5) in *. set (x12 := dkt_x xl 6) in *. set (y31 := dkt_y xl 5) in *. set (y12 := dkt_y xl 6) in *.
  pose proof (dkt_xxi xl w xi eta S) as E1. pose proof (dkt_xeta xl w xi eta S) as E2.
  pose proof (dkt_yxi xl w xi eta S) as E3. pose proof (dkt_yeta xl w xi eta S) as E4.
  fold x31 x12 y31 y12 in E1, E2, E3, E4.
  set (D2 := x31 * y12 - x12 * y31) in *.
  destruct r as [|[|[|r]]]; [| | |lia]; cbn [nth curvature].
  - transitivity (rsum 9 (fun c => (y31 / D2 * vnth (dkt_Hxxi xl xi eta) c + y12 / D2 * vnth (dkt_Hxeta xl xi eta) c) * plate_values xl w c)).
    { apply rsum_ext; intros. unfold Rdiv. ring. }
    rewrite rsum_lin2, E1, E2. unfold D2 in *. field. exact D.
  - transitivity (rsum 9 (fun c => (- x31 / D2 * vnth (dkt_Hyxi xl xi eta) c + - x12 / D2 * vnth (dkt_Hyeta xl xi eta) c) * plate_values xl w c)).
    { apply rsum_ext; intros. unfold Rdiv. ring. }
    rewrite rsum_lin2, E3, E4. unfold D2 in *. field. exact D.
  - transitivity (rsum 9 (fun c => (- x31 / D2 * vnth (dkt_Hxxi xl xi eta) c + - x12 / D2 * vnth (dkt_Hxeta xl xi eta) c) * plate_values xl w c)
      + rsum 9 (fun c => (y31 / D2 * vnth (dkt_Hyxi xl xi eta) c + y12 / D2 * vnth (dkt_Hyeta xl xi eta) c) * plate_values xl w c)).
    { rewrite <- rsum_plus. apply rsum_ext; intros. unfold Rdiv. ring. }
    rewrite !rsum_lin2, E1, E2, E3, E4. unfold D2 in *. field. exact D.
Qed.

Lemma dkq_det xl xi eta : dkq_detJ xl xi eta = det2 (dkq_J xl xi eta).
Proof. unfold dkq_detJ, det2, dkq_J, dkq_x, dkq_y. field. Qed.

(** the curvature the plate of a quadrilateral takes from a quadratic deflection *)
Definition dkq_taken (xl : list R) (w : quadratic) (xi eta : R) (r : nat) : R :=
  let J := dkq_J xl xi eta in let j := dkq_j xl xi eta in
  let xx := - (w_xx w * J 0%nat 0%nat + w_xy w * J 0%nat 1%nat) in
  let xe := - (w_xx w * J 1%nat 0%nat + w_xy w * J 1%nat 1%nat) in
  let yx := - (w_xy w * J 0%nat 0%nat + w_yy w * J 0%nat 1%nat) in
  let ye := - (w_xy w * J 1%nat 0%nat + w_yy w * J 1%nat 1%nat) in
  match r with
  | O => j 0%nat 0%nat * xx + j 0%nat 1%nat * xe
  | S O => j 1%nat 0%nat * yx + j 1%nat 1%nat * ye
  | _ => j 0%nat 0%nat * yx + j 0%nat 1%nat * ye + (j 1%nat 0%nat * xx + j 1%nat 1%nat * xe)
  end.
Lemma dkq_strain xl w xi eta r : (r < 3)%nat -> sides4_ok xl ->
  mvec 12 (dkq_B xl xi eta) (plate_values xl w) r = dkq_taken xl w xi eta r.
Proof.
  intros Hr S. unfold mvec, dkq_B, dkq_taken. cbv zeta.
  rewrite <- (dkq_xxi xl w xi eta S), <- (dkq_xeta xl w xi eta S), <- (dkq_yxi xl w xi eta S), <- (dkq_yeta xl w xi eta S).
  set (j := dkq_j xl xi eta). clearbody j.
  destruct r as [|[|[|r]]]; [| | |lia]; rewrite <- !rsum_lin2.
  - reflexivity.
  - reflexivity.
  - rewrite <- rsum_plus. apply rsum_ext; intros. ring.
Qed.
Lemma dkq_taken_right xl w xi eta r : (r < 3)%nat -> dkq_detJ xl xi eta <> 0 ->
  dkq_J xl xi eta 0%nat 0%nat = dkq_J xl xi eta 1%nat 1%nat -> dkq_taken xl w xi eta r = nth r (curvature w) 0.
Proof.
  intros Hr HD E. unfold dkq_taken, dkq_j. rewrite dkq_det in *. unfold det2 in *. cbv zeta.
  set (J := dkq_J xl xi eta) in *. clearbody J. rewrite E in *.
  destruct r as [|[|[|r]]]; [| | |lia]; cbn [nth curvature]; field; exact HD.
Qed.
Lemma dkq_taken_plane xl w xi eta r : plane_w w -> dkq_taken xl w xi eta r = 0.
Proof.
  intros (E1 & E2 & E3). unfold dkq_taken. rewrite E1, E2, E3. destruct r as [|[|r]]; ring.
Qed.

(** ** The Jacobian *)
Lemma gq_det_corners xl xi eta : det2 (gq_J xl xi eta)
  = ((1 + xi) * (1 - eta) * turn xl 3 0 1 + (1 + xi) * (1 + eta) * turn xl 0 1 2
     + (1 - xi) * (1 + eta) * turn xl 1 2 3 + (1 - xi) * (1 - eta) * turn xl 2 3 0) / 16.
Proof.
  unfold det2, gq_J, turn. change (at_x xl) with (cx xl). change (at_y xl) with (cy xl).
  cbn -[cx cy Rdiv]. field.
Qed.
Lemma dkq_det_corners xl xi eta : det2 (dkq_J xl xi eta)
  = ((1 - xi) * (1 - eta) * turn xl 3 0 1 + (1 + xi) * (1 - eta) * turn xl 0 1 2
     + (1 + xi) * (1 + eta) * turn xl 1 2 3 + (1 - xi) * (1 + eta) * turn xl 2 3 0) / 16.
Proof.
  unfold det2, dkq_J, dkq_x, dkq_y, turn. change (at_x xl) with (cx xl). change (at_y xl) with (cy xl). field.
Qed.
Lemma corners_pos a b c d xi eta : 0 < a -> 0 < b -> 0 < c -> 0 < d -> -1 <= xi <= 1 -> -1 <= eta <= 1 ->
  0 < ((1 + xi) * (1 - eta) * a + (1 + xi) * (1 + eta) * b + (1 - xi) * (1 + eta) * c + (1 - xi) * (1 - eta) * d) / 16.
Proof.
  intros A B C D X Y. apply Rmult_lt_0_compat; [|lra].
  set (m := Rmin (Rmin a b) (Rmin c d)).
  assert (M : 0 < m) by (unfold m; repeat apply Rmin_glb_lt; assumption).
  assert (m <= a /\ m <= b /\ m <= c /\ m <= d) as (Ha & Hb & Hc & Hd).
  { unfold m. pose proof (Rmin_l (Rmin a b) (Rmin c d)). pose proof (Rmin_r (Rmin a b) (Rmin c d)).
    pose proof (Rmin_l a b). pose proof (Rmin_r a b). pose proof (Rmin_l c d). pose proof (Rmin_r c d). lra. }
  clearbody m.
  assert (P1 : 0 <= (1 + xi) * (1 - eta)) by (apply Rmult_le_pos; lra).
  assert (P2 : 0 <= (1 + xi) * (1 + eta)) by (apply Rmult_le_pos; lra).
  assert (P3 : 0 <= (1 - xi) * (1 + eta)) by (apply Rmult_le_pos; lra).
  assert (P4 : 0 <= (1 - xi) * (1 - eta)) by (apply Rmult_le_pos; lra).
  apply (Rmult_le_compat_l _ _ _ P1) in Ha. apply (Rmult_le_compat_l _ _ _ P2) in Hb.
  apply (Rmult_le_compat_l _ _ _ P3) in Hc. apply (Rmult_le_compat_l _ _ _ P4) in Hd.
  assert ((1 + xi) * (1 - eta) * m + (1 + xi) * (1 + eta) * m + (1 - xi) * (1 + eta) * m + (1 - xi) * (1 - eta) * m = 4 * m) by ring.
  lra.
Qed.
Lemma gq_det_pos xl xi eta : convex4 xl -> -1 <= xi <= 1 -> -1 <= eta <= 1 -> 0 < det2 (gq_J xl xi eta).
Proof. intros (A & B & C & D) X Y. rewrite gq_det_corners. now apply corners_pos. Qed.
Lemma dkq_det_pos xl xi eta : convex4 xl -> -1 <= xi <= 1 -> -1 <= eta <= 1 -> 0 < det2 (dkq_J xl xi eta).
Proof.
  intros (A & B & C & D) X Y. rewrite dkq_det_corners.
  replace ((1 - xi) * (1 - eta) * turn xl 3 0 1 + (1 + xi) * (1 - eta) * turn xl 0 1 2 + (1 + xi) * (1 + eta) * turn xl 1 2 3 + (1 - xi) * (1 + eta) * turn xl 2 3 0)
    with ((1 + xi) * (1 - eta) * turn xl 0 1 2 + (1 + xi) * (1 + eta) * turn xl 1 2 3 + (1 - xi) * (1 + eta) * turn xl 2 3 0 + (1 - xi) * (1 - eta) * turn xl 3 0 1) by ring.
  now apply corners_pos.
Qed.
Lemma convex_sides xl : convex4 xl -> sides4_ok xl.
Proof.
  intros (A & B & C & D) k Hk H. unfold turn in *. change (at_x xl) with (cx xl) in *. change (at_y xl) with (cy xl) in *.
  assert (dkq_x xl k = 0 /\ dkq_y xl k = 0) as [H1 H2] by (unfold dkq_l2 in H; nra).
  assert (k = 0 \/ k = 1 \/ k = 2 \/ k = 3)%nat as [-> | [-> | [-> | ->]]] by lia; unfold dkq_x, dkq_y in H1, H2; nra.
Qed.
Lemma four_sides_ok xl : four_sides xl -> sides4_ok xl.
Proof.
  intros F k Hk H.
  assert (dkq_x xl k = 0 /\ dkq_y xl k = 0) as [H1 H2] by (unfold dkq_l2 in H; nra).
  assert (k = 0 \/ k = 1 \/ k = 2 \/ k = 3)%nat as [-> | [-> | [-> | ->]]] by lia; unfold dkq_x, dkq_y in H1, H2.
  - destruct (F 0 1)%nat as [F0|F0]; [simpl; tauto| |]; change (at_x xl) with (cx xl) in F0; change (at_y xl) with (cy xl) in F0; lra.
  - destruct (F 1 2)%nat as [F0|F0]; [simpl; tauto| |]; change (at_x xl) with (cx xl) in F0; change (at_y xl) with (cy xl) in F0; lra.
  - destruct (F 2 3)%nat as [F0|F0]; [simpl; tauto| |]; change (at_x xl) with (cx xl) in F0; change (at_y xl) with (cy xl) in F0; lra.
  - destruct (F 3 0)%nat as [F0|F0]; [simpl; tauto| |]; change (at_x xl) with (cx xl) in F0; change (at_y xl) with (cy xl) in F0; lra.
Qed.
Lemma convex_four xl : convex4 xl -> four_sides xl.
Proof.
  intros C i j H. pose proof (convex_sides xl C) as S.
  destruct (Req_dec (at_x xl i) (at_x xl j)) as [E|E]; [|left; exact E]. right. intros E2.
  change (at_x xl) with (cx xl) in *. change (at_y xl) with (cy xl) in *.
  cbn [In] in H. destruct H as [H|[H|[H|[H|[]]]]]; injection H as <- <-.
  - apply (S 0%nat); [lia|]. unfold dkq_l2, dkq_x, dkq_y. rewrite E, E2. ring.
  - apply (S 1%nat); [lia|]. unfold dkq_l2, dkq_x, dkq_y. rewrite E, E2. ring.
  - apply (S 2%nat); [lia|]. unfold dkq_l2, dkq_x, dkq_y. rewrite E, E2. ring.
  - apply (S 3%nat); [lia|]. unfold dkq_l2, dkq_x, dkq_y. rewrite E, E2. ring.
Qed.
