(** Discrete Kirchhoff plates, quadrilaterals of constant curvature, and what is wrong with
    the quadrilateral kernels (C74-C76). *)
From Coq Require Import Reals Lra Lia List Arith.
From Verif Require Import Base BaseFacts Csys Sections Element Kernels SpecKernel SpecAsm ShellFacts KernelProofs KernelProofs2.
Import ListNotations.
Local Open Scope R_scope.

Lemma mid_x xl d i j : side_x xl i j ^ 2 + side_y xl i j ^ 2 <> 0 ->
  mid_gx xl d i j = (corner_gx d i + corner_gx d j) / 2
    + 3/2 * (corner_w d j - corner_w d i - ((corner_gx d i + corner_gx d j) * side_x xl i j + (corner_gy d i + corner_gy d j) * side_y xl i j) / 2)
      * side_x xl i j / (side_x xl i j ^ 2 + side_y xl i j ^ 2).
Proof.
  intros H. unfold mid_gx, mid_along, mid_across. 
  assert (S : side_l xl i j * side_l xl i j = side_x xl i j ^ 2 + side_y xl i j ^ 2) by (unfold side_l; apply sqrt_sqrt; nra).
  assert (side_l xl i j <> 0) by (intros Z; rewrite Z in S; lra).
  set (X := side_x xl i j) in *. set (Y := side_y xl i j) in *. set (l := side_l xl i j) in *. clearbody X Y l.
  apply Rmult_eq_reg_l with (l * l); [|apply Rmult_integral_contrapositive_currified; assumption].
  transitivity (3/2 * (corner_w d j - corner_w d i) * X - 1/4 * ((corner_gx d i + corner_gx d j) * X + (corner_gy d i + corner_gy d j) * Y) * X
     + ((corner_gx d i + corner_gx d j) * Y - (corner_gy d i + corner_gy d j) * X) / 2 * Y); [field; assumption|].
  rewrite S. field. exact H.
Qed.
Lemma mid_y xl d i j : side_x xl i j ^ 2 + side_y xl i j ^ 2 <> 0 ->
  mid_gy xl d i j = (corner_gy d i + corner_gy d j) / 2
    + 3/2 * (corner_w d j - corner_w d i - ((corner_gx d i + corner_gx d j) * side_x xl i j + (corner_gy d i + corner_gy d j) * side_y xl i j) / 2)
      * side_y xl i j / (side_x xl i j ^ 2 + side_y xl i j ^ 2).
Proof.
  intros H. unfold mid_gy, mid_along, mid_across. 
  assert (S : side_l xl i j * side_l xl i j = side_x xl i j ^ 2 + side_y xl i j ^ 2) by (unfold side_l; apply sqrt_sqrt; nra).
  assert (side_l xl i j <> 0) by (intros Z; rewrite Z in S; lra).
  set (X := side_x xl i j) in *. set (Y := side_y xl i j) in *. set (l := side_l xl i j) in *. clearbody X Y l.
  apply Rmult_eq_reg_l with (l * l); [|apply Rmult_integral_contrapositive_currified; assumption].
  transitivity (3/2 * (corner_w d j - corner_w d i) * Y - 1/4 * ((corner_gx d i + corner_gx d j) * X + (corner_gy d i + corner_gy d j) * Y) * Y
     - ((corner_gx d i + corner_gx d j) * Y - (corner_gy d i + corner_gy d j) * X) / 2 * X); [field; assumption|].
  rewrite S. field. exact H.
Qed.

(** derivatives of [quadratic3] in its coordinates *)
Definition q3_s (v0 v1 v2 v12 v20 v01 s r : R) : R :=
  - (4 * (1 - s - r) - 1) * v0 + (4 * s - 1) * v1 + 4 * r * v12 - 4 * r * v20 + (4 * (1 - s - r) - 4 * s) * v01.
Definition q3_r (v0 v1 v2 v12 v20 v01 s r : R) : R :=
  - (4 * (1 - s - r) - 1) * v0 + (4 * r - 1) * v2 + 4 * s * v12 + (4 * (1 - s - r) - 4 * r) * v20 - 4 * s * v01.

Lemma sides_turn xl : turn xl 0 1 2 <> 0 ->
  side_x xl 1 2 ^ 2 + side_y xl 1 2 ^ 2 <> 0 /\ side_x xl 2 0 ^ 2 + side_y xl 2 0 ^ 2 <> 0 /\ side_x xl 0 1 ^ 2 + side_y xl 0 1 ^ 2 <> 0.
Proof.
  unfold turn, side_x, side_y. intros H.
  set (x0 := at_x xl 0) in *. set (x1 := at_x xl 1) in *. set (x2 := at_x xl 2) in *.
  set (y0 := at_y xl 0) in *. set (y1 := at_y xl 1) in *. set (y2 := at_y xl 2) in *. clearbody x0 x1 x2 y0 y1 y2.
  assert (G : forall a b : R, a ^ 2 + b ^ 2 = 0 -> a = 0 /\ b = 0) by (intros; nra).
  split; [|split]; intros Z; apply G in Z as [Z1 Z2]; apply H; nra.
Qed.

Ltac open_tri xl d :=
  unfold corner_w, corner_gx, corner_gy; cbn [Nat.mul Nat.add];
  unfold side_x, side_y in *; change (at_x xl) with (cx xl) in *; change (at_y xl) with (cy xl) in *.
Lemma dkt_xi_x xl d s r : sides_ok xl ->
  rsum 9 (fun c => vnth (dkt_Hxxi xl s r) c * d c)
  = - q3_s (corner_gx d 0) (corner_gx d 1) (corner_gx d 2) (mid_gx xl d 1 2) (mid_gx xl d 2 0) (mid_gx xl d 0 1) s r.
Proof.
  intros S. pose proof (S 4%nat ltac:(lia)) as S4. pose proof (S 5%nat ltac:(lia)) as S5. pose proof (S 6%nat ltac:(lia)) as S6.
  unfold dkt_x, dkt_y in S4, S5, S6.
  unfold q3_s. rewrite !mid_x by (unfold side_x, side_y; change (at_x xl) with (cx xl); change (at_y xl) with (cy xl); nra). open_tri xl d.
  unfold dkt_Hxxi, dkt_P, dkt_q, dkt_r. rewrite !dkt_l2. unfold dkt_x, dkt_y. cbn -[cx cy Rdiv pow]. field.
  repeat split; nra.
Qed.
Lemma dkt_eta_x xl d s r : sides_ok xl ->
  rsum 9 (fun c => vnth (dkt_Hxeta xl s r) c * d c)
  = - q3_r (corner_gx d 0) (corner_gx d 1) (corner_gx d 2) (mid_gx xl d 1 2) (mid_gx xl d 2 0) (mid_gx xl d 0 1) s r.
Proof.
  intros S. pose proof (S 4%nat ltac:(lia)) as S4. pose proof (S 5%nat ltac:(lia)) as S5. pose proof (S 6%nat ltac:(lia)) as S6.
  unfold dkt_x, dkt_y in S4, S5, S6.
  unfold q3_r. rewrite !mid_x by (unfold side_x, side_y; change (at_x xl) with (cx xl); change (at_y xl) with (cy xl); nra). open_tri xl d.
  unfold dkt_Hxeta, dkt_P, dkt_q, dkt_r. rewrite !dkt_l2. unfold dkt_x, dkt_y. cbn -[cx cy Rdiv pow]. field.
  repeat split; nra.
Qed.
Lemma dkt_xi_y xl d s r : sides_ok xl ->
  rsum 9 (fun c => vnth (dkt_Hyxi xl s r) c * d c)
  = - q3_s (corner_gy d 0) (corner_gy d 1) (corner_gy d 2) (mid_gy xl d 1 2) (mid_gy xl d 2 0) (mid_gy xl d 0 1) s r.
Proof.
  intros S. pose proof (S 4%nat ltac:(lia)) as S4. pose proof (S 5%nat ltac:(lia)) as S5. pose proof (S 6%nat ltac:(lia)) as S6.
  unfold dkt_x, dkt_y in S4, S5, S6.
  unfold q3_s. rewrite !mid_y by (unfold side_x, side_y; change (at_x xl) with (cx xl); change (at_y xl) with (cy xl); nra). open_tri xl d.
  unfold dkt_Hyxi, dkt_t, dkt_q, dkt_r. rewrite !dkt_l2. unfold dkt_x, dkt_y. cbn -[cx cy Rdiv pow]. field.
  repeat split; nra.
Qed.
Lemma dkt_eta_y xl d s r : sides_ok xl ->
  rsum 9 (fun c => vnth (dkt_Hyeta xl s r) c * d c)
  = - q3_r (corner_gy d 0) (corner_gy d 1) (corner_gy d 2) (mid_gy xl d 1 2) (mid_gy xl d 2 0) (mid_gy xl d 0 1) s r.
Proof.
  intros S. pose proof (S 4%nat ltac:(lia)) as S4. pose proof (S 5%nat ltac:(lia)) as S5. pose proof (S 6%nat ltac:(lia)) as S6.
  unfold dkt_x, dkt_y in S4, S5, S6.
  unfold q3_r. rewrite !mid_y by (unfold side_x, side_y; change (at_x xl) with (cx xl); change (at_y xl) with (cy xl); nra). open_tri xl d.
  unfold dkt_Hyeta, dkt_t, dkt_q, dkt_r. rewrite !dkt_l2. unfold dkt_x, dkt_y. cbn -[cx cy Rdiv pow]. field.
  repeat split; nra.
Qed.

(** derivative of a quadratic along a line *)
Lemma quad_derive a b c x : derivable_pt_lim (fun x => a + b * x + c * (x * x)) x (b + c * (2 * x)).
Proof.
  replace (b + c * (2 * x)) with (0 + (b * 1) + c * (1 * x + x * 1)) by ring.
  apply (derivable_pt_lim_plus (fun x => a + b * x) (fun x => c * (x * x))).
  - apply (derivable_pt_lim_plus (fun _ => a) (fun x => b * x)); [apply derivable_pt_lim_const|].
    apply (derivable_pt_lim_scal (fun x => x) b x 1), derivable_pt_lim_id.
  - apply (derivable_pt_lim_scal (fun x => x * x) c x (1 * x + x * 1)).
    apply (derivable_pt_lim_mult (fun x => x) (fun x => x)); apply derivable_pt_lim_id.
Qed.
Lemma derive_ext f g x l l' : (forall z, f z = g z) -> l = l' -> derivable_pt_lim g x l' -> derivable_pt_lim f x l.
Proof. intros H -> D eps He. destruct (D eps He) as [dl Hd]. exists dl. intros h Hh Hl. rewrite !H. auto. Qed.
Lemma q3_line v0 v1 v2 v12 v20 v01 s0 s1 r0 r1 z :
  derivable_pt_lim (fun z => - quadratic3 v0 v1 v2 v12 v20 v01 (s0 + s1 * z) (r0 + r1 * z)) z
    (- (s1 * q3_s v0 v1 v2 v12 v20 v01 (s0 + s1 * z) (r0 + r1 * z) + r1 * q3_r v0 v1 v2 v12 v20 v01 (s0 + s1 * z) (r0 + r1 * z))).
Proof.
  pose (P := fun z => - quadratic3 v0 v1 v2 v12 v20 v01 (s0 + s1 * z) (r0 + r1 * z)).
  pose (a := P 0). pose (c := (P 1 + P (-1)) / 2 - P 0). pose (b := (P 1 - P (-1)) / 2).
  apply (derive_ext _ (fun z => a + b * z + c * (z * z)) _ _ (b + c * (2 * z))); [| |apply quad_derive].
  - intros u. unfold a, b, c, P, quadratic3. field.
  - unfold b, c, P, quadratic3, q3_s, q3_r. field.
Qed.

Lemma c75_slopes xl d x y : turn xl 0 1 2 <> 0 ->
  let B := dkt_B xl (tri_s xl x y) (tri_r xl x y) in
  derivable_pt_lim (fun x => - tri_slope_x xl d x y) x (mvec 9 B d 0)
  /\ derivable_pt_lim (fun y => - tri_slope_y xl d x y) y (mvec 9 B d 1)
  /\ exists a b, derivable_pt_lim (fun y => - tri_slope_x xl d x y) y a
       /\ derivable_pt_lim (fun x => - tri_slope_y xl d x y) x b /\ mvec 9 B d 2 = a + b.
Proof.
  intros T B.
  assert (S : sides_ok xl).
  { pose proof (sides_turn xl T) as (A1 & A2 & A3). unfold side_x, side_y in *. change (at_x xl) with (cx xl) in *. change (at_y xl) with (cy xl) in *.
    intros k Hk. assert (k = 4 \/ k = 5 \/ k = 6)%nat as [-> | [-> | ->]] by lia; unfold dkt_x, dkt_y; nra. }
  set (s := tri_s xl x y). set (r := tri_r xl x y).
  set (HX := - q3_s (corner_gx d 0) (corner_gx d 1) (corner_gx d 2) (mid_gx xl d 1 2) (mid_gx xl d 2 0) (mid_gx xl d 0 1) s r).
  set (HX' := - q3_r (corner_gx d 0) (corner_gx d 1) (corner_gx d 2) (mid_gx xl d 1 2) (mid_gx xl d 2 0) (mid_gx xl d 0 1) s r).
  set (HY := - q3_s (corner_gy d 0) (corner_gy d 1) (corner_gy d 2) (mid_gy xl d 1 2) (mid_gy xl d 2 0) (mid_gy xl d 0 1) s r).
  set (HY' := - q3_r (corner_gy d 0) (corner_gy d 1) (corner_gy d 2) (mid_gy xl d 1 2) (mid_gy xl d 2 0) (mid_gy xl d 0 1) s r).
  pose (T0 := turn xl 0 1 2).
  pose (sx := (at_y xl 2 - at_y xl 0) / T0). pose (sy := - (at_x xl 2 - at_x xl 0) / T0).
  pose (rx := - (at_y xl 1 - at_y xl 0) / T0). pose (ry := (at_x xl 1 - at_x xl 0) / T0).
  assert (M0 : mvec 9 B d 0 = sx * HX + rx * HX').
  { unfold HX, HX'. rewrite <- (dkt_xi_x xl d s r S), <- (dkt_eta_x xl d s r S), <- !rsum_scal, <- rsum_plus.
    unfold mvec. apply rsum_ext; intros c _. unfold B, dkt_B. fold s r.
    set (h1 := vnth (dkt_Hxxi xl s r) c). set (h2 := vnth (dkt_Hxeta xl s r) c).
    unfold sx, rx, T0, turn, dkt_x, dkt_y in *. change (at_x xl) with (cx xl) in *. change (at_y xl) with (cy xl) in *.
    clearbody h1 h2. field; repeat split; intros Z; apply T; lra. }
  assert (M1 : mvec 9 B d 1 = sy * HY + ry * HY').
  { unfold HY, HY'. rewrite <- (dkt_xi_y xl d s r S), <- (dkt_eta_y xl d s r S), <- !rsum_scal, <- rsum_plus.
    unfold mvec. apply rsum_ext; intros c _. unfold B, dkt_B. fold s r.
    set (h1 := vnth (dkt_Hyxi xl s r) c). set (h2 := vnth (dkt_Hyeta xl s r) c).
    unfold sy, ry, T0, turn, dkt_x, dkt_y in *. change (at_x xl) with (cx xl) in *. change (at_y xl) with (cy xl) in *.
    clearbody h1 h2. field; repeat split; intros Z; apply T; lra. }
  assert (M2 : mvec 9 B d 2 = (sy * HX + ry * HX') + (sx * HY + rx * HY')).
  { unfold HX, HX', HY, HY'. rewrite <- (dkt_xi_x xl d s r S), <- (dkt_eta_x xl d s r S), <- (dkt_xi_y xl d s r S), <- (dkt_eta_y xl d s r S), <- !rsum_scal, <- !rsum_plus.
    unfold mvec. apply rsum_ext; intros c _. unfold B, dkt_B. fold s r.
    set (h1 := vnth (dkt_Hxxi xl s r) c). set (h2 := vnth (dkt_Hxeta xl s r) c).
    set (h3 := vnth (dkt_Hyxi xl s r) c). set (h4 := vnth (dkt_Hyeta xl s r) c).
    unfold sx, rx, sy, ry, T0, turn, dkt_x, dkt_y in *. change (at_x xl) with (cx xl) in *. change (at_y xl) with (cy xl) in *.
    clearbody h1 h2 h3 h4. field; repeat split; intros Z; apply T; lra. }
  pose (sc := tri_s xl 0 y). pose (rc := tri_r xl 0 y). pose (se := tri_s xl x 0). pose (re := tri_r xl x 0).
  assert (LX : forall x, tri_s xl x y = sc + sx * x /\ tri_r xl x y = rc + rx * x).
  { intros z. unfold sc, rc, sx, rx, tri_s, tri_r. fold T0. split; field; exact T. }
  assert (LY : forall y, tri_s xl x y = se + sy * y /\ tri_r xl x y = re + ry * y).
  { intros z. unfold se, re, sy, ry, tri_s, tri_r. fold T0. split; field; exact T. }
  pose proof (proj1 (LX x)) as LX1. pose proof (proj2 (LX x)) as LX2. fold s in LX1. fold r in LX2.
  pose proof (proj1 (LY y)) as LY1. pose proof (proj2 (LY y)) as LY2. fold s in LY1. fold r in LY2.
  split; [|split].
  - rewrite M0. unfold HX, HX'.
    eapply derive_ext; [intros z; unfold tri_slope_x; rewrite (proj1 (LX z)), (proj2 (LX z)); reflexivity| |apply q3_line].
    rewrite <- LX1, <- LX2. ring.
  - rewrite M1. unfold HY, HY'.
    eapply derive_ext; [intros z; unfold tri_slope_y; rewrite (proj1 (LY z)), (proj2 (LY z)); reflexivity| |apply q3_line].
    rewrite <- LY1, <- LY2. ring.
  - exists (sy * HX + ry * HX'), (sx * HY + rx * HY'). split; [|split; [|exact M2]].
    + unfold HX, HX'.
      eapply derive_ext; [intros z; unfold tri_slope_x; rewrite (proj1 (LY z)), (proj2 (LY z)); reflexivity| |apply q3_line].
      rewrite <- LY1, <- LY2. ring.
    + unfold HY, HY'.
      eapply derive_ext; [intros z; unfold tri_slope_y; rewrite (proj1 (LX z)), (proj2 (LX z)); reflexivity| |apply q3_line].
      rewrite <- LX1, <- LX2. ring.
Qed.

(** ** Quadrilaterals: the slopes *)
Definition after (k : nat) : nat := match k with 3%nat => 0%nat | _ => S k end.
Lemma dkq_mid_x xl d k : dkq_l2 xl k <> 0 ->
  mid_gx xl d k (after k) = - (3/2 * dkq_a xl k * (d (3 * k)%nat - d (3 * after k)%nat)
    + dkq_b xl k * (d (3 * k + 1)%nat + d (3 * after k + 1)%nat) - dkq_c xl k * (d (3 * k + 2)%nat + d (3 * after k + 2)%nat)).
Proof.
  intros S. unfold dkq_l2 in S.
  rewrite mid_x by (unfold side_x, side_y; change (at_x xl) with (cx xl); change (at_y xl) with (cy xl); unfold dkq_x, dkq_y in S; fold (after k) in S; nra).
  unfold corner_w, corner_gx, corner_gy, dkq_a, dkq_b, dkq_c, dkq_l2, side_x, side_y.
  change (at_x xl) with (cx xl). change (at_y xl) with (cy xl).
  replace (cx xl (after k) - cx xl k) with (- dkq_x xl k) by (unfold dkq_x, after; ring).
  replace (cy xl (after k) - cy xl k) with (- dkq_y xl k) by (unfold dkq_y, after; ring).
  set (X := dkq_x xl k) in *. set (Y := dkq_y xl k) in *. clearbody X Y. field; repeat split; nra.
Qed.
Lemma dkq_mid_y xl d k : dkq_l2 xl k <> 0 ->
  mid_gy xl d k (after k) = - (3/2 * dkq_d xl k * (d (3 * k)%nat - d (3 * after k)%nat)
    + dkq_e xl k * (d (3 * k + 1)%nat + d (3 * after k + 1)%nat) - dkq_b xl k * (d (3 * k + 2)%nat + d (3 * after k + 2)%nat)).
Proof.
  intros S. unfold dkq_l2 in S.
  rewrite mid_y by (unfold side_x, side_y; change (at_x xl) with (cx xl); change (at_y xl) with (cy xl); unfold dkq_x, dkq_y in S; fold (after k) in S; nra).
  unfold corner_w, corner_gx, corner_gy, dkq_d, dkq_b, dkq_e, dkq_l2, side_x, side_y.
  change (at_x xl) with (cx xl). change (at_y xl) with (cy xl).
  replace (cx xl (after k) - cx xl k) with (- dkq_x xl k) by (unfold dkq_x, after; ring).
  replace (cy xl (after k) - cy xl k) with (- dkq_y xl k) by (unfold dkq_y, after; ring).
  set (X := dkq_x xl k) in *. set (Y := dkq_y xl k) in *. clearbody X Y. field; repeat split; nra.
Qed.
Lemma c76_slopes xl d s r : four_sides xl ->
  rsum 12 (fun c => ev (dkq_Hx xl c) s r * d c) = - quad_slope_x xl d s r
  /\ rsum 12 (fun c => ev (dkq_Hy xl c) s r * d c) = - quad_slope_y xl d s r.
Proof.
  intros FS. pose proof (four_sides_ok _ FS) as S. pose proof (S 0%nat ltac:(lia)) as S0. pose proof (S 1%nat ltac:(lia)) as S1. pose proof (S 2%nat ltac:(lia)) as S2. pose proof (S 3%nat ltac:(lia)) as S3.
  unfold quad_slope_x, quad_slope_y, eight, corner8. split.
  - pose proof (dkq_mid_x xl d 0 S0) as M0. pose proof (dkq_mid_x xl d 1 S1) as M1. pose proof (dkq_mid_x xl d 2 S2) as M2. pose proof (dkq_mid_x xl d 3 S3) as M3.
    cbn [after] in M0, M1, M2, M3. rewrite M0, M1, M2, M3. clear M0 M1 M2 M3.
    unfold corner_gx, dkq_Hx.
    set (a := dkq_a xl). set (b := dkq_b xl). set (c := dkq_c xl). clearbody a b c. cbn -[Rdiv pow]. field.
  - pose proof (dkq_mid_y xl d 0 S0) as M0. pose proof (dkq_mid_y xl d 1 S1) as M1. pose proof (dkq_mid_y xl d 2 S2) as M2. pose proof (dkq_mid_y xl d 3 S3) as M3.
    cbn [after] in M0, M1, M2, M3. rewrite M0, M1, M2, M3. clear M0 M1 M2 M3.
    unfold corner_gy, dkq_Hy.
    set (a := dkq_d xl). set (b := dkq_b xl). set (c := dkq_e xl). clearbody a b c. cbn -[Rdiv pow]. field.
Qed.
