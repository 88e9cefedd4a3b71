(** Proofs about the thick plate, continued: shear, strains, patch test (C88, C89). *)
From Coq Require Import Reals Lra Lia List Arith Ranalysis.
From Verif Require Import Base BaseFacts Csys Sections Element Kernels SpecKernel Thick SpecThick ShellFacts KernelProofs KernelProofs2 ThickProofs.
Import ListNotations.
Local Open Scope R_scope.

(** ** Shear *)
Definition corner_sx (xl : list R) (G : nat -> R) (i : nat) : R := rsum 4 (fun k => tm_Xs xl i k * G k).
Definition corner_sy (xl : list R) (G : nat -> R) (i : nat) : R := rsum 4 (fun k => tm_Ys xl i k * G k).

Lemma ev_N0 (v : nat -> R) s r : rsum 4 (fun i => ev (tm_N0 i) s r * v i) = four v s r.
Proof. unfold four. cbn [rsum tm_N0 ev]. field. Qed.
Lemma Bs_four mu t xl d s r :
  mvec 12 (tm_Bs mu t xl s r) d 0 = four (corner_sx xl (mvec 12 (tm_Gamma mu t xl) d)) s r /\
  mvec 12 (tm_Bs mu t xl s r) d 1 = four (corner_sy xl (mvec 12 (tm_Gamma mu t xl) d)) s r.
Proof.
  assert (H : forall Z : mat, rsum 12 (fun c => rsum 4 (fun k => rsum 4 (fun i => ev (tm_N0 i) s r * Z i k) * tm_Gamma mu t xl k c) * d c)
     = four (fun i => rsum 4 (fun k => Z i k * mvec 12 (tm_Gamma mu t xl) d k)) s r).
  { intros Z. rewrite <- ev_N0.
    transitivity (rsum 12 (fun c => rsum 4 (fun k => rsum 4 (fun i => ev (tm_N0 i) s r * Z i k) * (tm_Gamma mu t xl k c * d c)))).
    { apply rsum_ext; intros. rewrite <- rsum_scal_r. apply rsum_ext; intros. ring. }
    rewrite rsum_swap.
    transitivity (rsum 4 (fun k => rsum 4 (fun i => ev (tm_N0 i) s r * Z i k) * mvec 12 (tm_Gamma mu t xl) d k)).
    { apply rsum_ext; intros. rewrite rsum_scal. reflexivity. }
    transitivity (rsum 4 (fun k => rsum 4 (fun i => ev (tm_N0 i) s r * (Z i k * mvec 12 (tm_Gamma mu t xl) d k)))).
    { apply rsum_ext; intros. rewrite <- rsum_scal_r. apply rsum_ext; intros. ring. }
    rewrite rsum_swap. apply rsum_ext; intros. now rewrite rsum_scal. }
  split; apply H.
Qed.
Lemma corner_shear xl G : convex4 xl -> shear_of_sides xl G (corner_sx xl G) (corner_sy xl G).
Proof.
  intros (T0 & T1 & T2 & T3).
  assert (N0 : tm_b xl 2 * tm_c xl 3 - tm_b xl 3 * tm_c xl 2 <> 0).
  { replace (_ - _) with (turn xl 3 0 1); [lra|]. unfold turn, tm_b, tm_c, at_x, at_y, cx, cy, vnth. ring. }
  assert (N1 : tm_b xl 3 * tm_c xl 0 - tm_b xl 0 * tm_c xl 3 <> 0).
  { replace (_ - _) with (turn xl 0 1 2); [lra|]. unfold turn, tm_b, tm_c, at_x, at_y, cx, cy, vnth. ring. }
  assert (N2 : tm_b xl 0 * tm_c xl 1 - tm_b xl 1 * tm_c xl 0 <> 0).
  { replace (_ - _) with (turn xl 1 2 3); [lra|]. unfold turn, tm_b, tm_c, at_x, at_y, cx, cy, vnth. ring. }
  assert (N3 : tm_b xl 1 * tm_c xl 2 - tm_b xl 2 * tm_c xl 1 <> 0).
  { replace (_ - _) with (turn xl 2 3 0); [lra|]. unfold turn, tm_b, tm_c, at_x, at_y, cx, cy, vnth. ring. }
  intros k Hk. destruct (side_ends k) as [i j] eqn:Es.
  assert (Ei : i = e0 k) by (unfold e0; now rewrite Es). assert (Ej : j = e1 k) by (unfold e1; now rewrite Es).
  assert (Sx : side_x xl i j = tm_c xl k) by (rewrite tm_c_side by exact Hk; now rewrite Ei, Ej).
  assert (Sy : side_y xl i j = - tm_b xl k) by (rewrite tm_b_side by exact Hk; rewrite Ei, Ej; ring).
  rewrite Sx, Sy. unfold corner_sx, corner_sy, tm_Xs, tm_Ys, of_rows, vnth.
  destruct k as [|[|[|[|]]]]; try lia; injection Es as <- <-; cbn [rsum nth];
    set (b0 := tm_b xl 0) in *; set (b1 := tm_b xl 1) in *; set (b2 := tm_b xl 2) in *; set (b3 := tm_b xl 3) in *;
    set (c0 := tm_c xl 0) in *; set (c1 := tm_c xl 1) in *; set (c2 := tm_c xl 2) in *; set (c3 := tm_c xl 3) in *;
    clearbody b0 b1 b2 b3 c0 c1 c2 c3; clear - N0 N1 N2 N3; split; field; auto.
Qed.
Lemma c88_shear mu t xl d : convex4 xl -> exists gx gy,
  shear_of_sides xl (mvec 12 (tm_Gamma mu t xl) d) gx gy /\
  forall s r, mvec 12 (tm_Bs mu t xl s r) d 0 = four gx s r /\ mvec 12 (tm_Bs mu t xl s r) d 1 = four gy s r.
Proof.
  intros C. exists (corner_sx xl (mvec 12 (tm_Gamma mu t xl) d)), (corner_sy xl (mvec 12 (tm_Gamma mu t xl) d)).
  split; [now apply corner_shear|]. intros s r. apply Bs_four.
Qed.

(** ** Bending strain *)
(** The slope fields as expressions *)
Definition ex_sum (n : nat) (f : nat -> ex) (v : nat -> R) : ex :=
  fold_right (fun i e => Add (Mul (Cst (v i)) (f i)) e) (Cst 0) (seq 0 n).
Definition field_ex (corner middle : nat -> R) : ex := Add (ex_sum 4 tm_N corner) (ex_sum 4 tm_M middle).
Lemma field_eight corner middle s r : ev (field_ex corner middle) s r = eight_node corner middle s r.
Proof. unfold field_ex, ex_sum, eight_node, eight, corner8, one. cbn [seq fold_right ev tm_N tm_M one]. field. Qed.
Lemma dxi_field corner middle s r : ev (dxi (field_ex corner middle)) s r
  = rsum 4 (fun i => ev (dxi (tm_N i)) s r * corner i) + rsum 4 (fun k => ev (dxi (tm_M k)) s r * middle k).
Proof. unfold field_ex, ex_sum. cbn [seq fold_right ev dxi rsum]. ring. Qed.
Lemma deta_field corner middle s r : ev (deta (field_ex corner middle)) s r
  = rsum 4 (fun i => ev (deta (tm_N i)) s r * corner i) + rsum 4 (fun k => ev (deta (tm_M k)) s r * middle k).
Proof. unfold field_ex, ex_sum. cbn [seq fold_right ev deta rsum]. ring. Qed.
Lemma ddx_field xl s r corner middle : tm_ddx xl s r (field_ex corner middle)
  = rsum 4 (fun i => tm_ddx xl s r (tm_N i) * corner i) + rsum 4 (fun k => tm_ddx xl s r (tm_M k) * middle k).
Proof. unfold tm_ddx. rewrite dxi_field, deta_field. cbn [rsum]. unfold Rdiv. ring. Qed.
Lemma ddy_field xl s r corner middle : tm_ddy xl s r (field_ex corner middle)
  = rsum 4 (fun i => tm_ddy xl s r (tm_N i) * corner i) + rsum 4 (fun k => tm_ddy xl s r (tm_M k) * middle k).
Proof. unfold tm_ddy. rewrite dxi_field, deta_field. cbn [rsum]. unfold Rdiv. ring. Qed.

Lemma ddx_zero xl s r : tm_ddx xl s r (Cst 0) = 0.
Proof. unfold tm_ddx. cbn [dxi deta ev]. unfold Rdiv. ring. Qed.
Lemma ddy_zero xl s r : tm_ddy xl s r (Cst 0) = 0.
Proof. unfold tm_ddy. cbn [dxi deta ev]. unfold Rdiv. ring. Qed.

(** [Bb] at corner values is the derivative of the slope fields. *)
Lemma mvec_mmul n m A B (x : nat -> R) r : mvec n (mmul m A B) x r = rsum m (fun k => A r k * mvec n B x k).
Proof.
  unfold mvec, mmul. transitivity (rsum n (fun c => rsum m (fun k => A r k * (B k c * x c)))).
  { apply rsum_ext; intros. rewrite <- rsum_scal_r. apply rsum_ext; intros. ring. }
  rewrite rsum_swap. apply rsum_ext; intros. now rewrite rsum_scal.
Qed.
Section Strain.
Variables (mu t : R) (xl : list R) (d : nat -> R) (s r : R).
Let al := mvec 12 (tm_alpha mu t xl) d.
Let be := mvec 12 (tm_beta mu t xl) d.
Let Fx := field_ex (at_gx d) al.
Let Fy := field_ex (at_gy d) be.
Lemma Bb_split q : mvec 12 (tm_Bb mu t xl s r) d q
  = - (mvec 12 (tm_H0 xl s r) d q + rsum 4 (fun k => tm_H1 xl s r q k * al k) + rsum 4 (fun k => tm_H2 xl s r q k * be k)).
Proof.
  unfold al, be. rewrite <- !mvec_mmul. unfold mvec, tm_Bb. rewrite <- !rsum_plus.
  transitivity (rsum 12 (fun c => -1 * (tm_H0 xl s r q c * d c + mmul 4 (tm_H1 xl s r) (tm_alpha mu t xl) q c * d c + mmul 4 (tm_H2 xl s r) (tm_beta mu t xl) q c * d c))).
  - apply rsum_ext; intros. ring.
  - rewrite rsum_scal. ring.
Qed.
Lemma Bb_0 : mvec 12 (tm_Bb mu t xl s r) d 0 = - tm_ddx xl s r Fx.
Proof.
  rewrite Bb_split. unfold Fx. rewrite ddx_field. unfold mvec, tm_H0, tm_Nrow, at_gx.
  cbn [rsum Nat.eqb Nat.modulo Nat.div Nat.divmod fst snd Nat.sub Nat.mul Nat.add tm_H1 tm_H2]. rewrite !ddx_zero. ring.
Qed.
Lemma Bb_1 : mvec 12 (tm_Bb mu t xl s r) d 1 = - tm_ddy xl s r Fy.
Proof.
  rewrite Bb_split. unfold Fy. rewrite ddy_field. unfold mvec, tm_H0, tm_Nrow, at_gy.
  cbn [rsum Nat.eqb Nat.modulo Nat.div Nat.divmod fst snd Nat.sub Nat.mul Nat.add tm_H1 tm_H2]. rewrite !ddy_zero. ring.
Qed.
Lemma Bb_2 : mvec 12 (tm_Bb mu t xl s r) d 2 = - (tm_ddy xl s r Fx + tm_ddx xl s r Fy).
Proof.
  rewrite Bb_split. unfold Fx, Fy. rewrite ddy_field, ddx_field. unfold mvec, tm_H0, tm_Nrow, at_gx, at_gy.
  cbn [rsum Nat.eqb Nat.modulo Nat.div Nat.divmod fst snd Nat.sub Nat.mul Nat.add tm_H1 tm_H2]. rewrite !ddx_zero, !ddy_zero. ring.
Qed.
End Strain.

(** ** The map to the plane *)
Lemma place_x_ex xl s r : place_x xl s r = ev (ex_sum 4 tm_N0 (at_x xl)) s r.
Proof. unfold place_x, four, ex_sum. cbn [seq fold_right ev tm_N0]. field. Qed.
Lemma place_y_ex xl s r : place_y xl s r = ev (ex_sum 4 tm_N0 (at_y xl)) s r.
Proof. unfold place_y, four, ex_sum. cbn [seq fold_right ev tm_N0]. field. Qed.
Lemma place_derivs xl s r :
  derivable_pt_lim (fun s => place_x xl s r) s (tm_J xl s r 0%nat 0%nat) /\
  derivable_pt_lim (fun s => place_y xl s r) s (tm_J xl s r 0%nat 1%nat) /\
  derivable_pt_lim (fun r => place_x xl s r) r (tm_J xl s r 1%nat 0%nat) /\
  derivable_pt_lim (fun r => place_y xl s r) r (tm_J xl s r 1%nat 1%nat).
Proof.
  repeat split.
  - eapply derive_as; [intros; apply place_x_ex| |apply (dxi_correct _ r s)].
    unfold tm_J, ex_sum, cx, at_x, vnth. cbn [seq fold_right ev dxi rsum]. ring.
  - eapply derive_as; [intros; apply place_y_ex| |apply (dxi_correct _ r s)].
    unfold tm_J, ex_sum, cy, at_y, vnth. cbn [seq fold_right ev dxi rsum]. ring.
  - eapply derive_as; [intros; apply place_x_ex| |apply (deta_correct _ s r)].
    unfold tm_J, ex_sum, cx, at_x, vnth. cbn [seq fold_right ev deta rsum]. ring.
  - eapply derive_as; [intros; apply place_y_ex| |apply (deta_correct _ s r)].
    unfold tm_J, ex_sum, cy, at_y, vnth. cbn [seq fold_right ev deta rsum]. ring.
Qed.
Lemma gradient_field xl s r corner middle : det2 (tm_J xl s r) <> 0 ->
  gradient xl (eight_node corner middle) s r (tm_ddx xl s r (field_ex corner middle)) (tm_ddy xl s r (field_ex corner middle)).
Proof.
  intros D. destruct (place_derivs xl s r) as (A & B & C & E).
  exists (tm_J xl s r 0%nat 0%nat), (tm_J xl s r 0%nat 1%nat), (tm_J xl s r 1%nat 0%nat), (tm_J xl s r 1%nat 1%nat).
  split; [exact A|]. split; [exact B|]. split; [exact C|]. split; [exact E|]. split.
  - eapply derive_as; [intros; symmetry; apply field_eight| |apply (dxi_correct _ r s)].
    unfold tm_ddx, tm_ddy, det2 in *. field. exact D.
  - eapply derive_as; [intros; symmetry; apply field_eight| |apply (deta_correct _ s r)].
    unfold tm_ddx, tm_ddy, det2 in *. field. exact D.
Qed.
Lemma tm_det_corners xl xi eta : det2 (tm_J xl xi eta)
  = ((1 - xi) * (1 - eta) * turn xl 3 0 1 + (1 + xi) * (1 - eta) * turn xl 0 1 2
     + (1 + xi) * (1 + eta) * turn xl 1 2 3 + (1 - xi) * (1 + eta) * turn xl 2 3 0) / 16.
Proof. unfold det2, tm_J, turn, at_x, at_y, cx, cy, vnth. cbn [rsum ev dxi deta tm_N0]. field. Qed.
Lemma tm_det xl xi eta : det2 (tm_J xl xi eta) = det2 (dkq_J xl xi eta).
Proof. now rewrite tm_det_corners, dkq_det_corners. Qed.

Lemma c88_bending mu t xl d s r : det2 (tm_J xl s r) <> 0 ->
  exists ax ay bx by',
  gradient xl (eight_node (at_gx d) (mvec 12 (tm_alpha mu t xl) d)) s r ax ay /\
  gradient xl (eight_node (at_gy d) (mvec 12 (tm_beta mu t xl) d)) s r bx by' /\
  mvec 12 (tm_Bb mu t xl s r) d 0 = - ax /\ mvec 12 (tm_Bb mu t xl s r) d 1 = - by' /\
  mvec 12 (tm_Bb mu t xl s r) d 2 = - (ay + bx).
Proof.
  intros D. do 4 eexists. split; [now apply gradient_field|]. split; [now apply gradient_field|].
  split; [apply Bb_0|]. split; [apply Bb_1|apply Bb_2].
Qed.
Lemma det_ok xl s r : convex4 xl -> -1 <= s <= 1 -> -1 <= r <= 1 -> 0 < det2 (tm_J xl s r).
Proof. intros. rewrite tm_det. now apply dkq_det_pos. Qed.
Lemma c88_bending_convex mu t xl d s r : convex4 xl -> -1 <= s <= 1 -> -1 <= r <= 1 ->
  exists ax ay bx by',
  gradient xl (eight_node (at_gx d) (mvec 12 (tm_alpha mu t xl) d)) s r ax ay /\
  gradient xl (eight_node (at_gy d) (mvec 12 (tm_beta mu t xl) d)) s r bx by' /\
  mvec 12 (tm_Bb mu t xl s r) d 0 = - ax /\ mvec 12 (tm_Bb mu t xl s r) d 1 = - by' /\
  mvec 12 (tm_Bb mu t xl s r) d 2 = - (ay + bx).
Proof. intros C S Rr. apply c88_bending. pose proof (det_ok xl s r C S Rr). lra. Qed.

(** ** Constant curvature *)
Lemma sides_pos xl k : four_sides xl -> (k < 4)%nat -> 0 < side_l xl (e0 k) (e1 k).
Proof.
  intros F Hk. apply sqrt_lt_R0.
  assert (I : In (e0 k, e1 k) [(0, 1); (1, 2); (2, 3); (3, 0)]%nat) by (destruct k as [|[|[|[|]]]]; try lia; cbn; auto).
  apply F in I. unfold side_x, side_y. destruct I as [I|I].
  - pose proof (pow2_ge_0 (at_y xl (e1 k) - at_y xl (e0 k))). assert (0 < (at_x xl (e1 k) - at_x xl (e0 k))^2); [|lra]. apply sq_pos. lra.
  - pose proof (pow2_ge_0 (at_x xl (e1 k) - at_x xl (e0 k))). assert (0 < (at_y xl (e1 k) - at_y xl (e0 k))^2); [|lra]. apply sq_pos. lra.
Qed.
Lemma slope_at xl w i : (i < 4)%nat -> at_w (slope_values xl w) i = defl w (at_x xl i) (at_y xl i)
  /\ at_gx (slope_values xl w) i = slope_x w (at_x xl i) (at_y xl i) /\ at_gy (slope_values xl w) i = slope_y w (at_x xl i) (at_y xl i).
Proof. intros H. destruct i as [|[|[|[|]]]]; try lia; repeat split; reflexivity. Qed.
Lemma ends_lt k : (k < 4)%nat -> (e0 k < 4)%nat /\ (e1 k < 4)%nat.
Proof. intros. destruct k as [|[|[|[|]]]]; try lia; cbn; lia. Qed.
Lemma rise xl w k : (k < 4)%nat -> four_sides xl -> let d := slope_values xl w in let i := e0 k in let j := e1 k in
  2 * (at_w d j - at_w d i) = side_l xl i j * (along xl d i j i + along xl d i j j).
Proof.
  intros Hk F. cbv zeta. pose proof (sides_pos xl k F Hk) as L. destruct (ends_lt k Hk) as [I J].
  unfold along. destruct (slope_at xl w _ I) as (-> & -> & ->). destruct (slope_at xl w _ J) as (-> & -> & ->).
  set (l := side_l xl (e0 k) (e1 k)) in *. unfold side_x, side_y, defl, slope_x, slope_y. field. lra.
Qed.
Lemma no_shear mu t xl w k : (k < 4)%nat -> four_sides xl -> mvec 12 (tm_Gamma mu t xl) (slope_values xl w) k = 0.
Proof. intros Hk F. rewrite gamma_side by (auto using sides_pos). rewrite (rise xl w k Hk F). ring. Qed.
Lemma mid_mean mu t xl w k : (k < 4)%nat -> four_sides xl -> let d := slope_values xl w in
  mvec 12 (tm_alpha mu t xl) d k = (at_gx d (e0 k) + at_gx d (e1 k)) / 2 /\
  mvec 12 (tm_beta mu t xl) d k = (at_gy d (e0 k) + at_gy d (e1 k)) / 2.
Proof.
  intros Hk F. cbv zeta. pose proof (sides_pos xl k F Hk) as L. pose proof (rise xl w k Hk F) as Rz. cbv zeta in Rz.
  rewrite alpha_side, beta_side by assumption.
  set (d := slope_values xl w) in *. set (i := e0 k) in *. set (j := e1 k) in *.
  replace (at_w d j - at_w d i) with (side_l xl i j * (along xl d i j i + along xl d i j j) / 2) by lra.
  assert (Q : side_x xl i j ^ 2 + side_y xl i j ^ 2 = side_l xl i j ^ 2) by apply l_sq.
  unfold along, across. set (l := side_l xl i j) in *. set (a := side_x xl i j) in *. set (b := side_y xl i j) in *.
  clearbody l a b. clear - L Q. split.
  - transitivity ((at_gx d i + at_gx d j) * (a^2 + b^2) / (2 * l^2)); [field; lra|rewrite Q; field; lra].
  - transitivity ((at_gy d i + at_gy d j) * (a^2 + b^2) / (2 * l^2)); [field; lra|rewrite Q; field; lra].
Qed.
Lemma linear_field xl s r (p q o : R) (corner middle : nat -> R) :
  (forall i, (i < 4)%nat -> corner i = o + p * at_x xl i + q * at_y xl i) ->
  (forall k, (k < 4)%nat -> middle k = (corner (e0 k) + corner (e1 k)) / 2) ->
  ev (dxi (field_ex corner middle)) s r = p * tm_J xl s r 0%nat 0%nat + q * tm_J xl s r 0%nat 1%nat /\
  ev (deta (field_ex corner middle)) s r = p * tm_J xl s r 1%nat 0%nat + q * tm_J xl s r 1%nat 1%nat.
Proof.
  intros HC HM. rewrite dxi_field, deta_field. unfold tm_J. cbn [rsum].
  rewrite !HM by lia. cbn [e0 e1 side_ends nth fst snd]. rewrite !HC by lia.
  change (cx xl) with (at_x xl). change (cy xl) with (at_y xl).
  cbn [ev dxi deta tm_N tm_M tm_N0 one]. split; field.
Qed.
Lemma tm_curvature mu t xl w s r q : (q < 3)%nat -> four_sides xl -> det2 (tm_J xl s r) <> 0 ->
  mvec 12 (tm_Bb mu t xl s r) (slope_values xl w) q = nth q (curvature w) 0.
Proof.
  intros Hq F D.
  set (d := slope_values xl w).
  assert (X : forall i, (i < 4)%nat -> at_gx d i = w_x w + w_xx w * at_x xl i + w_xy w * at_y xl i).
  { intros i Hi. destruct (slope_at xl w i Hi) as (_ & E & _). exact E. }
  assert (Y : forall i, (i < 4)%nat -> at_gy d i = w_y w + w_xy w * at_x xl i + w_yy w * at_y xl i).
  { intros i Hi. destruct (slope_at xl w i Hi) as (_ & _ & E). exact E. }
  assert (MX : forall k, (k < 4)%nat -> mvec 12 (tm_alpha mu t xl) d k = (at_gx d (e0 k) + at_gx d (e1 k)) / 2) by (intros; now apply mid_mean).
  assert (MY : forall k, (k < 4)%nat -> mvec 12 (tm_beta mu t xl) d k = (at_gy d (e0 k) + at_gy d (e1 k)) / 2) by (intros; now apply mid_mean).
  destruct (linear_field xl s r _ _ _ _ _ X MX) as [A1 A2]. destruct (linear_field xl s r _ _ _ _ _ Y MY) as [B1 B2].
  destruct q as [|[|[|]]]; [rewrite Bb_0|rewrite Bb_1|rewrite Bb_2|lia]; unfold tm_ddx, tm_ddy; rewrite ?A1, ?A2, ?B1, ?B2;
    unfold curvature, det2 in *; cbn [nth]; field; exact D.
Qed.

(** ** Work *)
Lemma tm_bend_work E mu t xl xi eta x y : work 12 (tm_BDBb E mu t xi eta xl) x y
  = det2 (tm_J xl xi eta) * density (plateD E mu t) (mvec 12 (tm_Bb mu t xl xi eta) x) (mvec 12 (tm_Bb mu t xl xi eta) y).
Proof.
  unfold density. rewrite <- BDB_form. rewrite <- form_scale. unfold work, tm_BDBb.
  apply rsum_ext; intros. apply rsum_ext; intros. ring.
Qed.
Lemma tm_shear_work E mu t xl xi eta x y : work 12 (tm_BCBs E mu t xi eta xl) x y
  = det2 (tm_J xl xi eta) * tm_C E mu t * (mvec 12 (tm_Bs mu t xl xi eta) x 0 * mvec 12 (tm_Bs mu t xl xi eta) y 0
     + mvec 12 (tm_Bs mu t xl xi eta) x 1 * mvec 12 (tm_Bs mu t xl xi eta) y 1).
Proof.
  unfold work, tm_BCBs. set (B := tm_Bs mu t xl xi eta). unfold mvec.
  assert (P : forall a b : nat -> R, rsum 12 (fun i => a i * x i) * rsum 12 (fun j => b j * y j) = rsum 12 (fun i => rsum 12 (fun j => a i * x i * (b j * y j)))).
  { intros a b. rewrite <- rsum_scal_r. apply rsum_ext; intros. now rewrite <- rsum_scal. }
  rewrite !P, <- rsum_plus, <- rsum_scal. apply rsum_ext; intros. rewrite <- rsum_plus, <- rsum_scal. apply rsum_ext; intros.
  cbn [rsum]. ring.
Qed.
Lemma work_add n (A B : mat) x y : work n (fun i j => A i j + B i j) x y = work n A x y + work n B x y.
Proof. unfold work. rewrite <- rsum_plus. apply rsum_ext; intros. rewrite <- rsum_plus. apply rsum_ext; intros. ring. Qed.
Lemma tmq_work c2 E mu t xl x y : work 12 (tmq_K c2 E mu t xl) x y
  = lsum (map (fun p => snd p * work 12 (tm_BCBs E mu t (pt_xi p) (pt_eta p) xl) x y) c2)
    + lsum (map (fun p => snd p * work 12 (tm_BDBb E mu t (pt_xi p) (pt_eta p) xl) x y) c2).
Proof. unfold tmq_K. rewrite work_add, !integrate_work. reflexivity. Qed.
Lemma four_zero v s r : (forall i, (i < 4)%nat -> v i = 0) -> four v s r = 0.
Proof. intros H. unfold four. rewrite !H by lia. ring. Qed.
Lemma Bs_zero mu t xl w xi eta : four_sides xl ->
  mvec 12 (tm_Bs mu t xl xi eta) (slope_values xl w) 0 = 0 /\ mvec 12 (tm_Bs mu t xl xi eta) (slope_values xl w) 1 = 0.
Proof.
  intros F. destruct (Bs_four mu t xl (slope_values xl w) xi eta) as [-> ->].
  split; apply four_zero; intros; unfold corner_sx, corner_sy; apply rsum_0; intros; rewrite no_shear by assumption; ring.
Qed.
Lemma c88_constant_curvature c2 E mu t xl w w' : inside_square c2 -> exact_square c2 -> convex4 xl ->
  work 12 (tmq_K c2 E mu t xl) (slope_values xl w') (slope_values xl w)
  = area4 xl * plane_stress (E * t^3 / 12) mu (curvature w') (curvature w).
Proof.
  intros Q X C. pose proof (convex_four xl C) as F. rewrite tmq_work.
  rewrite (lsum_zero (fun p => snd p * work 12 (tm_BCBs _ _ _ _ _ _) _ _)), Rplus_0_l.
  2:{ intros p _. rewrite tm_shear_work. destruct (Bs_zero mu t xl w (pt_xi p) (pt_eta p) F) as [-> ->]. ring. }
  rewrite <- (dkq_area c2 xl X), (Rmult_comm (lsum _)), <- lsum_scal. apply lsum_ext. intros p Hp.
  unfold inside_square in Q. rewrite Forall_forall in Q. destruct (Q p Hp) as (PX & PY & W).
  pose proof (det_ok xl _ _ C PX PY) as HD. change (fst (fst p)) with (pt_xi p) in HD. change (snd (fst p)) with (pt_eta p) in HD.
  rewrite tm_bend_work, (density_ext _ _ _ (fun r => nth r (curvature w') 0) (fun r => nth r (curvature w) 0)).
  - unfold plateD. rewrite density_plane. rewrite !(nth_list3 (curvature _)) by reflexivity. rewrite tm_det. ring.
  - intros r Hr. apply tm_curvature; auto. lra.
  - intros r Hr. apply tm_curvature; auto. lra.
Qed.
Lemma c88_rigid c2 E mu t xl w : inside_square c2 -> convex4 xl -> plane_w w ->
  forall r, (r < 12)%nat -> force 12 (tmq_K c2 E mu t xl) (slope_values xl w) r = 0.
Proof.
  intros Q C (W1 & W2 & W3) r Hr. pose proof (convex_four xl C) as F. rewrite unit_work by assumption. rewrite tmq_work.
  rewrite !lsum_zero; [ring| |].
  - intros p Hp. unfold inside_square in Q. rewrite Forall_forall in Q. destruct (Q p Hp) as (PX & PY & W).
    pose proof (det_ok xl _ _ C PX PY) as HD. change (fst (fst p)) with (pt_xi p) in HD. change (snd (fst p)) with (pt_eta p) in HD.
    rewrite tm_bend_work, density_zero_r; [ring|]. intros s Hs. rewrite tm_curvature by (auto; lra).
    destruct s as [|[|[|s]]]; [| | |lia]; cbn; rewrite ?W1, ?W2, ?W3; ring.
  - intros p _. rewrite tm_shear_work. destruct (Bs_zero mu t xl w (pt_xi p) (pt_eta p) F) as [-> ->]. ring.
Qed.
Lemma c88_nonneg c2 E mu t xl : inside_square c2 -> convex4 xl -> 0 <= E -> -1 < mu < 1 -> 0 <= t ->
  forall x, 0 <= work 12 (tmq_K c2 E mu t xl) x x.
Proof.
  intros Q C HE Hm Ht x. rewrite tmq_work. apply Rplus_le_le_0_compat; apply lsum_pos; intros p Hp;
    unfold inside_square in Q; rewrite Forall_forall in Q; destruct (Q p Hp) as (PX & PY & W); apply Rmult_le_pos; try exact W;
    pose proof (det_ok xl _ _ C PX PY) as HD; change (fst (fst p)) with (pt_xi p) in HD; change (snd (fst p)) with (pt_eta p) in HD.
  - rewrite tm_shear_work. apply Rmult_le_pos; [apply Rmult_le_pos; [lra|]|].
    + replace (tm_C E mu t) with (E * t * (5/12) * / (1 + mu)) by (unfold tm_C; field; lra).
      assert (0 < / (1 + mu)) by (apply Rinv_0_lt_compat; lra). assert (0 <= E * t) by now apply Rmult_le_pos.
      apply Rmult_le_pos; lra.
    + set (a := mvec _ _ _ 0). set (b := mvec _ _ _ 1). nra.
  - rewrite tm_bend_work. apply Rmult_le_pos; [lra|]. apply density_psd; [now apply cube_nonneg|assumption].
Qed.
Lemma c88_symmetric c2 E mu t xl i j : (i < 12)%nat -> (j < 12)%nat -> tmq_K c2 E mu t xl i j = tmq_K c2 E mu t xl j i.
Proof.
  intros Hi Hj. unfold tmq_K. f_equal.
  - apply (integrate_sym 12); auto. intros xi eta a b _ _. unfold tm_BCBs. cbn [rsum]. ring.
  - apply (integrate_sym 12); auto. intros xi eta a b Ha Hb. unfold tm_BDBb. f_equal. now apply (BDB_sym 12 _ _ (plateD_sym E mu t)).
Qed.
