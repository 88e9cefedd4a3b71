(** Facts about the beam element. *)
From Coq Require Import Reals Lra Lia List String Arith Bool.
From Verif Require Import Base Csys Sections Element BaseFacts CsysFacts SpecGeom SpecBeam.
Import ListNotations.
Local Open Scope R_scope.

Definition vec (d : ends) : nat -> R := fun i => nth i (vec12 d) 0.

Definition beam_stiff (E G A I2 I3 J : R) : stiff := Stiff (E*A) (G*J) (E*I2) (E*I3).

Lemma simple_is_beam E G A I2 I3 J l : simple_K_mat E G A I2 I3 J l = beam_K_mat E G A I2 I3 J l.
Proof. reflexivity. Qed.

Lemma form12_bil K x y :
  coo_inrange 12 12 K = true ->
  form12 (coo_get K) x y = lsum (map (fun t => match t with (r, c, v) => vec x r * v * vec y c end) K).
Proof.
  intros H. rewrite <- (coo_bilinear 12 12) by exact H.
  unfold form12. apply rsum_ext. intros. rewrite <- rsum_scal. apply rsum_ext. intros. unfold vec. ring.
Qed.

Lemma beam_form E G A I2 I3 J l d e : l <> 0 ->
  form12 (beam_K_mat E G A I2 I3 J l) d e = member_work (beam_stiff E G A I2 I3 J) l d e.
Proof.
  intros Hl. unfold beam_K_mat. rewrite form12_bil by reflexivity.
  destruct d as [[a1 a2 a3] [a4 a5 a6] [a7 a8 a9] [a10 a11 a12]].
  destruct e as [[b1 b2 b3] [b4 b5 b6] [b7 b8 b9] [b10 b11 b12]].
  unfold member_work, bend, beam_stiff, vec. cbn. field. exact Hl.
Qed.

(** ** Polynomials *)
Lemma peval_derivable p x : derivable_pt_lim (peval p) x (peval (pder p) x).
Proof.
  destruct p as [a b c d].
  assert (H : derivable_pt_lim (fct_cte a + (mult_real_fct b (fun x => x) + (mult_real_fct c (fun x => x^2) + mult_real_fct d (fun x => x^3)))) x
                (0 + (b * 1 + (c * (INR 2 * x ^ Init.Nat.pred 2) + d * (INR 3 * x ^ Init.Nat.pred 3))))).
  { apply derivable_pt_lim_plus; [apply derivable_pt_lim_const|].
    apply derivable_pt_lim_plus; [apply derivable_pt_lim_scal, derivable_pt_lim_id|].
    apply derivable_pt_lim_plus; apply derivable_pt_lim_scal, derivable_pt_lim_pow. }
  replace (peval (pder (Poly a b c d)) x) with (0 + (b * 1 + (c * (INR 2 * x ^ Init.Nat.pred 2) + d * (INR 3 * x ^ Init.Nat.pred 3)))).
  - intros eps He. destruct (H eps He) as [delta Hd]. exists delta. intros h h1 h2.
    specialize (Hd h h1 h2). unfold plus_fct, mult_real_fct, fct_cte in Hd. unfold peval; simpl in *.
    replace ((a + b * (x + h) + c * ((x + h) * ((x + h) * 1)) + d * ((x + h) * ((x + h) * ((x + h) * 1)))) -
      (a + b * x + c * (x * (x * 1)) + d * (x * (x * (x * 1)))))
    with (a + (b * (x + h) + (c * ((x + h) * ((x + h) * 1)) + d * ((x + h) * ((x + h) * ((x + h) * 1))))) -
        (a + (b * x + (c * (x * (x * 1)) + d * (x * (x * (x * 1))))))) by ring.
    exact Hd.
  - unfold peval, pder; simpl; ring.
Qed.

Lemma coo_mvec12 K y i : coo_inrange 12 12 K = true ->
  rsum 12 (fun j => coo_get K i j * y j)
  = lsum (map (fun t => match t with (r, c, v) => if Nat.eqb r i then v * y c else 0 end) K).
Proof. intros H. apply coo_mvec with (nr := 12%nat). exact H. Qed.

Lemma beam_field_forces E G A I2 I3 J l f i : l <> 0 -> beam_field f -> (i < 12)%nat ->
  rsum 12 (fun j => beam_K_mat E G A I2 I3 J l i j * vec (ends_of_field f l) j)
  = vec (end_forces (beam_stiff E G A I2 I3 J) f l) i.
Proof.
  intros Hl ((U2 & U3) & (T2 & T3)) Hi. unfold beam_K_mat. rewrite coo_mvec12 by reflexivity.
  destruct f as [[u0 u1 u2 u3] [v0 v1 v2 v3] [w0 w1 w2 w3] [t0 t1 t2 t3]]. simpl in U2, U3, T2, T3. subst u2 u3 t2 t3.
  do 12 (destruct i as [|i]; [unfold vec, beam_stiff; cbn; unfold peval, pder; cbn; field; exact Hl|]). lia.
Qed.

Lemma field_exists l d : l <> 0 -> exists f, beam_field f /\ ends_of_field f l = d.
Proof.
  intros Hl. destruct d as [[a1 a2 a3] [a4 a5 a6] [a7 a8 a9] [a10 a11 a12]].
  pose (cub := fun v1 s1 v2 s2 => Poly v1 s1 ((3*(v2-v1)/l - 2*s1 - s2)/l) ((2*(v1-v2)/l + s1 + s2)/l/l)).
  exists (Field (Poly a1 ((a7-a1)/l) 0 0) (cub a2 a6 a8 a12) (cub a3 (-a5) a9 (-a11)) (Poly a4 ((a10-a4)/l) 0 0)).
  split; [repeat split|].
  unfold ends_of_field, disp_x, rot_x, cub, peval, pder; simpl.
  f_equal; f_equal; field; exact Hl.
Qed.

(** ** Energy *)
Lemma bend_sym EI l v1 t1 v2 t2 v1' t1' v2' t2' :
  bend EI l v1 t1 v2 t2 v1' t1' v2' t2' = bend EI l v1' t1' v2' t2' v1 t1 v2 t2.
Proof. unfold bend; ring. Qed.

Lemma member_work_sym s l d e : member_work s l d e = member_work s l e d.
Proof. unfold member_work. rewrite (bend_sym (EI3 s)), (bend_sym (EI2 s)). ring. Qed.

Lemma bend_nonneg EI l v1 t1 v2 t2 : 0 <= EI -> 0 < l -> 0 <= bend EI l v1 t1 v2 t2 v1 t1 v2 t2.
Proof.
  intros HE Hl. unfold bend. apply Rmult_le_pos.
  - apply Rmult_le_pos; [exact HE|]. left. apply Rinv_0_lt_compat, Hl.
  - generalize (t1 + t2 + 2 * (v1 - v2) / l). intros X.
    pose proof (Rle_0_sqr (t1 - t2)) as Q1. pose proof (Rle_0_sqr X) as Q2. unfold Rsqr in *. lra.
Qed.

Lemma bend_zero EI l v1 t1 v2 t2 : 0 < EI -> 0 < l ->
  bend EI l v1 t1 v2 t2 v1 t1 v2 t2 = 0 -> t1 = t2 /\ v2 = v1 + t1 * l.
Proof.
  intros HE Hl H. unfold bend in H.
  assert (P : 0 < EI / l) by (apply Rdiv_lt_0_compat; assumption).
  set (X := t1 + t2 + 2 * (v1 - v2) / l) in *.
  assert (Z : (t1 - t2) * (t1 - t2) + 3 * X * X = 0) by nra.
  assert (t1 - t2 = 0) by nra. assert (X = 0) by nra.
  split; [lra|]. unfold X in *.
  assert (E : (t1 + t2) * l + 2 * (v1 - v2) = 0).
  { transitivity (X * l); [unfold X; field; lra|]. unfold X. rewrite H1. ring. }
  nra.
Qed.


Lemma stretch_nonneg k l a : 0 <= k -> 0 < l -> 0 <= k / l * a * a.
Proof.
  intros. assert (0 <= k / l) by (apply Rmult_le_pos; [assumption|left; apply Rinv_0_lt_compat; assumption]). nra.
Qed.

Lemma member_nonneg s l d : stiff_nonneg s -> 0 < l -> 0 <= member_work s l d d.
Proof.
  intros (H1 & H2 & H3 & H4) Hl. unfold member_work.
  pose proof (stretch_nonneg (EA s) l (vx (d_i d) - vx (d_j d)) H1 Hl).
  pose proof (stretch_nonneg (GJ s) l (vx (r_i d) - vx (r_j d)) H2 Hl).
  pose proof (bend_nonneg (EI3 s) l (vy (d_i d)) (vz (r_i d)) (vy (d_j d)) (vz (r_j d)) H4 Hl).
  pose proof (bend_nonneg (EI2 s) l (vz (d_i d)) (- vy (r_i d)) (vz (d_j d)) (- vy (r_j d)) H3 Hl).
  lra.
Qed.

Lemma member_rigid s l t w e : l <> 0 -> member_work s l (rigid_ends t w l) e = 0.
Proof.
  intros Hl. unfold member_work, bend, rigid_ends, moved; simpl. field. exact Hl.
Qed.

Lemma kaa_zero k a : 0 < k -> k * a * a = 0 -> a = 0.
Proof.
  intros H E. apply Rmult_integral in E as [E|E]; [|exact E].
  apply Rmult_integral in E as [E|E]; [lra|exact E].
Qed.

Lemma member_zero s l d : stiff_pos s -> 0 < l ->
  (member_work s l d d = 0 <-> exists t w, d = rigid_ends t w l).
Proof.
  intros (H1 & H2 & H3 & H4) Hl. split.
  - intros Z. unfold member_work in Z.
    pose proof (stretch_nonneg (EA s) l (vx (d_i d) - vx (d_j d)) (Rlt_le _ _ H1) Hl) as N1.
    pose proof (stretch_nonneg (GJ s) l (vx (r_i d) - vx (r_j d)) (Rlt_le _ _ H2) Hl) as N2.
    pose proof (bend_nonneg (EI3 s) l (vy (d_i d)) (vz (r_i d)) (vy (d_j d)) (vz (r_j d)) (Rlt_le _ _ H4) Hl) as N3.
    pose proof (bend_nonneg (EI2 s) l (vz (d_i d)) (- vy (r_i d)) (vz (d_j d)) (- vy (r_j d)) (Rlt_le _ _ H3) Hl) as N4.
    assert (Z3 : bend (EI3 s) l (vy (d_i d)) (vz (r_i d)) (vy (d_j d)) (vz (r_j d)) (vy (d_i d)) (vz (r_i d)) (vy (d_j d)) (vz (r_j d)) = 0) by lra.
    assert (Z4 : bend (EI2 s) l (vz (d_i d)) (- vy (r_i d)) (vz (d_j d)) (- vy (r_j d)) (vz (d_i d)) (- vy (r_i d)) (vz (d_j d)) (- vy (r_j d)) = 0) by lra.
    assert (Z1 : EA s / l * (vx (d_i d) - vx (d_j d)) * (vx (d_i d) - vx (d_j d)) = 0) by lra.
    assert (Z2 : GJ s / l * (vx (r_i d) - vx (r_j d)) * (vx (r_i d) - vx (r_j d)) = 0) by lra.
    apply bend_zero in Z3 as (B1 & B2); try assumption. apply bend_zero in Z4 as (B3 & B4); try assumption.
    assert (P1 : 0 < EA s / l) by (apply Rdiv_lt_0_compat; assumption).
    assert (P2 : 0 < GJ s / l) by (apply Rdiv_lt_0_compat; assumption).
    apply kaa_zero in Z1; [|exact P1]. apply kaa_zero in Z2; [|exact P2].
    exists (d_i d), (r_i d).
    destruct d as [[a1 a2 a3] [a4 a5 a6] [a7 a8 a9] [a10 a11 a12]]; simpl in *.
    unfold rigid_ends, moved. f_equal; apply vec3_eq; simpl; lra.
  - intros (t & w & ->). apply member_rigid. lra.
Qed.

(** ** Virtual work of member loads *)
Lemma work12_unfold f d : work12 f d =
  f 0%nat * vx (d_i d) + f 1%nat * vy (d_i d) + f 2%nat * vz (d_i d)
  + f 3%nat * vx (r_i d) + f 4%nat * vy (r_i d) + f 5%nat * vz (r_i d)
  + f 6%nat * vx (d_j d) + f 7%nat * vy (d_j d) + f 8%nat * vz (d_j d)
  + f 9%nat * vx (r_j d) + f 10%nat * vy (r_j d) + f 11%nat * vz (r_j d).
Proof. unfold work12. cbn. ring. Qed.
