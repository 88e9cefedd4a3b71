(** Facts about coordinate systems. *)
From Coq Require Import Reals Lra Lia List Psatz.
From Verif Require Import Base Csys BaseFacts SpecGeom Sections Element.
Local Open Scope R_scope.

Lemma Rdiv_0_l k : 0 / k = 0.
Proof. unfold Rdiv; ring. Qed.

Lemma vec3_eq a b : vx a = vx b -> vy a = vy b -> vz a = vz b -> a = b.
Proof. destruct a, b; simpl; intros; subst; reflexivity. Qed.

Lemma max_abs_le a k : 0 <= k -> Rabs (vx a) <= k -> Rabs (vy a) <= k -> Rabs (vz a) <= k -> max_abs a <= k.
Proof. intros. unfold max_abs. repeat apply Rmax_lub; assumption. Qed.

Lemma max_abs_x a : Rabs (vx a) <= max_abs a.
Proof. unfold max_abs. apply Rmax_l. Qed.
Lemma max_abs_y a : Rabs (vy a) <= max_abs a.
Proof. unfold max_abs. eapply Rle_trans; [apply Rmax_l|apply Rmax_r]. Qed.
Lemma max_abs_z a : Rabs (vz a) <= max_abs a.
Proof. unfold max_abs. eapply Rle_trans; [apply (Rmax_r (Rabs (vy a)))|apply Rmax_r]. Qed.

Lemma abs_tol_pos : 0 < abs_tol.
Proof. unfold abs_tol. lra. Qed.

Lemma dot3_nonneg a : 0 <= dot3 a a.
Proof. unfold dot3. nra. Qed.

Lemma dot3_zero a : dot3 a a = 0 -> a = V3 0 0 0.
Proof.
  unfold dot3. intros H. apply vec3_eq; simpl; nra.
Qed.

Lemma norm_sq a : norm a * norm a = dot3 a a.
Proof. unfold norm. apply sqrt_sqrt, dot3_nonneg. Qed.

Lemma norm_nonneg a : 0 <= norm a.
Proof. apply sqrt_pos. Qed.

Lemma norm_pos a : a <> V3 0 0 0 -> 0 < norm a.
Proof.
  intros H. unfold norm. apply sqrt_lt_R0. destruct (dot3_nonneg a) as [L|L]; [exact L|].
  exfalso. apply H, dot3_zero. symmetry; exact L.
Qed.

Lemma norm_zero_iff a : norm a = 0 <-> a = V3 0 0 0.
Proof.
  split; intros H.
  - apply dot3_zero. rewrite <- norm_sq, H. ring.
  - subst. unfold norm, dot3; simpl. replace (0*0+0*0+0*0) with 0 by ring. apply sqrt_0.
Qed.

Lemma max_abs_pos_nonzero a : 0 < max_abs a -> a <> V3 0 0 0.
Proof.
  intros H E. subst. unfold max_abs in H; simpl in H. rewrite Rabs_R0 in H.
  rewrite !(Rmax_left 0 0) in H by lra. lra.
Qed.

Lemma max_abs_norm a : max_abs a <= norm a.
Proof.
  assert (forall x, x * x <= dot3 a a -> Rabs x <= norm a).
  { intros x Hx. unfold norm. rewrite <- sqrt_Rsqr_abs. apply sqrt_le_1_alt. exact Hx. }
  apply max_abs_le; [apply norm_nonneg| | |]; apply H; unfold dot3; nra.
Qed.

Lemma norm_max_abs a : norm a * norm a <= 3 * (max_abs a * max_abs a).
Proof.
  rewrite norm_sq. unfold dot3.
  pose proof (max_abs_x a); pose proof (max_abs_y a); pose proof (max_abs_z a).
  assert (forall x m, Rabs x <= m -> x * x <= m * m).
  { intros x m Hm. pose proof (Rabs_pos x). replace (x*x) with (Rabs x * Rabs x).
    - nra.
    - rewrite <- Rabs_mult. apply Rabs_right. nra. }
  pose proof (H2 _ _ H); pose proof (H2 _ _ H0); pose proof (H2 _ _ H1). lra.
Qed.

Lemma dot_cross_l a b : dot3 a (cross a b) = 0.
Proof. unfold dot3, cross; simpl; ring. Qed.
Lemma dot_cross_r a b : dot3 b (cross a b) = 0.
Proof. unfold dot3, cross; simpl; ring. Qed.
Lemma dot3_comm a b : dot3 a b = dot3 b a.
Proof. unfold dot3; ring. Qed.
Lemma lagrange a b : dot3 (cross a b) (cross a b) = dot3 a a * dot3 b b - dot3 a b * dot3 a b.
Proof. unfold dot3, cross; simpl; ring. Qed.

Lemma vdiv_scale a k : k <> 0 -> a = vscale k (vdiv a k).
Proof. intros. apply vec3_eq; simpl; field; assumption. Qed.

Lemma dot_vdiv_l a b k : dot3 (vdiv a k) b = dot3 a b / k.
Proof. unfold dot3, vdiv; simpl; unfold Rdiv; ring. Qed.
Lemma dot_vdiv_r a b k : dot3 a (vdiv b k) = dot3 a b / k.
Proof. unfold dot3, vdiv; simpl; unfold Rdiv; ring. Qed.

Lemma unit_vdiv a : 0 < norm a -> dot3 (vdiv a (norm a)) (vdiv a (norm a)) = 1.
Proof.
  intros H. rewrite dot_vdiv_l, dot_vdiv_r, <- norm_sq. field. lra.
Qed.

(** z, x perpendicular unit vectors give a frame (x, z x x, z). *)
Lemma frame_of x z : dot3 x x = 1 -> dot3 z z = 1 -> dot3 z x = 0 -> frame x (cross z x) z.
Proof.
  intros Hx Hz Hzx.
  assert (Hy : dot3 (cross z x) (cross z x) = 1) by (rewrite lagrange, Hx, Hz, Hzx; ring).
  assert (C1 : cross x (cross z x) = z).
  { assert (G : cross x (cross z x) = vsub (vscale (dot3 x x) z) (vscale (dot3 z x) x)).
    { apply vec3_eq; simpl; unfold dot3; ring. }
    rewrite G, Hx, Hzx. apply vec3_eq; simpl; ring. }
  assert (C2 : cross (cross z x) z = x).
  { assert (G : cross (cross z x) z = vsub (vscale (dot3 z z) x) (vscale (dot3 z x) z)).
    { apply vec3_eq; simpl; unfold dot3; ring. }
    rewrite G, Hz, Hzx. apply vec3_eq; simpl; ring. }
  split.
  - unfold orthonormal. repeat split; auto.
    + apply dot_cross_r.
    + rewrite dot3_comm. apply dot_cross_l.
  - unfold right_handed. repeat split; auto.
Qed.

Lemma cross_l_zero_l b : cross (V3 0 0 0) b = V3 0 0 0.
Proof. apply vec3_eq; simpl; ring. Qed.

Lemma cartesian_some O A B c :
  cartesian O A B = Some c ->
  frame (cs_x c) (cs_y c) (cs_z c) /\ cs_O c = O
  /\ (exists k, 0 < k /\ vsub A O = vscale k (cs_x c))
  /\ dot3 (vsub B O) (cs_z c) = 0 /\ 0 < dot3 (vsub B O) (cs_y c).
Proof.
  unfold cartesian. destruct (Rltb _ _) eqn:L; [discriminate|]. apply Rltb_false in L.
  set (OA := vsub A O) in *. set (OB := vsub B O) in *. set (z0 := cross OA OB) in *.
  intros E. inversion E; subst c; clear E. simpl.
  pose proof abs_tol_pos as TP.
  assert (Hz0 : z0 <> V3 0 0 0) by (apply max_abs_pos_nonzero; lra).
  assert (HOA : OA <> V3 0 0 0).
  { intros E. apply Hz0. unfold z0. rewrite E. apply cross_l_zero_l. }
  pose proof (norm_pos _ Hz0) as Pz. pose proof (norm_pos _ HOA) as Px.
  assert (Hzx : dot3 (vdiv z0 (norm z0)) (vdiv OA (norm OA)) = 0).
  { rewrite dot_vdiv_l, dot_vdiv_r, dot3_comm. unfold z0. rewrite dot_cross_l. unfold Rdiv; ring. }
  split; [apply frame_of; auto using unit_vdiv|].
  split; [reflexivity|].
  split; [exists (norm OA); split; [exact Px|apply vdiv_scale; lra]|].
  split.
  - rewrite dot_vdiv_r. unfold z0. rewrite dot_cross_r. unfold Rdiv; ring.
  - assert (G : dot3 OB (cross (vdiv z0 (norm z0)) (vdiv OA (norm OA))) =
                dot3 z0 z0 / norm z0 / norm OA).
    { unfold z0 at 3 4. unfold dot3, cross, vdiv; simpl. fold z0. unfold z0; simpl. unfold Rdiv; ring. }
    rewrite G, <- norm_sq. apply Rdiv_lt_0_compat; [|exact Px].
    apply Rdiv_lt_0_compat; [nra|exact Pz].
Qed.

Lemma cartesian_none O A B :
  cartesian O A B = None <-> max_abs (cross (vsub A O) (vsub B O)) < abs_tol.
Proof.
  unfold cartesian. destruct (Rltb _ _) eqn:L.
  - apply Rltb_true in L. split; auto.
  - apply Rltb_false in L. split; [discriminate|lra].
Qed.

Lemma on_line_cross O A B : on_a_line O A B -> cross (vsub A O) (vsub B O) = V3 0 0 0.
Proof.
  intros (d & s & t & E1 & E2). rewrite E1, E2. apply vec3_eq; simpl; ring.
Qed.

Lemma max_abs_zero : max_abs (V3 0 0 0) = 0.
Proof. unfold max_abs; simpl. rewrite Rabs_R0. rewrite !(Rmax_left 0 0) by lra. reflexivity. Qed.

Lemma c33_accepted O A B c :
  cartesian O A B = Some c ->
  frame (cs_x c) (cs_y c) (cs_z c) /\ cs_O c = O
  /\ (exists k, 0 < k /\ vsub A O = vscale k (cs_x c))
  /\ dot3 (vsub B O) (cs_z c) = 0 /\ 0 < dot3 (vsub B O) (cs_y c).
Proof. apply cartesian_some. Qed.

Lemma c33_rejected O A B :
  (on_a_line O A B -> cartesian O A B = None)
  /\ (cartesian O A B = None -> norm (cross (vsub A O) (vsub B O)) < 2 / 1000000000)
  /\ (norm (cross (vsub A O) (vsub B O)) < 1 / 1000000000 -> cartesian O A B = None).
Proof.
  repeat split.
  - intros H. apply cartesian_none. rewrite (on_line_cross _ _ _ H), max_abs_zero. apply abs_tol_pos.
  - intros H. apply cartesian_none in H.
    pose proof (norm_max_abs (cross (vsub A O) (vsub B O))) as N.
    pose proof (norm_nonneg (cross (vsub A O) (vsub B O))).
    assert (0 <= max_abs (cross (vsub A O) (vsub B O))).
    { eapply Rle_trans; [apply Rabs_pos|apply max_abs_x]. }
    unfold abs_tol in *. nra.
  - intros H. apply cartesian_none. eapply Rle_lt_trans; [apply max_abs_norm|exact H].
Qed.

(** ** Rotations *)
Definition unitq (qx qy qz qw : R) : Prop := qx*qx + qy*qy + qz*qz + qw*qw = 1.

Lemma quat_dot qx qy qz qw u v : unitq qx qy qz qw ->
  dot3 (quat_apply qx qy qz qw u) (quat_apply qx qy qz qw v) = dot3 u v.
Proof.
  unfold unitq. intros H.
  assert (G : dot3 (quat_apply qx qy qz qw u) (quat_apply qx qy qz qw v)
              = (qx*qx + qy*qy + qz*qz + qw*qw) * (qx*qx + qy*qy + qz*qz + qw*qw) * dot3 u v).
  { unfold dot3, quat_apply; simpl; ring. }
  rewrite G, H; ring.
Qed.

Lemma quat_cross qx qy qz qw u v : unitq qx qy qz qw ->
  cross (quat_apply qx qy qz qw u) (quat_apply qx qy qz qw v) = quat_apply qx qy qz qw (cross u v).
Proof.
  unfold unitq. intros H.
  assert (G : cross (quat_apply qx qy qz qw u) (quat_apply qx qy qz qw v)
              = vscale (qx*qx + qy*qy + qz*qz + qw*qw) (quat_apply qx qy qz qw (cross u v))).
  { apply vec3_eq; unfold cross, quat_apply; simpl; ring. }
  rewrite G, H. apply vec3_eq; simpl; ring.
Qed.

Lemma quat_frame qx qy qz qw x y z : unitq qx qy qz qw -> frame x y z ->
  frame (quat_apply qx qy qz qw x) (quat_apply qx qy qz qw y) (quat_apply qx qy qz qw z).
Proof.
  intros U ((A1&A2&A3&A4&A5&A6)&B1&B2&B3). split.
  - unfold orthonormal. rewrite !quat_dot by exact U. auto 10.
  - unfold right_handed. rewrite !quat_cross by exact U. rewrite B1, B2, B3. auto.
Qed.

Lemma rot_unit qx qy qz qw c : unitq qx qy qz qw ->
  rot_csys qx qy qz qw c =
  Some (CS (cs_O c) (quat_apply qx qy qz qw (cs_x c)) (quat_apply qx qy qz qw (cs_y c)) (quat_apply qx qy qz qw (cs_z c))).
Proof.
  unfold unitq; intros U. unfold rot_csys, rot_apply. rewrite U, sqrt_1.
  destruct (Reqb 1 0) eqn:E; [apply Reqb_true in E; lra|].
  unfold Rdiv. rewrite !Rinv_1, !Rmult_1_r. reflexivity.
Qed.

Lemma half_sc th : sin (th/2) * sin (th/2) + cos (th/2) * cos (th/2) = 1.
Proof. pose proof (sin2_cos2 (th/2)) as H. unfold Rsqr in H. exact H. Qed.

Lemma axis_unitq a th : dot3 a a = 1 ->
  unitq (vx a * sin (th/2)) (vy a * sin (th/2)) (vz a * sin (th/2)) (cos (th/2)).
Proof.
  unfold unitq, dot3. intros H. pose proof (half_sc th) as S.
  replace (_ + _ + _ + _) with
    ((vx a * vx a + vy a * vy a + vz a * vz a) * (sin (th/2) * sin (th/2)) + cos (th/2) * cos (th/2)) by ring.
  rewrite H. lra.
Qed.

Lemma axis_turned a th v : dot3 a a = 1 ->
  quat_apply (vx a * sin (th/2)) (vy a * sin (th/2)) (vz a * sin (th/2)) (cos (th/2)) v = turned a th v.
Proof.
  intros H. pose proof (half_sc th) as S.
  assert (C : cos th = cos (th/2) * cos (th/2) - sin (th/2) * sin (th/2)).
  { rewrite <- cos_plus. f_equal. field. }
  assert (Sn : sin th = 2 * (sin (th/2) * cos (th/2))).
  { replace th with (2 * (th/2)) at 1 by field. rewrite sin_2a. ring. }
  unfold turned. rewrite C, Sn.
  set (s := sin (th/2)) in *. set (k := cos (th/2)) in *.
  unfold dot3 in H. destruct a as [a1 a2 a3], v as [v1 v2 v3]; simpl in *.
  assert (S' : k * k = 1 - s * s) by lra.
  apply vec3_eq; simpl; unfold dot3; simpl.
  - transitivity ((a1*a1 - a2*a2 - a3*a3) * (s*s) * v1 + k*k*v1 + 2*(a1*a2*(s*s) - a3*(s*k))*v2 + 2*(a1*a3*(s*s)+a2*(s*k))*v3); [ring|].
    rewrite S'. replace (a1*a1 - a2*a2 - a3*a3) with (2*a1*a1 - 1) by lra. ring.
  - transitivity ((a2*a2 - a1*a1 - a3*a3) * (s*s) * v2 + k*k*v2 + 2*(a1*a2*(s*s) + a3*(s*k))*v1 + 2*(a2*a3*(s*s)-a1*(s*k))*v3); [ring|].
    rewrite S'. replace (a2*a2 - a1*a1 - a3*a3) with (2*a2*a2 - 1) by lra. ring.
  - transitivity ((a3*a3 - a1*a1 - a2*a2) * (s*s) * v3 + k*k*v3 + 2*(a1*a3*(s*s) - a2*(s*k))*v1 + 2*(a2*a3*(s*s)+a1*(s*k))*v2); [ring|].
    rewrite S'. replace (a3*a3 - a1*a1 - a2*a2) with (2*a3*a3 - 1) by lra. ring.
Qed.

Definition turned_csys (a : vec3) (th : R) (c : csys) : csys :=
  CS (cs_O c) (turned a th (cs_x c)) (turned a th (cs_y c)) (turned a th (cs_z c)).

Lemma rotate_axis_turned a th c : dot3 a a = 1 -> rotate_about_axis a th c = Some (turned_csys a th c).
Proof.
  intros H. unfold rotate_about_axis. rewrite rot_unit by (apply axis_unitq; exact H).
  rewrite !axis_turned by exact H. reflexivity.
Qed.

Lemma turned_frame a th x y z : dot3 a a = 1 -> frame x y z -> frame (turned a th x) (turned a th y) (turned a th z).
Proof.
  intros H F. rewrite <- !axis_turned by exact H. apply quat_frame; [apply axis_unitq; exact H|exact F].
Qed.

Lemma turned_axis a th : dot3 a a = 1 -> turned a th a = a.
Proof.
  intros H. unfold turned. rewrite H. apply vec3_eq; simpl; ring.
Qed.

Lemma turned_add a t1 t2 v : dot3 a a = 1 -> turned a t2 (turned a t1 v) = turned a (t1 + t2) v.
Proof.
  intros H. unfold turned. rewrite cos_plus, sin_plus.
  set (c1 := cos t1); set (s1 := sin t1); set (c2 := cos t2); set (s2 := sin t2).
  assert (D : dot3 a (vadd (vadd (vscale c1 v) (vscale s1 (cross a v))) (vscale ((1-c1) * dot3 a v) a)) = dot3 a v).
  { transitivity (c1 * dot3 a v + (1-c1) * dot3 a v * dot3 a a).
    - unfold dot3; simpl; ring.
    - rewrite H; ring. }
  rewrite D.
  assert (X : cross a (vadd (vadd (vscale c1 v) (vscale s1 (cross a v))) (vscale ((1-c1) * dot3 a v) a))
              = vadd (vscale c1 (cross a v)) (vscale s1 (vsub (vscale (dot3 a v) a) v))).
  { transitivity (vadd (vscale c1 (cross a v)) (vscale s1 (vsub (vscale (dot3 a v) a) (vscale (dot3 a a) v)))).
    - apply vec3_eq; simpl; unfold dot3; ring.
    - rewrite H. apply vec3_eq; simpl; ring. }
  rewrite X. apply vec3_eq; simpl; ring.
Qed.

(** ** C34 *)
Lemma c34_own_axes th c : frame (cs_x c) (cs_y c) (cs_z c) ->
  forall (rot : R -> csys -> option csys) (axis : csys -> vec3),
  (rot, axis) = (rotate_about_x, cs_x) \/ (rot, axis) = (rotate_about_y, cs_y) \/ (rot, axis) = (rotate_about_z, cs_z) ->
  exists c', rot th c = Some c'
    /\ frame (cs_x c') (cs_y c') (cs_z c') /\ cs_O c' = cs_O c
    /\ axis c' = axis c
    /\ cs_x c' = turned (axis c) th (cs_x c)
    /\ cs_y c' = turned (axis c) th (cs_y c)
    /\ cs_z c' = turned (axis c) th (cs_z c)
    /\ forall th2, rot th2 c' = rot (th + th2) c.
Proof.
  intros F rot axis H.
  assert (K : dot3 (axis c) (axis c) = 1 /\ rot th c = Some (turned_csys (axis c) th c)
    /\ axis (turned_csys (axis c) th c) = axis c
    /\ (forall th2, rot th2 (turned_csys (axis c) th c) = rotate_about_axis (axis c) th2 (turned_csys (axis c) th c))
    /\ forall t, rot t c = rotate_about_axis (axis c) t c).
  { destruct F as ((A1&A2&A3&A4&A5&A6)&B).
    destruct H as [H|[H|H]]; inversion H; subst.
    - split; [exact A1|]. split; [apply rotate_axis_turned, A1|].
      assert (X : cs_x (turned_csys (cs_x c) th c) = cs_x c) by (apply turned_axis, A1).
      split; [exact X|]. split; [|reflexivity]. intros. unfold rotate_about_x. rewrite X. reflexivity.
    - split; [exact A2|]. split; [apply rotate_axis_turned, A2|].
      assert (X : cs_y (turned_csys (cs_y c) th c) = cs_y c) by (apply turned_axis, A2).
      split; [exact X|]. split; [|reflexivity]. intros. unfold rotate_about_y. rewrite X. reflexivity.
    - split; [exact A3|]. split; [apply rotate_axis_turned, A3|].
      assert (X : cs_z (turned_csys (cs_z c) th c) = cs_z c) by (apply turned_axis, A3).
      split; [exact X|]. split; [|reflexivity]. intros. unfold rotate_about_z. rewrite X. reflexivity. }
  destruct K as (U & E & Ax & R1 & R2).
  exists (turned_csys (axis c) th c). split; [exact E|].
  split; [apply turned_frame; assumption|]. split; [reflexivity|]. split; [exact Ax|].
  repeat (split; [reflexivity|]).
  intros. rewrite R1, R2, !rotate_axis_turned by exact U. unfold turned_csys; simpl.
  rewrite !turned_add by exact U. reflexivity.
Qed.

Lemma external_axis th c :
  rotate_about_external_x th c = rotate_about_axis (V3 1 0 0) th c
  /\ rotate_about_external_y th c = rotate_about_axis (V3 0 1 0) th c
  /\ rotate_about_external_z th c = rotate_about_axis (V3 0 0 1) th c.
Proof.
  unfold rotate_about_external_x, rotate_about_external_y, rotate_about_external_z, rotate_about_axis; simpl.
  rewrite !Rmult_0_l. auto.
Qed.

Lemma c34_fixed_axes th c : frame (cs_x c) (cs_y c) (cs_z c) ->
  forall (rot : R -> csys -> option csys) (a : vec3),
  (rot, a) = (rotate_about_external_x, V3 1 0 0) \/ (rot, a) = (rotate_about_external_y, V3 0 1 0)
  \/ (rot, a) = (rotate_about_external_z, V3 0 0 1)
  \/ (exists v, v <> zero3 /\ rot = rotate_about_vec (vx v) (vy v) (vz v) /\ a = vscale (/ norm v) v) ->
  exists c', rot th c = Some c'
    /\ frame (cs_x c') (cs_y c') (cs_z c') /\ cs_O c' = cs_O c
    /\ turned a th a = a
    /\ cs_x c' = turned a th (cs_x c)
    /\ cs_y c' = turned a th (cs_y c)
    /\ cs_z c' = turned a th (cs_z c)
    /\ forall th2, rot th2 c' = rot (th + th2) c.
Proof.
  intros F rot a H.
  assert (K : dot3 a a = 1 /\ forall t c0, rot t c0 = rotate_about_axis a t c0).
  { destruct H as [H|[H|[H|(v & Hv & -> & ->)]]].
    1-3: inversion H; subst; split; [unfold dot3; simpl; ring|intros; apply external_axis].
    pose proof (norm_pos _ Hv) as P. split.
    - transitivity (dot3 (vdiv v (norm v)) (vdiv v (norm v))); [|apply unit_vdiv; exact P].
      unfold dot3, vscale, vdiv, Rdiv; simpl; ring.
    - intros t c0. unfold rotate_about_vec.
      destruct v as [v1 v2 v3]; simpl vx; simpl vy; simpl vz.
      destruct (Reqb _ 0) eqn:E; [apply Reqb_true in E; lra|].
      unfold rotate_about_axis; simpl.
      f_equal; unfold Rdiv; ring. }
  destruct K as (U & R1).
  exists (turned_csys a th c). rewrite R1, rotate_axis_turned by exact U. split; [reflexivity|].
  split; [apply turned_frame; assumption|]. split; [reflexivity|]. split; [apply turned_axis, U|].
  repeat (split; [reflexivity|]).
  intros. rewrite !R1, !rotate_axis_turned by exact U. unfold turned_csys; simpl.
  rewrite !turned_add by exact U. reflexivity.
Qed.

(** [set_by_3pts] accepts three points but keeps the old axes. *)
Lemma c33_set_by_3pts :
  exists O A B c c', frame (cs_x c) (cs_y c) (cs_z c) /\ ~ on_a_line O A B
    /\ set_by_3pts O A B c = inl c'
    /\ ~ (exists k, 0 < k /\ vsub A O = vscale k (cs_x c')).
Proof.
  exists zero3, (V3 0 1 0), (V3 (-1) 0 0), (CS zero3 (V3 1 0 0) (V3 0 1 0) (V3 0 0 1)),
    (CS zero3 (V3 1 0 0) (V3 0 1 0) (V3 0 0 1)).
  split; [|split; [|split]].
  - split; unfold orthonormal, right_handed, dot3; simpl; repeat split; try ring; apply vec3_eq; simpl; ring.
  - intros H. apply on_line_cross in H. assert (vz (cross (vsub (V3 0 1 0) zero3) (vsub (V3 (-1) 0 0) zero3)) = 0) by (rewrite H; reflexivity).
    simpl in H0. lra.
  - unfold set_by_3pts. simpl.
    replace (dot3 (vsub (V3 0 1 0) zero3) (vsub (V3 (-1) 0 0) zero3)) with 0 by (unfold dot3; simpl; ring).
    rewrite (Rdiv_0_l (norm (vsub (V3 0 1 0) zero3))), Rdiv_0_l, Rabs_R0. replace (0 - 1) with (-(1)) by ring.
    rewrite Rabs_Ropp, Rabs_R1. destruct (Rltb 1 _) eqn:L; [apply Rltb_true in L; lra|]. reflexivity.
  - intros (k & Hk & E). assert (X : vx (vsub (V3 0 1 0) zero3) = k * 1) by (rewrite E; reflexivity). simpl in X. lra.
Qed.

(** ** Line elements *)

Lemma line_csys_none p q : line_csys p q = None <-> ~ well_separated p q.
Proof.
  unfold line_csys, well_separated, plan_offset, rise. simpl vx at 1; simpl vy at 1.
  set (M := Rmax (Rabs (vx p - vx q)) (Rabs (vy p - vy q))).
  assert (Hx : Rabs (vx p - vx q) <= M) by apply Rmax_l.
  assert (Hy : Rabs (vy p - vy q) <= M) by apply Rmax_r.
  pose proof (Rabs_pos (vx p - vx q)). pose proof (Rabs_pos (vy p - vy q)). pose proof (Rabs_pos (vz p - vz q)).
  change (Rmax (Rabs (vx (vsub p q))) (Rabs (vy (vsub p q)))) with M.
  assert (Half : forall a b, Rabs (b - (a + b) / 2) = Rabs (a - b) / 2).
  { intros a b. replace (b - (a+b)/2) with (- ((a - b) / 2)) by field. rewrite Rabs_Ropp.
    unfold Rdiv. rewrite Rabs_mult. f_equal. apply Rabs_right. lra. }
  destruct (Rltb M abs_tol) eqn:L.
  - apply Rltb_true in L. rewrite cartesian_none.
    set (o := vdiv (vadd p q) 2).
    assert (E : cross (vsub q o) (vsub (vadd o (V3 1 0 0)) o) = V3 0 (vz q - vz o) (-(vy q - vy o))).
    { apply vec3_eq; simpl; ring. }
    rewrite E. unfold max_abs; simpl. rewrite Rabs_R0, Rabs_Ropp, !Half.
    unfold abs_tol in *. split.
    + intros G [A|[A B]]; [lra|].
      pose proof (Rmax_r 0 (Rmax (Rabs (vz p - vz q) / 2) (Rabs (vy p - vy q) / 2))).
      pose proof (Rmax_l (Rabs (vz p - vz q) / 2) (Rabs (vy p - vy q) / 2)). lra.
    + intros G. apply Rmax_lub_lt; [lra|]. apply Rmax_lub_lt; [|lra].
      destruct (Rlt_dec (Rabs (vz p - vz q) / 2) (1/1000000000)); [assumption|].
      exfalso. apply G. right. lra.
  - apply Rltb_false in L. rewrite cartesian_none.
    set (o := vdiv (vadd p q) 2).
    assert (E : cross (vsub q o) (vsub (vadd o (V3 0 0 1)) o) = V3 (vy q - vy o) (-(vx q - vx o)) 0).
    { apply vec3_eq; simpl; ring. }
    rewrite E. unfold max_abs; simpl. rewrite Rabs_R0, Rabs_Ropp, !Half.
    unfold abs_tol in *. split.
    + intros G [A|[A B]]; [|lra].
      assert (M < 2/1000000000); [|lra]. unfold M.
      pose proof (Rmax_l (Rabs (vy p - vy q) / 2) (Rmax (Rabs (vx p - vx q) / 2) 0)).
      pose proof (Rmax_r (Rabs (vy p - vy q) / 2) (Rmax (Rabs (vx p - vx q) / 2) 0)).
      pose proof (Rmax_l (Rabs (vx p - vx q) / 2) 0).
      apply Rmax_lub_lt; lra.
    + intros G. destruct (Rlt_dec M (2/1000000000)) as [X|X]; [|exfalso; apply G; left; lra].
      apply Rmax_lub_lt; [lra|]. apply Rmax_lub_lt; lra.
Qed.

Lemma line_csys_some p q c : line_csys p q = Some c ->
  frame (cs_x c) (cs_y c) (cs_z c) /\ 0 < norm (vsub p q) /\ vsub q p = vscale (norm (vsub p q)) (cs_x c).
Proof.
  unfold line_csys. intros H.
  apply cartesian_some in H. destruct H as (F & HO & (k & Hk & E) & _).
  assert (E2 : vsub q p = vscale (2*k) (cs_x c)).
  { set (o := vdiv (vadd p q) 2) in *.
    assert (G : vsub q p = vscale 2 (vsub q o)) by (apply vec3_eq; unfold o; simpl; field).
    rewrite G, E. apply vec3_eq; simpl; ring. }
  assert (N : norm (vsub p q) = 2 * k).
  { unfold norm.
    assert (D : dot3 (vsub p q) (vsub p q) = (2*k)*(2*k)).
    { transitivity (dot3 (vsub q p) (vsub q p)); [unfold dot3; simpl; ring|].
      rewrite E2. destruct F as ((A1&_)&_). 
      transitivity ((2*k)*(2*k)*dot3 (cs_x c) (cs_x c)); [unfold dot3; simpl; ring|]. rewrite A1; ring. }
    rewrite D. apply sqrt_square. lra. }
  rewrite N. split; [exact F|]. split; [lra|exact E2].
Qed.

Lemma same_point_not_separated p : ~ well_separated p p.
Proof.
  unfold well_separated, plan_offset, rise.
  replace (vx p - vx p) with 0 by ring. replace (vy p - vy p) with 0 by ring. replace (vz p - vz p) with 0 by ring.
  rewrite Rabs_R0, Rmax_left by lra. lra.
Qed.

(** [set_by_3pts] moves the origin, keeps the axes, and rejects points on a line. *)
Lemma norm_vscale k v : norm (vscale k v) = Rabs k * norm v.
Proof.
  unfold norm. replace (dot3 (vscale k v) (vscale k v)) with (Rsqr k * dot3 v v) by (unfold dot3, vscale, Rsqr; cbn [vx vy vz]; ring).
  rewrite sqrt_mult_alt by apply Rle_0_sqr. now rewrite sqrt_Rsqr_abs.
Qed.
Lemma same_point A O d : vsub A O = vscale 0 d -> A = O.
Proof.
  intros E. pose proof (f_equal vx E) as E1. pose proof (f_equal vy E) as E2. pose proof (f_equal vz E) as E3.
  unfold vsub, vscale in *; cbn [vx vy vz] in *. apply vec3_eq; lra.
Qed.
Lemma c33_set_by_3pts_origin O A B c :
  (match set_by_3pts O A B c with inl c' => c' | inr c' => c' end) = CS O (cs_x c) (cs_y c) (cs_z c)
  /\ (on_a_line O A B -> A <> O -> B <> O -> exists c', set_by_3pts O A B c = inr c').
Proof.
  split; [unfold set_by_3pts; cbv zeta; destruct (Rltb _ _); reflexivity|].
  intros (d & s & t & EA & EB) NA NB. unfold set_by_3pts; cbv zeta. rewrite EA, EB, !norm_vscale.
  assert (Hs : s <> 0). { intros ->. apply NA. apply (same_point A O d EA). }
  assert (Ht : t <> 0). { intros ->. apply NB. apply (same_point B O d EB). }
  assert (Hd : norm d <> 0).
  { intros E. apply NA. assert (D : dot3 d d = 0). { unfold norm in E. apply sqrt_eq_0 in E; [exact E|]. unfold dot3; nra. }
    unfold dot3 in D. assert (vx d = 0) by nra. assert (vy d = 0) by nra. assert (vz d = 0) by nra.
    apply (same_point A O d). rewrite EA. apply vec3_eq; unfold vscale; cbn [vx vy vz]; nra. }
  assert (Dd : dot3 d d = norm d * norm d). { unfold norm. rewrite sqrt_sqrt; [reflexivity|]. unfold dot3; nra. }
  replace (dot3 (vscale s d) (vscale t d) / (Rabs s * norm d) / (Rabs t * norm d)) with (s * t / Rabs (s * t)).
  2: { replace (dot3 (vscale s d) (vscale t d)) with (s * t * dot3 d d) by (unfold dot3, vscale; cbn [vx vy vz]; ring). rewrite Dd, Rabs_mult.
       pose proof (Rabs_no_R0 s Hs). pose proof (Rabs_no_R0 t Ht). field. auto. }
  assert (Hst : s * t <> 0) by (apply Rmult_integral_contrapositive_currified; assumption).
  unfold Rdiv at 1. rewrite Rabs_mult, Rabs_inv, Rabs_Rabsolu, Rinv_r by (now apply Rabs_no_R0).
  replace (1 - 1) with 0 by ring. rewrite Rabs_R0. destruct (Rltb 0 _) eqn:L; [eauto|]. apply Rltb_false in L. lra.
Qed.
