(** Local axes and areas of shells. *)
From Coq Require Import Reals Lra Lia List String Arith Bool.
From Verif Require Import Base BaseFacts Csys Sections Element FeModel SpecGeom CsysFacts SpecShell.
Import ListNotations.
Local Open Scope R_scope.

Lemma length3_norm v : length3 v = norm v.
Proof. unfold length3, norm, dot3. f_equal. ring. Qed.

Lemma vec_add_sub o v : vsub (vadd o v) o = v.
Proof. apply vec3_eq; unfold vsub, vadd; cbn [vx vy vz]; ring. Qed.

Lemma dot3_vsub a b : dot3 (vsub a b) (vsub a b) = dot3 a a - 2 * dot3 a b + dot3 b b.
Proof. unfold dot3, vsub; cbn [vx vy vz]; ring. Qed.
Lemma dot3_vadd a b : dot3 (vadd a b) (vadd a b) = dot3 a a + 2 * dot3 a b + dot3 b b.
Proof. unfold dot3, vadd; cbn [vx vy vz]; ring. Qed.

Lemma cross_unit_perp w u : dot3 w w = 1 -> dot3 u u = 1 -> dot3 w u = 0 -> cross u (cross w u) = w.
Proof.
  intros Hw Hu Hp.
  assert (E : cross u (cross w u) = vsub (vscale (dot3 u u) w) (vscale (dot3 w u) u)).
  { apply vec3_eq; unfold cross, vsub, vscale, dot3; cbn [vx vy vz]; ring. }
  rewrite E, Hu, Hp. apply vec3_eq; unfold vsub, vscale; cbn [vx vy vz]; ring.
Qed.

Lemma unit_max_abs w : dot3 w w = 1 -> abs_tol <= max_abs w.
Proof.
  intros H. destruct (Rle_lt_dec abs_tol (max_abs w)) as [L|L]; [exact L|exfalso].
  pose proof (norm_max_abs w) as N. rewrite norm_sq, H in N.
  assert (0 <= max_abs w) by (apply Rle_trans with (Rabs (vx w)); [apply Rabs_pos|apply max_abs_x]).
  unfold abs_tol in L. nra.
Qed.

Lemma Rltb_no x y : y <= x -> Rltb x y = false.
Proof. intros H. unfold Rltb. destruct (Rlt_dec x y); [lra|reflexivity]. Qed.
Lemma Rltb_yes x y : x < y -> Rltb x y = true.
Proof. intros H. unfold Rltb. destruct (Rlt_dec x y); [reflexivity|lra]. Qed.

(** [create_by_normal] succeeds whenever normal and guide are further than the
    tolerance from being parallel. *)
Lemma create_by_normal_ok O n g : n <> zero3 -> g <> zero3 ->
  abs_tol <= norm (vsub (vdiv n (norm n)) (vdiv g (norm g))) ->
  abs_tol <= norm (vadd (vdiv n (norm n)) (vdiv g (norm g))) ->
  exists c, create_by_normal O n g = Some c /\ frame (cs_x c) (cs_y c) (cs_z c)
    /\ cs_O c = O /\ cs_z c = vdiv n (norm n).
Proof.
  intros Hn Hg H1 H2. unfold create_by_normal.
  rewrite !Rltb_no by assumption. cbn [orb].
  set (w := vdiv n (norm n)) in *. set (g1 := vdiv g (norm g)) in *.
  assert (Uw : dot3 w w = 1) by (apply unit_vdiv, norm_pos; exact Hn).
  assert (Ug : dot3 g1 g1 = 1) by (apply unit_vdiv, norm_pos; exact Hg).
  assert (Nz : cross g1 w <> V3 0 0 0).
  { intros Z. pose proof (lagrange g1 w) as L. rewrite Z, Ug, Uw in L.
    unfold dot3 at 1 in L; cbn [vx vy vz] in L.
    pose proof (norm_sq (vsub w g1)) as S1. pose proof (norm_sq (vadd w g1)) as S2.
    rewrite dot3_vsub, Uw, Ug in S1. rewrite dot3_vadd, Uw, Ug in S2.
    rewrite (dot3_comm w g1) in S1, S2.
    pose proof abs_tol_pos.
    assert (0 < norm (vsub w g1) * norm (vsub w g1)) by (apply Rmult_lt_0_compat; lra).
    assert (0 < norm (vadd w g1) * norm (vadd w g1)) by (apply Rmult_lt_0_compat; lra).
    assert (0 < (1 - dot3 g1 w) * (1 + dot3 g1 w)) by (apply Rmult_lt_0_compat; lra).
    nra. }
  set (u0 := cross g1 w) in *. set (u := vdiv u0 (norm u0)) in *.
  assert (Uu : dot3 u u = 1) by (apply unit_vdiv, norm_pos; exact Nz).
  assert (Pwu : dot3 w u = 0).
  { unfold u. rewrite dot_vdiv_r. unfold u0. rewrite dot_cross_r. unfold Rdiv. ring. }
  unfold cartesian. rewrite !vec_add_sub. rewrite (cross_unit_perp w u Uw Uu Pwu).
  rewrite Rltb_no by (apply unit_max_abs; exact Uw).
  eexists; split; [reflexivity|]. cbn [cs_x cs_y cs_z cs_O].
  assert (Nw : norm w = 1) by (unfold norm; rewrite Uw; apply sqrt_1).
  assert (Nu : norm u = 1) by (unfold norm; rewrite Uu; apply sqrt_1).
  rewrite Nw, Nu.
  assert (D1 : forall v, vdiv v 1 = v) by (intros v; apply vec3_eq; unfold vdiv; cbn [vx vy vz]; field).
  rewrite !D1. split; [|split; reflexivity].
  apply frame_of; assumption.
Qed.

(** A unit vector close to the Z axis is far from the Y axis. *)
Lemma near_z_far_y n s : dot3 n n = 1 -> (s = 1 \/ s = -1) ->
  norm (vadd n (V3 0 0 s)) < abs_tol ->
  abs_tol <= norm (vsub n (V3 0 1 0)) /\ abs_tol <= norm (vadd n (V3 0 1 0)).
Proof.
  intros U Hs H.
  assert (HY : Rabs (vy n) < abs_tol).
  { pose proof (max_abs_norm (vadd n (V3 0 0 s))) as M.
    pose proof (max_abs_y (vadd n (V3 0 0 s))) as Y. unfold vadd in *; cbn [vx vy vz] in *.
    replace (vy n) with (vy n + 0) by ring. lra. }
  assert (B : - abs_tol < vy n < abs_tol) by (apply Rabs_def2 in HY; split; lra).
  unfold abs_tol in *.
  split.
  - pose proof (max_abs_norm (vsub n (V3 0 1 0))) as M.
    pose proof (max_abs_y (vsub n (V3 0 1 0))) as Y. unfold vsub in *; cbn [vx vy vz] in *.
    rewrite Rabs_left in Y by lra. lra.
  - pose proof (max_abs_norm (vadd n (V3 0 1 0))) as M.
    pose proof (max_abs_y (vadd n (V3 0 1 0))) as Y. unfold vadd in *; cbn [vx vy vz] in *.
    rewrite Rabs_right in Y by lra. lra.
Qed.

Lemma norm_unit v : dot3 v v = 1 -> norm v = 1.
Proof. intros H. unfold norm. rewrite H. apply sqrt_1. Qed.
Lemma vdiv_1 v : vdiv v 1 = v.
Proof. apply vec3_eq; unfold vdiv; cbn [vx vy vz]; field. Qed.
Lemma vsub_neg v s : vsub v (V3 0 0 s) = vadd v (V3 0 0 (- s)).
Proof. apply vec3_eq; unfold vsub, vadd; cbn [vx vy vz]; ring. Qed.

Lemma raw_normal pi pj pk : cross (vsub pi pj) (vsub pj pk) = normal3 pi pj pk.
Proof. apply vec3_eq; unfold normal3, cross, vsub; cbn [vx vy vz]; ring. Qed.

Lemma shell_normal_unit pi pj pk : triangle pi pj pk ->
  dot3 (shell_normal pi pj pk) (shell_normal pi pj pk) = 1
  /\ shell_normal pi pj pk = vdiv (normal3 pi pj pk) (length3 (normal3 pi pj pk)).
Proof.
  intros H. unfold shell_normal. rewrite raw_normal, length3_norm. split; [|reflexivity].
  apply unit_vdiv, norm_pos. exact H.
Qed.

Lemma unit_nonzero v : dot3 v v = 1 -> v <> zero3.
Proof. intros H ->. unfold dot3 in H; cbn [zero3 vx vy vz] in H. lra. Qed.

Definition ey_unit : dot3 (V3 0 1 0) (V3 0 1 0) = 1. Proof. unfold dot3; cbn [vx vy vz]; ring. Qed.
Definition ez_unit : dot3 (V3 0 0 1) (V3 0 0 1) = 1. Proof. unfold dot3; cbn [vx vy vz]; ring. Qed.

Lemma by_unit_normal O n g : dot3 n n = 1 -> dot3 g g = 1 ->
  abs_tol <= norm (vsub n g) -> abs_tol <= norm (vadd n g) ->
  exists c, create_by_normal O n g = Some c /\ frame (cs_x c) (cs_y c) (cs_z c) /\ cs_O c = O /\ cs_z c = n.
Proof.
  intros Un Ug H1 H2.
  destruct (create_by_normal_ok O n g) as (c & E & F & HO & Z).
  - apply unit_nonzero; exact Un.
  - apply unit_nonzero; exact Ug.
  - rewrite (norm_unit n Un), (norm_unit g Ug), !vdiv_1. exact H1.
  - rewrite (norm_unit n Un), (norm_unit g Ug), !vdiv_1. exact H2.
  - rewrite (norm_unit n Un), vdiv_1 in Z. exists c. auto.
Qed.

(** C46 for quadrilaterals: every one whose first three corners form a triangle. *)
Lemma c46_quad pi pj pk pl : triangle pi pj pk ->
  exists c, quad_csys pi pj pk pl = Some c /\ frame (cs_x c) (cs_y c) (cs_z c)
    /\ cs_z c = vscale (/ length3 (normal3 pi pj pk)) (normal3 pi pj pk)
    /\ cs_O c = vscale (1/4) (vadd (vadd (vadd pi pj) pk) pl).
Proof.
  intros T. destruct (shell_normal_unit pi pj pk T) as [U En]. unfold quad_csys.
  set (n := shell_normal pi pj pk) in *. set (o := vdiv _ 4).
  assert (Eo : o = vscale (1/4) (vadd (vadd (vadd pi pj) pk) pl)).
  { unfold o. apply vec3_eq; unfold vdiv, vscale; cbn [vx vy vz]; field. }
  assert (Ez : n = vscale (/ length3 (normal3 pi pj pk)) (normal3 pi pj pk)).
  { rewrite En. apply vec3_eq; unfold vdiv, vscale, Rdiv; cbn [vx vy vz]; ring. }
  rewrite <- Eo, <- Ez.
  assert (K : exists c, (if (Rltb (norm (vsub n (V3 0 0 1))) abs_tol || Rltb (norm (vadd n (V3 0 0 1))) abs_tol)%bool
      then create_by_normal o n (V3 0 1 0) else create_by_normal o n (V3 0 0 1)) = Some c
      /\ frame (cs_x c) (cs_y c) (cs_z c) /\ cs_O c = o /\ cs_z c = n).
  { unfold Rltb.
    destruct (Rlt_dec (norm (vsub n (V3 0 0 1))) abs_tol) as [L1|L1].
    - cbn [orb]. rewrite vsub_neg in L1. destruct (near_z_far_y n (-(1)) U ltac:(right; lra) L1).
      apply by_unit_normal; auto using ey_unit.
    - destruct (Rlt_dec (norm (vadd n (V3 0 0 1))) abs_tol) as [L2|L2]; cbn [orb].
      + destruct (near_z_far_y n 1 U ltac:(left; lra) L2). apply by_unit_normal; auto using ey_unit.
      + apply by_unit_normal; auto using ez_unit; lra. }
  destruct K as (c & E & F & HO & Z). exists c. auto.
Qed.

(** C46 for triangles: accepted exactly unless the normal points along -Z. *)
Lemma c46_tria_partial pi pj pk : triangle pi pj pk ->
  let n := vscale (/ length3 (normal3 pi pj pk)) (normal3 pi pj pk) in
  (1 / 1000000000 <= length3 (vadd n (V3 0 0 1)) ->
   exists c, tria_csys pi pj pk = Some c /\ frame (cs_x c) (cs_y c) (cs_z c) /\ cs_z c = n
     /\ cs_O c = vscale (1/3) (vadd (vadd pi pj) pk))
  /\ (length3 (vadd n (V3 0 0 1)) < 1 / 1000000000 -> tria_csys pi pj pk = None).
Proof.
  intros T n0. destruct (shell_normal_unit pi pj pk T) as [U En]. unfold tria_csys.
  assert (Ez : shell_normal pi pj pk = n0).
  { rewrite En. apply vec3_eq; unfold n0, vdiv, vscale, Rdiv; cbn [vx vy vz]; ring. }
  rewrite <- Ez. clear Ez n0. set (n := shell_normal pi pj pk) in *. set (o := V3 ((vx pi + vx pj + vx pk)/3) ((vy pi + vy pj + vy pk)/3) ((vz pi + vz pj + vz pk)/3)).
  assert (Eo : o = vscale (1/3) (vadd (vadd pi pj) pk)).
  { unfold o. apply vec3_eq; unfold vadd, vscale; cbn [vx vy vz]; field. }
  rewrite <- Eo, length3_norm. change (1 / 1000000000) with abs_tol. split.
  - intros H. unfold Rltb.
    destruct (Rlt_dec (norm (vsub n (V3 0 0 1))) abs_tol) as [L1|L1].
    + rewrite vsub_neg in L1. destruct (near_z_far_y n (-(1)) U ltac:(right; lra) L1).
      destruct (by_unit_normal o n (V3 0 1 0)) as (c & E & F & HO & Z); auto using ey_unit. exists c. auto.
    + destruct (by_unit_normal o n (V3 0 0 1)) as (c & E & F & HO & Z); auto using ez_unit; [lra|]. exists c. auto.
  - intros H. rewrite Rltb_no.
    + unfold create_by_normal. rewrite (norm_unit n U), (norm_unit (V3 0 0 1) ez_unit), !vdiv_1.
      rewrite (Rltb_yes (norm (vadd n (V3 0 0 1)))) by exact H. rewrite orb_true_r. reflexivity.
    + (* far from +Z since close to -Z *)
      pose proof (max_abs_norm (vadd n (V3 0 0 1))) as M. pose proof (max_abs_z (vadd n (V3 0 0 1))) as Y.
      pose proof (max_abs_norm (vsub n (V3 0 0 1))) as M'. pose proof (max_abs_z (vsub n (V3 0 0 1))) as Y'.
      unfold vadd, vsub in *; cbn [vx vy vz] in *. unfold abs_tol in *.
      assert (Rabs (vz n + 1) < 1 / 1000000000) by lra. apply Rabs_def2 in H0.
      rewrite Rabs_left in Y' by lra. lra.
Qed.

Lemma sqrt_n_1 x : x = 1 -> sqrt x = 1.
Proof. intros ->. apply sqrt_1. Qed.

Lemma c46_tria_refuted : exists a b c, triangle a b c /\ tria_csys a b c = None.
Proof.
  exists (V3 0 0 0), (V3 0 1 0), (V3 1 0 0).
  assert (T : triangle (V3 0 0 0) (V3 0 1 0) (V3 1 0 0)).
  { unfold triangle, normal3, cross, vsub; cbn [vx vy vz]. intros H. unfold zero3 in H.
    injection H as _ _ H. lra. }
  split; [exact T|]. apply (c46_tria_partial _ _ _ T).
  unfold normal3, cross, vsub, length3, vadd, vscale; cbn [vx vy vz].
  rewrite (sqrt_n_1 ((((1 - 0) * (0 - 0) - (0 - 0) * (0 - 0)) ^ 2 + ((0 - 0) * (1 - 0) - (0 - 0) * (0 - 0)) ^ 2 + ((0 - 0) * (0 - 0) - (1 - 0) * (1 - 0)) ^ 2))) by ring.
  match goal with |- sqrt ?x < _ => replace x with 0 by field end. rewrite sqrt_0. lra.
Qed.

(** ** C45 *)
Definition sum3 (v : vec3) : R := vx v + vy v + vz v.
Lemma tria_area_sum a b c : tria_area a b c = 1/2 * sum3 (normal3 a b c).
Proof. unfold tria_area, det3, ones, sum3, normal3, dot3, cross, vsub; cbn [vx vy vz]. ring. Qed.

(** the attributed area is right exactly for triangles whose unit normal has
    components summing to 1 *)
Lemma c45_tria_iff a b c : triangle a b c ->
  let n := vscale (/ length3 (normal3 a b c)) (normal3 a b c) in
  tria_area a b c = triangle_area a b c <-> vx n + vy n + vz n = 1.
Proof.
  intros T n. rewrite tria_area_sum. unfold triangle_area, n, vscale; cbn [vx vy vz].
  assert (P : 0 < length3 (normal3 a b c)) by (rewrite length3_norm; apply norm_pos; exact T).
  set (l := length3 (normal3 a b c)) in *. unfold sum3.
  replace (/ l * vx (normal3 a b c) + / l * vy (normal3 a b c) + / l * vz (normal3 a b c))
    with ((vx (normal3 a b c) + vy (normal3 a b c) + vz (normal3 a b c)) / l) by (unfold Rdiv; ring).
  set (s := vx (normal3 a b c) + vy (normal3 a b c) + vz (normal3 a b c)).
  split; intros H.
  - replace s with l by lra. field. lra.
  - assert (s = l) by (apply (f_equal (fun t => t * l)) in H; field_simplify in H; lra). lra.
Qed.

(** in the X-Y plane: right when counter-clockwise, negative when clockwise *)
Lemma c45_tria_plane x1 y1 x2 y2 x3 y3 z :
  let a := V3 x1 y1 z in let b := V3 x2 y2 z in let c := V3 x3 y3 z in
  let t := (x2 - x1) * (y3 - y1) - (y2 - y1) * (x3 - x1) in
  (0 < t -> tria_area a b c = triangle_area a b c) /\ (t < 0 -> tria_area a b c = - triangle_area a b c).
Proof.
  intros a b c t. rewrite tria_area_sum. unfold triangle_area, sum3, length3, a, b, c, normal3, cross, vsub; cbn [vx vy vz].
  assert (E : ((y2 - y1) * (z - z) - (z - z) * (y3 - y1)) ^ 2 + ((z - z) * (x3 - x1) - (x2 - x1) * (z - z)) ^ 2
     + ((x2 - x1) * (y3 - y1) - (y2 - y1) * (x3 - x1)) ^ 2 = t ^ 2) by (unfold t; ring).
  rewrite E. split; intros H.
  - replace (t ^ 2) with (t * t) by ring. rewrite sqrt_square by lra. unfold t. ring.
  - replace (t ^ 2) with ((- t) * (- t)) by ring. rewrite sqrt_square by lra. unfold t. ring.
Qed.

(** the attributed area of a parallelogram is never right *)
Lemma c45_parallelogram_refuted a b c d : parallelogram a b c d -> quad_area a b c d <> quad_true_area a b c d.
Proof.
  intros [T P]. set (N := normal3 a b c).
  assert (Ec : c = vadd (vsub b a) d).
  { apply vec3_eq; unfold vadd, vsub; cbn [vx vy vz];
      [pose proof (f_equal vx P) as Q|pose proof (f_equal vy P) as Q|pose proof (f_equal vz P) as Q];
      unfold vsub in Q; cbn [vx vy vz] in Q; lra. }
  assert (Ea : quad_area a b c d = - (1/4) * sum3 N).
  { unfold N. rewrite Ec. unfold quad_area, det3, ones, sum3, normal3, dot3, cross, vsub, vadd; cbn [vx vy vz]. field. }
  assert (Et : quad_true_area a b c d = norm N).
  { unfold quad_true_area. rewrite length3_norm.
    replace (cross (vsub c a) (vsub d b)) with (vscale 2 N).
    - unfold norm. replace (dot3 (vscale 2 N) (vscale 2 N)) with (2 * 2 * dot3 N N) by (unfold dot3, vscale; cbn [vx vy vz]; ring).
      rewrite sqrt_mult_alt by lra. rewrite sqrt_square by lra. lra.
    - unfold N. rewrite Ec. apply vec3_eq; unfold normal3, vscale, cross, vsub, vadd; cbn [vx vy vz]; ring. }
  rewrite Ea, Et. assert (Pos : 0 < norm N) by (apply norm_pos; exact T).
  pose proof (norm_sq N) as S. unfold sum3, dot3 in *. intros H.
  clear Et. set (l := norm N) in *. clearbody l.
  pose proof (Rle_0_sqr (vx N - vy N)). pose proof (Rle_0_sqr (vy N - vz N)). pose proof (Rle_0_sqr (vz N - vx N)). unfold Rsqr in *.
  assert (Q : vx N + vy N + vz N = - 4 * l) by lra.
  apply (f_equal (fun t => t * t)) in Q.
  assert (0 < l * l) by (apply Rmult_lt_0_compat; assumption). nra.
Qed.

Lemma c45_tria_refuted : exists a b c, triangle a b c /\ tria_area a b c <> triangle_area a b c.
Proof.
  exists (V3 0 0 0), (V3 0 1 0), (V3 1 0 0).
  destruct (c45_tria_plane 0 0 0 1 1 0 0) as [_ H]. cbv zeta in H.
  assert (T : triangle (V3 0 0 0) (V3 0 1 0) (V3 1 0 0)).
  { unfold triangle, normal3, cross, vsub; cbn [vx vy vz]. intros H0. unfold zero3 in H0.
    injection H0 as _ _ H0. lra. }
  split; [exact T|]. rewrite H by lra.
  assert (0 < triangle_area (V3 0 0 0) (V3 0 1 0) (V3 1 0 0)).
  { unfold triangle_area. apply Rmult_lt_0_compat; [lra|]. rewrite length3_norm. apply norm_pos, T. }
  lra.
Qed.
Lemma c45_quad_exists : exists a b c d, parallelogram a b c d /\ quad_area a b c d <> quad_true_area a b c d.
Proof.
  exists (V3 0 0 0), (V3 1 0 0), (V3 1 1 0), (V3 0 1 0).
  assert (P : parallelogram (V3 0 0 0) (V3 1 0 0) (V3 1 1 0) (V3 0 1 0)).
  { split.
    - unfold triangle, normal3, zero3, cross, vsub; cbn [vx vy vz]. intros H. injection H as _ _ H. lra.
    - apply vec3_eq; unfold vsub; cbn [vx vy vz]; ring. }
  split; [exact P|]. now apply c45_parallelogram_refuted.
Qed.
