(** Properties C33, C34, C45, C46: coordinate systems and shell geometry.
    Only statements, each closed by a lemma proved elsewhere, with the assumptions it
    rests on and an instance of its hypotheses. *)
From Coq Require Import Reals Lra Lia List String Arith Bool ZArith Sorting.Permutation Sorting.Sorted.
From Verif Require Import Base Csys Element SpecGeom CsysFacts SpecShell ShellGeom.
Import ListNotations.
Local Open Scope string_scope.
Local Open Scope list_scope.
Local Open Scope R_scope.

(** C33. Three points on a line are rejected, and only nearly collinear points are. *)
Theorem C33_rejected O A B :
  (on_a_line O A B -> cartesian O A B = None)
  /\ (cartesian O A B = None -> norm (cross (vsub A O) (vsub B O)) < 2 / 1000000000)
  /\ (norm (cross (vsub A O) (vsub B O)) < 1 / 1000000000 -> cartesian O A B = None).
Proof. exact (c33_rejected O A B). Qed.
Print Assumptions C33_rejected.
Example C33_rejected_example : on_a_line (V3 0 0 0) (V3 1 1 1) (V3 2 2 2).
Proof. exists (V3 1 1 1), 1, 2. split; apply vec3_eq; unfold vsub, vscale; cbn [vx vy vz]; ring. Qed.

(** C33. Axes accepted from three points: orthonormal, right-handed, x towards the second
    point, the third point in the x-y plane on the positive y side. *)
Theorem C33_accepted O A B c :
  cartesian O A B = Some c ->
  frame (cs_x c) (cs_y c) (cs_z c) /\ cs_O c = O
  /\ (exists k, 0 < k /\ vsub A O = vscale k (cs_x c))
  /\ dot3 (vsub B O) (cs_z c) = 0 /\ 0 < dot3 (vsub B O) (cs_y c).
Proof. exact (c33_accepted O A B c). Qed.
Print Assumptions C33_accepted.
Example C33_example : exists c, cartesian (V3 1 1 1) (V3 3 1 1) (V3 1 1 5) = Some c.
Proof.
  destruct (cartesian (V3 1 1 1) (V3 3 1 1) (V3 1 1 5)) as [c|] eqn:H; [eauto|exfalso].
  apply C33_rejected in H. unfold norm, dot3, cross, vsub in H; cbn [vx vy vz] in H.
  match goal with H : sqrt ?x < _ |- _ => replace x with (8 * 8) in H by ring end.
  rewrite sqrt_square in H by lra. lra.
Qed.

(** C33 is false of set_by_3pts, the method that resets existing axes: the x axis is not
    pointed at the second point. *)
Theorem C33_set_by_3pts_refuted :
  exists O A B c c', frame (cs_x c) (cs_y c) (cs_z c) /\ ~ on_a_line O A B
    /\ set_by_3pts O A B c = inl c'
    /\ ~ (exists k, 0 < k /\ vsub A O = vscale k (cs_x c')).
Proof. exact c33_set_by_3pts. Qed.
Print Assumptions C33_set_by_3pts_refuted.
(* existential: the witness is part of the statement *)

(** C33. set_by_3pts moves the origin to the first point and leaves the axes as they were, and
    rejects points on a line. *)
Theorem C33_set_by_3pts_origin O A B c :
  (match set_by_3pts O A B c with inl c' => c' | inr c' => c' end) = CS O (cs_x c) (cs_y c) (cs_z c)
  /\ (on_a_line O A B -> A <> O -> B <> O -> exists c', set_by_3pts O A B c = inr c').
Proof. exact (c33_set_by_3pts_origin O A B c). Qed.
Print Assumptions C33_set_by_3pts_origin.
Example C33_set_by_3pts_example : on_a_line (V3 0 0 0) (V3 1 1 1) (V3 2 2 2) /\ V3 1 1 1 <> V3 0 0 0 /\ V3 2 2 2 <> V3 0 0 0.
Proof. split; [exact C33_rejected_example|]. split; intros H; injection H as H _ _; lra. Qed.

(** C34 for rotations about the own axes. *)
Theorem C34_own_axes th c : frame (cs_x c) (cs_y c) (cs_z c) ->
  forall (rot : R -> csys -> option csys) (axis : csys -> vec3),
  (rot, axis) = (rotate_about_x, cs_x) \/ (rot, axis) = (rotate_about_y, cs_y) \/ (rot, axis) = (rotate_about_z, cs_z) ->
  exists c', rot th c = Some c'
    /\ frame (cs_x c') (cs_y c') (cs_z c') /\ cs_O c' = cs_O c
    /\ axis c' = axis c
    /\ cs_x c' = turned (axis c) th (cs_x c)
    /\ cs_y c' = turned (axis c) th (cs_y c)
    /\ cs_z c' = turned (axis c) th (cs_z c)
    /\ forall th2, rot th2 c' = rot (th + th2) c.
Proof. exact (c34_own_axes th c). Qed.
Print Assumptions C34_own_axes.
Example C34_example : frame (V3 1 0 0) (V3 0 1 0) (V3 0 0 1).
Proof. split; repeat split; unfold dot3; cbn [vx vy vz]; try ring; apply vec3_eq; unfold cross; cbn [vx vy vz]; ring. Qed.

(** C34 for rotations about the global axes and about a given vector. *)
Theorem C34_fixed_axes th c : frame (cs_x c) (cs_y c) (cs_z c) ->
  forall (rot : R -> csys -> option csys) (a : vec3),
  (rot, a) = (rotate_about_external_x, V3 1 0 0) \/ (rot, a) = (rotate_about_external_y, V3 0 1 0)
  \/ (rot, a) = (rotate_about_external_z, V3 0 0 1)
  \/ (exists v, v <> zero3 /\ rot = rotate_about_vec (vx v) (vy v) (vz v) /\ a = vscale (/ norm v) v) ->
  exists c', rot th c = Some c'
    /\ frame (cs_x c') (cs_y c') (cs_z c') /\ cs_O c' = cs_O c
    /\ turned a th a = a
    /\ cs_x c' = turned a th (cs_x c)
    /\ cs_y c' = turned a th (cs_y c)
    /\ cs_z c' = turned a th (cs_z c)
    /\ forall th2, rot th2 c' = rot (th + th2) c.
Proof. exact (c34_fixed_axes th c). Qed.
Print Assumptions C34_fixed_axes.
Example C34_fixed_example : V3 1 2 3 <> zero3.
Proof. unfold zero3. intros H. injection H as H _ _. lra. Qed.

(** C45 for triangles: the stored area is the geometric one exactly when the components of
    the unit normal add up to one. *)
Theorem C45_tria_partial a b c : triangle a b c ->
  let n := vscale (/ length3 (normal3 a b c)) (normal3 a b c) in
  tria_area a b c = triangle_area a b c <-> vx n + vy n + vz n = 1.
Proof. exact (c45_tria_iff a b c). Qed.
Print Assumptions C45_tria_partial.
Example C45_example : triangle (V3 0 0 0) (V3 1 0 0) (V3 0 1 0).
Proof.
  unfold triangle, normal3, zero3, cross, vsub; cbn [vx vy vz]. intros H. injection H as _ _ H. lra.
Qed.

(** C45 for horizontal triangles: right when drawn counter-clockwise, negative otherwise. *)
Theorem C45_tria_plane_partial x1 y1 x2 y2 x3 y3 z :
  let a := V3 x1 y1 z in let b := V3 x2 y2 z in let c := V3 x3 y3 z in
  let t := (x2 - x1) * (y3 - y1) - (y2 - y1) * (x3 - x1) in
  (0 < t -> tria_area a b c = triangle_area a b c) /\ (t < 0 -> tria_area a b c = - triangle_area a b c).
Proof. exact (c45_tria_plane x1 y1 x2 y2 x3 y3 z). Qed.
Print Assumptions C45_tria_plane_partial.
Example C45_plane_example : tria_area (V3 0 0 2) (V3 1 0 2) (V3 0 1 2) = triangle_area (V3 0 0 2) (V3 1 0 2) (V3 0 1 2).
Proof. apply C45_tria_plane_partial. lra. Qed.

(** C45 is false for triangles. *)
Theorem C45_tria_refuted : exists a b c, triangle a b c /\ tria_area a b c <> triangle_area a b c.
Proof. exact c45_tria_refuted. Qed.
Print Assumptions C45_tria_refuted.
(* existential: the witness is part of the statement *)

(** C45 fails for every parallelogram: none gets its area. *)
Theorem C45_parallelogram_wrong a b c d : parallelogram a b c d -> quad_area a b c d <> quad_true_area a b c d.
Proof. exact (c45_parallelogram_refuted a b c d). Qed.
Print Assumptions C45_parallelogram_wrong.
Example C45_parallelogram_example : parallelogram (V3 0 0 0) (V3 1 0 0) (V3 1 1 0) (V3 0 1 0).
Proof.
  split.
  - unfold triangle, normal3, zero3, cross, vsub; cbn [vx vy vz]. intros H. injection H as _ _ H. lra.
  - apply vec3_eq; unfold vsub; cbn [vx vy vz]; ring.
Qed.

(** C45 is false for quadrilaterals. *)
Theorem C45_parallelogram_refuted : exists a b c d, parallelogram a b c d /\ quad_area a b c d <> quad_true_area a b c d.
Proof. exact c45_quad_exists. Qed.
Print Assumptions C45_parallelogram_refuted.
(* existential: the witness is part of the statement *)

(** C46 for quadrilaterals: accepted in every orientation, with orthonormal axes, z along
    the normal. *)
Theorem C46_quad pi pj pk pl : triangle pi pj pk ->
  exists c, quad_csys pi pj pk pl = Some c /\ frame (cs_x c) (cs_y c) (cs_z c)
    /\ cs_z c = vscale (/ length3 (normal3 pi pj pk)) (normal3 pi pj pk)
    /\ cs_O c = vscale (1/4) (vadd (vadd (vadd pi pj) pk) pl).
Proof. exact (c46_quad pi pj pk pl). Qed.
Print Assumptions C46_quad.
Example C46_quad_example : triangle (V3 0 0 0) (V3 0 1 0) (V3 1 1 0).
Proof.
  unfold triangle, normal3, zero3, cross, vsub; cbn [vx vy vz]. intros H. injection H as _ _ H. lra.
Qed.

(** C46 for triangles: accepted with the right axes unless the normal points (nearly)
    downwards, and rejected then. *)
Theorem C46_tria_partial pi pj pk : triangle pi pj pk ->
  let n := vscale (/ length3 (normal3 pi pj pk)) (normal3 pi pj pk) in
  (1 / 1000000000 <= length3 (vadd n (V3 0 0 1)) ->
   exists c, tria_csys pi pj pk = Some c /\ frame (cs_x c) (cs_y c) (cs_z c) /\ cs_z c = n
     /\ cs_O c = vscale (1/3) (vadd (vadd pi pj) pk))
  /\ (length3 (vadd n (V3 0 0 1)) < 1 / 1000000000 -> tria_csys pi pj pk = None).
Proof. exact (c46_tria_partial pi pj pk). Qed.
Print Assumptions C46_tria_partial.
Example C46_tria_example : let a := V3 0 0 0 in let b := V3 1 0 0 in let c := V3 0 1 0 in
  1 / 1000000000 <= length3 (vadd (vscale (/ length3 (normal3 a b c)) (normal3 a b c)) (V3 0 0 1)).
Proof.
  intros a b c. assert (E : normal3 a b c = V3 0 0 1) by (apply vec3_eq; unfold normal3, cross, vsub, a, b, c; cbn [vx vy vz]; ring).
  rewrite E. assert (L : length3 (V3 0 0 1) = 1).
  { unfold length3; cbn [vx vy vz]. replace (0^2 + 0^2 + 1^2) with (1 * 1) by ring. apply sqrt_square. lra. }
  rewrite L. unfold length3, vadd, vscale; cbn [vx vy vz].
  match goal with |- _ <= sqrt ?x => replace x with (2 * 2) by field end. rewrite sqrt_square; lra.
Qed.

(** C46 is false: a triangle drawn clockwise in the horizontal plane is rejected. *)
Theorem C46_tria_refuted : exists a b c, triangle a b c /\ tria_csys a b c = None.
Proof. exact c46_tria_refuted. Qed.
Print Assumptions C46_tria_refuted.
(* existential: the witness is part of the statement *)
