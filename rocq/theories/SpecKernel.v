(** Vocabulary for the statements about the shell kernels: fields in the plane, the
    nodal values they have at the corners, quadrature schemes.  Independent of the model. *)
From Coq Require Import Reals List Arith.
From Verif Require Import Base.
Import ListNotations.
Local Open Scope R_scope.

(** A linear displacement field and its strain (exx, eyy, gxy). *)
Record lin : Type := Lin { l_0 : R; l_x : R; l_y : R }.
Definition lin_at (f : lin) (x y : R) : R := l_0 f + l_x f * x + l_y f * y.
Definition strain (u v : lin) : list R := [l_x u; l_y v; l_y u + l_x v].
(** A quadratic deflection w, its slopes and its curvature (-w,xx -w,yy -2w,xy). *)
Record quadratic : Type := Quadratic { w_0 : R; w_x : R; w_y : R; w_xx : R; w_xy : R; w_yy : R }.
Definition defl (w : quadratic) (x y : R) : R :=
  w_0 w + w_x w * x + w_y w * y + 1/2 * w_xx w * x^2 + w_xy w * x * y + 1/2 * w_yy w * y^2.
Definition slope_x (w : quadratic) (x y : R) : R := w_x w + w_xx w * x + w_xy w * y.
Definition slope_y (w : quadratic) (x y : R) : R := w_y w + w_xy w * x + w_yy w * y.
Definition curvature (w : quadratic) : list R := [- w_xx w; - w_yy w; -2 * w_xy w].
Definition plane_w (w : quadratic) : Prop := w_xx w = 0 /\ w_xy w = 0 /\ w_yy w = 0.

(** Corner coordinates x1 y1 x2 y2 ... *)
Definition at_x (xl : list R) (i : nat) : R := nth (2 * i) xl 0.
Definition at_y (xl : list R) (i : nat) : R := nth (2 * i + 1) xl 0.
(** Corner values of a membrane (u, v and a drilling rotation per corner) and of a plate
    (w, rotation about x, rotation about y). *)
Definition membrane_values (xl : list R) (u v : lin) (drill : R) (c : nat) : R :=
  let i := (c / 3)%nat in
  match (c mod 3)%nat with
  | O => lin_at u (at_x xl i) (at_y xl i) | S O => lin_at v (at_x xl i) (at_y xl i) | _ => drill
  end.
Definition plate_values (xl : list R) (w : quadratic) (c : nat) : R :=
  let i := (c / 3)%nat in
  match (c mod 3)%nat with
  | O => defl w (at_x xl i) (at_y xl i) | S O => slope_y w (at_x xl i) (at_y xl i) | _ => - slope_x w (at_x xl i) (at_y xl i)
  end.

(** Force at an equation, and work *)
Definition force (n : nat) (K : nat -> nat -> R) (x : nat -> R) (r : nat) : R := rsum n (fun c => K r c * x c).
Definition work (n : nat) (K : nat -> nat -> R) (x y : nat -> R) : R :=
  rsum n (fun i => rsum n (fun j => x i * K i j * y j)).
(** The elastic energy density (twice) of an isotropic plate in plane stress: strain (a, b, g). *)
Definition plane_stress (E mu : R) (s e : list R) : R :=
  E / (1 - mu^2) * (nth 0 s 0 * nth 0 e 0 + mu * (nth 0 s 0 * nth 1 e 0 + nth 1 s 0 * nth 0 e 0) + nth 1 s 0 * nth 1 e 0
     + (1 - mu) / 2 * nth 2 s 0 * nth 2 e 0).

(** Signed area of the triangle of three corners (twice), and of the quadrilateral. *)
Definition turn (xl : list R) (i j k : nat) : R :=
  (at_x xl j - at_x xl i) * (at_y xl k - at_y xl i) - (at_x xl k - at_x xl i) * (at_y xl j - at_y xl i).
Definition convex4 (xl : list R) : Prop :=
  0 < turn xl 0 1 2 /\ 0 < turn xl 1 2 3 /\ 0 < turn xl 2 3 0 /\ 0 < turn xl 3 0 1.
Definition area4 (xl : list R) : R := (turn xl 0 1 2 + turn xl 0 2 3) / 2.

(** Quadrature schemes: (point, weight) *)
Definition weights (q : list (R * R * R)) : R := lsum (map snd q).
Definition inside_square (q : list (R * R * R)) : Prop :=
  Forall (fun p => -1 <= fst (fst p) <= 1 /\ -1 <= snd (fst p) <= 1 /\ 0 <= snd p) q.
(** Exact for linear functions on the square. *)
Definition exact_square (q : list (R * R * R)) : Prop :=
  weights q = 4 /\ lsum (map (fun p => snd p * fst (fst p)) q) = 0 /\ lsum (map (fun p => snd p * snd (fst p)) q) = 0.
Definition positive_weights (q : list (R * R * R)) : Prop := Forall (fun p => 0 <= snd p) q.

(** ** Discrete Kirchhoff plates *)
(** Three values per corner: deflection, rotation about x, rotation about y; the slopes
    there are w,x = - rotation about y and w,y = rotation about x. *)
Definition corner_w (d : nat -> R) (i : nat) : R := d (3 * i)%nat.
Definition corner_gx (d : nat -> R) (i : nat) : R := - d (3 * i + 2)%nat.
Definition corner_gy (d : nat -> R) (i : nat) : R := d (3 * i + 1)%nat.
(** At the middle of a side i j the slope across the side is the mean of the ends, the
    slope along the side that of the cubic with the values and slopes of the ends:
    3/2 (wj - wi)/l - 1/4 (si + sj). *)
Definition side_x (xl : list R) (i j : nat) : R := at_x xl j - at_x xl i.
Definition side_y (xl : list R) (i j : nat) : R := at_y xl j - at_y xl i.
Definition side_l (xl : list R) (i j : nat) : R := sqrt (side_x xl i j ^ 2 + side_y xl i j ^ 2).
Definition mid_along (xl : list R) (d : nat -> R) (i j : nat) : R :=
  let along k := (corner_gx d k * side_x xl i j + corner_gy d k * side_y xl i j) / side_l xl i j in
  3/2 * (corner_w d j - corner_w d i) / side_l xl i j - 1/4 * (along i + along j).
Definition mid_across (xl : list R) (d : nat -> R) (i j : nat) : R :=
  let across k := (- corner_gx d k * side_y xl i j + corner_gy d k * side_x xl i j) / side_l xl i j in
  (across i + across j) / 2.
Definition mid_gx (xl : list R) (d : nat -> R) (i j : nat) : R :=
  (mid_along xl d i j * side_x xl i j - mid_across xl d i j * side_y xl i j) / side_l xl i j.
Definition mid_gy (xl : list R) (d : nat -> R) (i j : nat) : R :=
  (mid_along xl d i j * side_y xl i j + mid_across xl d i j * side_x xl i j) / side_l xl i j.
(** The quadratic on a triangle with the given values at the corners 0, 1, 2 and at the
    middles of the sides 12, 20, 01, in the coordinates that are 0,0 at corner 0, 1,0 at
    corner 1 and 0,1 at corner 2. *)
Definition quadratic3 (v0 v1 v2 v12 v20 v01 : R) (s r : R) : R :=
  let z := 1 - s - r in
  z * (2 * z - 1) * v0 + s * (2 * s - 1) * v1 + r * (2 * r - 1) * v2
  + 4 * s * r * v12 + 4 * r * z * v20 + 4 * s * z * v01.
Definition tri_s (xl : list R) (x y : R) : R :=
  ((x - at_x xl 0) * (at_y xl 2 - at_y xl 0) - (at_x xl 2 - at_x xl 0) * (y - at_y xl 0)) / turn xl 0 1 2.
Definition tri_r (xl : list R) (x y : R) : R :=
  ((at_x xl 1 - at_x xl 0) * (y - at_y xl 0) - (x - at_x xl 0) * (at_y xl 1 - at_y xl 0)) / turn xl 0 1 2.
Definition tri_slope_x (xl : list R) (d : nat -> R) (x y : R) : R :=
  quadratic3 (corner_gx d 0) (corner_gx d 1) (corner_gx d 2) (mid_gx xl d 1 2) (mid_gx xl d 2 0) (mid_gx xl d 0 1)
    (tri_s xl x y) (tri_r xl x y).
Definition tri_slope_y (xl : list R) (d : nat -> R) (x y : R) : R :=
  quadratic3 (corner_gy d 0) (corner_gy d 1) (corner_gy d 2) (mid_gy xl d 1 2) (mid_gy xl d 2 0) (mid_gy xl d 0 1)
    (tri_s xl x y) (tri_r xl x y).
(** The same on the square [-1,1]x[-1,1] with corners (-1,-1), (1,-1), (1,1), (-1,1):
    eight-node interpolation. *)
Definition corner8 (a b s r : R) : R := 1/4 * (1 + a * s) * (1 + b * r) * (a * s + b * r - 1).
Definition eight (v0 v1 v2 v3 v01 v12 v23 v30 : R) (s r : R) : R :=
  corner8 (-1) (-1) s r * v0 + corner8 1 (-1) s r * v1 + corner8 1 1 s r * v2 + corner8 (-1) 1 s r * v3
  + 1/2 * (1 - s^2) * (1 - r) * v01 + 1/2 * (1 - r^2) * (1 + s) * v12
  + 1/2 * (1 - s^2) * (1 + r) * v23 + 1/2 * (1 - r^2) * (1 - s) * v30.
Definition quad_slope_x (xl : list R) (d : nat -> R) : R -> R -> R :=
  eight (corner_gx d 0) (corner_gx d 1) (corner_gx d 2) (corner_gx d 3)
    (mid_gx xl d 0 1) (mid_gx xl d 1 2) (mid_gx xl d 2 3) (mid_gx xl d 3 0).
Definition quad_slope_y (xl : list R) (d : nat -> R) : R -> R -> R :=
  eight (corner_gy d 0) (corner_gy d 1) (corner_gy d 2) (corner_gy d 3)
    (mid_gy xl d 0 1) (mid_gy xl d 1 2) (mid_gy xl d 2 3) (mid_gy xl d 3 0).

(** A parallelogram; one whose first side extends in x as far as its last one in y (for
    instance a square, or a square sheared), so that the corners of the two Jacobian
    diagonal entries agree. *)
Definition is_parallelogram (xl : list R) : Prop :=
  at_x xl 0 + at_x xl 2 = at_x xl 1 + at_x xl 3 /\ at_y xl 0 + at_y xl 2 = at_y xl 1 + at_y xl 3.
Definition square_like (xl : list R) : Prop :=
  at_x xl 0 + at_x xl 2 = at_x xl 1 + at_x xl 3 /\ at_y xl 0 + at_y xl 2 = at_y xl 1 + at_y xl 3
  /\ at_x xl 1 - at_x xl 0 = at_y xl 3 - at_y xl 0.
Definition rectangle (a b : R) : list R := [0; 0; a; 0; a; b; 0; b].
(** The curvature with x taken a/b times too long and y b/a times. *)
Definition stretched (a b : R) (w : quadratic) : list R :=
  [- (a / b) * w_xx w; - (b / a) * w_yy w; - (a / b + b / a) * w_xy w].
(** The four-point Gauss rule on the square and the mid-side rule on the triangle. *)
Definition gauss2 : list (R * R * R) :=
  [(/ sqrt 3, / sqrt 3, 1); (- / sqrt 3, / sqrt 3, 1); (/ sqrt 3, - / sqrt 3, 1); (- / sqrt 3, - / sqrt 3, 1)].
Definition tri_mid : list (R * R * R) := [(1/2, 0, 1/6); (1/2, 1/2, 1/6); (0, 1/2, 1/6)].

(** Six values per corner: u, v, w, rotations w,y and - w,x, no drilling. *)
Definition shell_field (xl : list R) (u v : lin) (w : quadratic) (c : nat) : R :=
  let i := (c / 6)%nat in let x := at_x xl i in let y := at_y xl i in
  match (c mod 6)%nat with
  | 0%nat => lin_at u x y | 1%nat => lin_at v x y | 2%nat => defl w x y
  | 3%nat => slope_y w x y | 4%nat => - slope_x w x y | _ => 0
  end.

(** Consecutive corners are distinct. *)
Definition four_sides (xl : list R) : Prop :=
  forall i j, In (i, j) [(0, 1); (1, 2); (2, 3); (3, 0)]%nat -> at_x xl i <> at_x xl j \/ at_y xl i <> at_y xl j.
