(** Vocabulary for the statements about shells: geometry of triangles and
    quadrilaterals, in-plane motions. *)
From Coq Require Import Reals List Arith.
From Verif Require Import Base Csys SpecGeom.
Import ListNotations.
Local Open Scope R_scope.

(** The vector perpendicular to the triangle a b c whose length is twice its area. *)
Definition normal3 (a b c : vec3) : vec3 := cross (vsub b a) (vsub c a).
Definition triangle (a b c : vec3) : Prop := normal3 a b c <> zero3.
Definition length3 (v : vec3) : R := sqrt (vx v ^ 2 + vy v ^ 2 + vz v ^ 2).
Definition triangle_area (a b c : vec3) : R := 1/2 * length3 (normal3 a b c).
(** A plane quadrilateral a b c d without re-entrant corner (all four corner triangles
    are turned the same way), and its area: half the product of the diagonals. *)
Definition plane_quad (a b c d : vec3) : Prop :=
  exists n, length3 n = 1
  /\ (exists k1, 0 < k1 /\ normal3 a b c = vscale k1 n)
  /\ (exists k2, 0 < k2 /\ normal3 b c d = vscale k2 n)
  /\ (exists k3, 0 < k3 /\ normal3 c d a = vscale k3 n)
  /\ (exists k4, 0 < k4 /\ normal3 d a b = vscale k4 n).
Definition quad_true_area (a b c d : vec3) : R := 1/2 * length3 (cross (vsub c a) (vsub d b)).
(** Opposite sides are equal. *)
Definition parallelogram (a b c d : vec3) : Prop := triangle a b c /\ vsub b a = vsub c d.
(** Also perpendicular and as long as their neighbours. *)
Definition square3 (a b c d : vec3) : Prop :=
  parallelogram a b c d /\ dot3 (vsub b a) (vsub d a) = 0 /\ dot3 (vsub b a) (vsub b a) = dot3 (vsub d a) (vsub d a).

(** ** Element equations *)
(** In-plane coordinates of a point in axes with the given origin. *)
Definition plane_x (o ex p : vec3) : R := dot3 (vsub p o) ex.
(** Six equations per corner: 0, 1, 2 displacements, 3, 4, 5 rotations.  A membrane with
    drilling rotations uses 0, 1, 5, one without 0, 1, a plate 2, 3, 4. *)
Definition membrane3_dof (i k : nat) : nat := (6 * i + nth k [0; 1; 5] 0)%nat.
Definition membrane2_dof (i k : nat) : nat := (6 * i + nth k [0; 1] 0)%nat.
Definition plate_dof (i k : nat) : nat := (6 * i + nth k [2; 3; 4] 0)%nat.
(** Force of an element matrix at an equation. *)
Definition elem_force (n : nat) (K : nat -> nat -> R) (x : nat -> R) (r : nat) : R := rsum n (fun c => K r c * x c).
(** In-plane displacement field u, v of a triangle with corners (xs i, ys i). *)
Definition plane_field (xs ys : nat -> R) (u v : R -> R -> R) (q : nat) : R :=
  let i := (q / 6)%nat in
  match (q mod 6)%nat with O => u (xs i) (ys i) | S O => v (xs i) (ys i) | _ => 0 end.
