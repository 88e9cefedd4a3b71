(** Vocabulary for the statements about coordinate systems. *)
From Coq Require Import Reals List.
From Verif Require Import Base Csys.
Local Open Scope R_scope.

Definition zero3 : vec3 := V3 0 0 0.

(** The three axes have unit length and are mutually perpendicular. *)
Definition orthonormal (x y z : vec3) : Prop :=
  dot3 x x = 1 /\ dot3 y y = 1 /\ dot3 z z = 1 /\ dot3 x y = 0 /\ dot3 y z = 0 /\ dot3 z x = 0.
(** x, y, z form a right-handed triple. *)
Definition right_handed (x y z : vec3) : Prop :=
  cross x y = z /\ cross y z = x /\ cross z x = y.
Definition frame (x y z : vec3) : Prop := orthonormal x y z /\ right_handed x y z.

(** O, A, B lie on one line. *)
Definition on_a_line (O A B : vec3) : Prop :=
  exists d s t, vsub A O = vscale s d /\ vsub B O = vscale t d.

(** The vector [v] turned about the unit vector [a] by the angle [th] (Rodrigues). *)
Definition turned (a : vec3) (th : R) (v : vec3) : vec3 :=
  vadd (vadd (vscale (cos th) v) (vscale (sin th) (cross a v)))
       (vscale ((1 - cos th) * dot3 a v) a).

Definition distance (p q : vec3) : R := sqrt ((vx p - vx q)^2 + (vy p - vy q)^2 + (vz p - vz q)^2).

(** End points that the beam constructor can tell apart: either clearly apart in plan,
    or on one vertical (within the tolerance) and clearly apart in elevation. *)
Definition plan_offset (p q : vec3) : R := Rmax (Rabs (vx p - vx q)) (Rabs (vy p - vy q)).
Definition rise (p q : vec3) : R := Rabs (vz p - vz q).
Definition well_separated (p q : vec3) : Prop :=
  2 / 1000000000 <= plan_offset p q
  \/ (plan_offset p q < 1 / 1000000000 /\ 2 / 1000000000 <= rise p q).
