(** Model of /repo/hyperstatic/common/csys.py and /repo/hyperstatic/common/tolerance.py. *)
From Coq Require Import Reals Lra List.
From Verif Require Import Base.
Local Open Scope R_scope.

(** numpy arrays of length 3 *)
Record vec3 : Type := V3 { vx : R; vy : R; vz : R }.

Definition vadd (a b : vec3) : vec3 := V3 (vx a + vx b) (vy a + vy b) (vz a + vz b).
Definition vsub (a b : vec3) : vec3 := V3 (vx a - vx b) (vy a - vy b) (vz a - vz b).
Definition vscale (k : R) (a : vec3) : vec3 := V3 (k * vx a) (k * vy a) (k * vz a).
(** [a / k] for an array [a] and a scalar [k] *)
Definition vdiv (a : vec3) (k : R) : vec3 := V3 (vx a / k) (vy a / k) (vz a / k).
(** [np.cross] *)
Definition cross (a b : vec3) : vec3 :=
  V3 (vy a * vz b - vz a * vy b) (vz a * vx b - vx a * vz b) (vx a * vy b - vy a * vx b).
Definition dot3 (a b : vec3) : R := vx a * vx b + vy a * vy b + vz a * vz b.
(** [np.linalg.norm] *)
Definition norm (a : vec3) : R := sqrt (dot3 a a).
(** [np.max(np.abs(a))] *)
Definition max_abs (a : vec3) : R := Rmax (Rabs (vx a)) (Rmax (Rabs (vy a)) (Rabs (vz a))).
Definition vnthc (a : vec3) (i : nat) : R :=
  match i with O => vx a | 1%nat => vy a | _ => vz a end.

(** tolerance.py:3,7-8: default absolute tolerance 1e-9.  Simplification: the
    class-level setters [set_abs_tol]/[set_rel_tol] are never called by the core
    and are not modelled. *)
Definition abs_tol : R := 1 / 1000000000.

(** csys.py:9-33: a coordinate system is its origin and the rows x, y, z of the
    3x3 matrix [__T].  Simplification: the name / uuid is not kept. *)
Record csys : Type := CS { cs_O : vec3; cs_x : vec3; cs_y : vec3; cs_z : vec3 }.

(** csys.py:80-82 [transform_matrix] *)
Definition cs_T (c : csys) : mat :=
  fun i j => vnthc (match i with O => cs_x c | 1%nat => cs_y c | _ => cs_z c end) j.

(** csys.py:10-33 [Cartesian.__init__]; [None] is the exception of line 27. *)
Definition cartesian (O A B : vec3) : option csys :=
  let OA := vsub A O in
  let OB := vsub B O in
  if Rltb (max_abs (cross OA OB)) abs_tol then None
  else
    let x := vdiv OA (norm OA) in
    let z0 := cross OA OB in
    let z := vdiv z0 (norm z0) in
    let y := cross z x in
    Some (CS O x y z).

(** csys.py:35-58 [create_by_normal].  Simplification: a zero normal or guide
    would give NaN components in python (with [norm = 0] the Coq quotient is an
    unspecified real instead); the theorems assume a non-zero normal. *)
Definition create_by_normal (O n g0 : vec3) : option csys :=
  let w := vdiv n (norm n) in
  let g := vdiv g0 (norm g0) in
  if (Rltb (norm (vsub w g)) abs_tol || Rltb (norm (vadd w g)) abs_tol)%bool then None
  else
    let u0 := cross g w in
    let u := vdiv u0 (norm u0) in
    let v := cross w u in
    cartesian O (vadd O u) (vadd O v).

(** csys.py:7,85: [scipy Rotation.from_quat([x,y,z,w])] normalises the quaternion
    (and rejects a zero one); [apply] multiplies by the rotation matrix of the unit
    quaternion. *)
Definition quat_apply (qx qy qz qw : R) (v : vec3) : vec3 :=
  V3 ((qx*qx - qy*qy - qz*qz + qw*qw) * vx v + (2*(qx*qy - qz*qw)) * vy v + (2*(qx*qz + qy*qw)) * vz v)
     ((2*(qx*qy + qz*qw)) * vx v + (- qx*qx + qy*qy - qz*qz + qw*qw) * vy v + (2*(qy*qz - qx*qw)) * vz v)
     ((2*(qx*qz - qy*qw)) * vx v + (2*(qy*qz + qx*qw)) * vy v + (- qx*qx - qy*qy + qz*qz + qw*qw) * vz v).

Definition rot_apply (qx qy qz qw : R) (v : vec3) : option vec3 :=
  let n := sqrt (qx*qx + qy*qy + qz*qz + qw*qw) in
  if Reqb n 0 then None
  else Some (quat_apply (qx/n) (qy/n) (qz/n) (qw/n) v).

(** [self.__T = r.apply(self.__T)]: every row is rotated. *)
Definition rot_csys (qx qy qz qw : R) (c : csys) : option csys :=
  match rot_apply qx qy qz qw (cs_x c), rot_apply qx qy qz qw (cs_y c), rot_apply qx qy qz qw (cs_z c) with
  | Some x, Some y, Some z => Some (CS (cs_O c) x y z)
  | _, _, _ => None
  end.

(** csys.py:84-94 *)
Definition rotate_about_external_x (th : R) (c : csys) := rot_csys (1 * sin (th/2)) 0 0 (cos (th/2)) c.
Definition rotate_about_external_y (th : R) (c : csys) := rot_csys 0 (1 * sin (th/2)) 0 (cos (th/2)) c.
Definition rotate_about_external_z (th : R) (c : csys) := rot_csys 0 0 (1 * sin (th/2)) (cos (th/2)) c.
(** csys.py:96-109 *)
Definition rotate_about_axis (a : vec3) (th : R) (c : csys) :=
  rot_csys (vx a * sin (th/2)) (vy a * sin (th/2)) (vz a * sin (th/2)) (cos (th/2)) c.
Definition rotate_about_x (th : R) (c : csys) := rotate_about_axis (cs_x c) th c.
Definition rotate_about_y (th : R) (c : csys) := rotate_about_axis (cs_y c) th c.
Definition rotate_about_z (th : R) (c : csys) := rotate_about_axis (cs_z c) th c.
(** csys.py:111-122; a zero vector gives NaN in python, rejected by [from_quat]
    (here: explicit test). *)
Definition rotate_about_vec (x y z th : R) (c : csys) : option csys :=
  let l := norm (V3 x y z) in
  if Reqb l 0 then None
  else rot_csys (x / l * sin (th/2)) (y / l * sin (th/2)) (z / l * sin (th/2)) (cos (th/2)) c.

(** csys.py:124-146 [set_by_3pts]: replaces the origin, tests collinearity with the
    cosine, and assigns attributes [__x], [__z], [__y] that no property reads; the
    matrix [__T] (which [x], [y], [z] and [transform_matrix] read) is left as it
    was.  Coincident points divide by zero (NaN) in python and are accepted with
    [cos] = NaN; here the guard is stated on exact reals. *)
Definition set_by_3pts (O A B : vec3) (c : csys) : csys + csys :=
  let OA := vsub A O in
  let OB := vsub B O in
  let cosv := dot3 OA OB / norm OA / norm OB in
  let c' := CS O (cs_x c) (cs_y c) (cs_z c) in
  (* [inr]: exception raised, the origin has already been replaced (line 137) *)
  if Rltb (Rabs (Rabs cosv - 1)) (1 / 100000000) then inr c' else inl c'.

(** csys.py:152-155 *)
Definition align_with_global (c : csys) : csys :=
  CS (cs_O c) (V3 1 0 0) (V3 0 1 0) (V3 0 0 1).
