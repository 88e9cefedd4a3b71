(** Vocabulary for the statements about beam elements: end displacements, deflection
    fields and strain energy of a straight prismatic member.  Nothing here refers to
    the matrices of the model. *)
From Coq Require Import Reals List.
From Verif Require Import Base Csys.
Import ListNotations.
Local Open Scope R_scope.

(** ** End displacements *)
(** Displacement and rotation of the start (i) and of the end (j). *)
Record ends : Type := Ends { d_i : vec3; r_i : vec3; d_j : vec3; r_j : vec3 }.

(** The block of six numbers of node [i] in a global vector. *)
Definition disp_at (x : nat -> R) (i : nat) : vec3 := V3 (x (6*i)%nat) (x (6*i+1)%nat) (x (6*i+2)%nat).
Definition rot_at (x : nat -> R) (i : nat) : vec3 := V3 (x (6*i+3)%nat) (x (6*i+4)%nat) (x (6*i+5)%nat).
Definition ends_at (x : nat -> R) (i j : nat) : ends :=
  Ends (disp_at x i) (rot_at x i) (disp_at x j) (rot_at x j).

(** Components along axes ex, ey, ez. *)
Definition along (ex ey ez v : vec3) : vec3 := V3 (dot3 ex v) (dot3 ey v) (dot3 ez v).
Definition ends_along (ex ey ez : vec3) (d : ends) : ends :=
  Ends (along ex ey ez (d_i d)) (along ex ey ez (r_i d)) (along ex ey ez (d_j d)) (along ex ey ez (r_j d)).

(** ** Strain energy *)
(** Bending in one plane: transverse end displacements v1, v2 and end slopes t1, t2
    (slope = derivative of the deflection); twice the energy, as a bilinear form. *)
Definition bend (EI l : R) (v1 t1 v2 t2 v1' t1' v2' t2' : R) : R :=
  EI / l * ((t1 - t2) * (t1' - t2')
            + 3 * (t1 + t2 + 2 * (v1 - v2) / l) * (t1' + t2' + 2 * (v1' - v2') / l)).

Record stiff : Type := Stiff { EA : R; GJ : R; EI2 : R; EI3 : R }.

(** Work done by the forces belonging to [d] on [e], both in member axes: stretching,
    twisting, bending in the x-y plane (slope = rotation about z, EI3) and bending in
    the x-z plane (slope = minus the rotation about y, EI2). *)
Definition member_work (s : stiff) (l : R) (d e : ends) : R :=
  EA s / l * (vx (d_i d) - vx (d_j d)) * (vx (d_i e) - vx (d_j e))
  + GJ s / l * (vx (r_i d) - vx (r_j d)) * (vx (r_i e) - vx (r_j e))
  + bend (EI3 s) l (vy (d_i d)) (vz (r_i d)) (vy (d_j d)) (vz (r_j d))
                   (vy (d_i e)) (vz (r_i e)) (vy (d_j e)) (vz (r_j e))
  + bend (EI2 s) l (vz (d_i d)) (- vy (r_i d)) (vz (d_j d)) (- vy (r_j d))
                   (vz (d_i e)) (- vy (r_i e)) (vz (d_j e)) (- vy (r_j e)).

(** ** The twelve end values as one vector, in the order of the element matrices *)
Definition vec12 (d : ends) : list R :=
  [vx (d_i d); vy (d_i d); vz (d_i d); vx (r_i d); vy (r_i d); vz (r_i d);
   vx (d_j d); vy (d_j d); vz (d_j d); vx (r_j d); vy (r_j d); vz (r_j d)].
Definition work12 (f : nat -> R) (d : ends) : R :=
  rsum 12 (fun i => f i * nth i (vec12 d) 0).
(** x' A y for a 12x12 matrix *)
Definition form12 (A : nat -> nat -> R) (d e : ends) : R :=
  rsum 12 (fun i => rsum 12 (fun j => nth i (vec12 d) 0 * A i j * nth j (vec12 e) 0)).

(** ** Rigid motions *)
(** Displacement of the point [p] under the translation [t] and the small rotation [w]. *)
Definition moved (t w p : vec3) : vec3 := vadd t (cross w p).
(** End displacements of a member lying on the local x axis from 0 to l. *)
Definition rigid_ends (t w : vec3) (l : R) : ends :=
  Ends (moved t w (V3 0 0 0)) w (moved t w (V3 l 0 0)) w.

(** ** Deflection fields: polynomials c0 + c1 x + c2 x^2 + c3 x^3 *)
Record poly : Type := Poly { c0 : R; c1 : R; c2 : R; c3 : R }.
Definition peval (p : poly) (x : R) : R := c0 p + c1 p * x + c2 p * x^2 + c3 p * x^3.
Definition pder (p : poly) : poly := Poly (c1 p) (2 * c2 p) (3 * c3 p) 0.
Definition linear_poly (p : poly) : Prop := c2 p = 0 /\ c3 p = 0.

(** Axial u, transverse v and w, twist t, with u and t linear. *)
Record field : Type := Field { f_u : poly; f_v : poly; f_w : poly; f_t : poly }.
Definition beam_field (f : field) : Prop := linear_poly (f_u f) /\ linear_poly (f_t f).

(** Displacement and rotation of the cross section at x. *)
Definition disp_x (f : field) (x : R) : vec3 := V3 (peval (f_u f) x) (peval (f_v f) x) (peval (f_w f) x).
Definition rot_x (f : field) (x : R) : vec3 :=
  V3 (peval (f_t f) x) (- peval (pder (f_w f)) x) (peval (pder (f_v f)) x).
Definition ends_of_field (f : field) (l : R) : ends :=
  Ends (disp_x f 0) (rot_x f 0) (disp_x f l) (rot_x f l).

(** Forces on the part of the member behind the cut at x: axial force EA u', torque
    GJ t', shears - EI3 v''' and - EI2 w''', moments - EI2 w'' (about y) and EI3 v''
    (about z). *)
Definition cut_force (s : stiff) (f : field) (x : R) : vec3 :=
  V3 (EA s * peval (pder (f_u f)) x)
     (- (EI3 s * peval (pder (pder (pder (f_v f)))) x))
     (- (EI2 s * peval (pder (pder (pder (f_w f)))) x)).
Definition cut_moment (s : stiff) (f : field) (x : R) : vec3 :=
  V3 (GJ s * peval (pder (f_t f)) x)
     (- (EI2 s * peval (pder (pder (f_w f))) x))
     (EI3 s * peval (pder (pder (f_v f))) x).
(** Forces that the nodes exert on the member: minus the cut forces at the start, the
    cut forces at the end. *)
Definition end_forces (s : stiff) (f : field) (l : R) : ends :=
  Ends (vscale (-1) (cut_force s f 0)) (vscale (-1) (cut_moment s f 0))
       (cut_force s f l) (cut_moment s f l).

(** ** Virtual work of member loads *)
Definition ramp (a b l x : R) : R := a + (b - a) * x / l.
(** Power per unit length of the line loads p (axial), q2, q3 (transverse) and t
    (torque), each running linearly from its value at the start to that at the end. *)
Definition line_power (l pi pj qi2 qj2 qi3 qj3 ti tj : R) (f : field) (x : R) : R :=
  ramp pi pj l x * peval (f_u f) x + ramp qi2 qj2 l x * peval (f_v f) x
  + ramp qi3 qj3 l x * peval (f_w f) x + ramp ti tj l x * peval (f_t f) x.
(** Work of a force and a moment acting on the section at x. *)
Definition point_work (F M : vec3) (f : field) (x : R) : R := dot3 F (disp_x f x) + dot3 M (rot_x f x).

(** Stiffnesses that are nonnegative, positive. *)
Definition stiff_nonneg (s : stiff) : Prop := 0 <= EA s /\ 0 <= GJ s /\ 0 <= EI2 s /\ 0 <= EI3 s.
Definition stiff_pos (s : stiff) : Prop := 0 < EA s /\ 0 < GJ s /\ 0 < EI2 s /\ 0 < EI3 s.

(** The highest released number of a member; the quadratic form of a 12x12 matrix. *)
Definition last_released (rel : list bool) (n : nat) : Prop :=
  (n < 12)%nat /\ nth n rel false = true /\ forall m, (n < m < 12)%nat -> nth m rel false = false.
Definition quad12 (k : mat) (x : nat -> R) : R := rsum 12 (fun i => rsum 12 (fun j => x i * k i j * x j)).
