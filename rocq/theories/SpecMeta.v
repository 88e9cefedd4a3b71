(** Vocabulary for the statements about the symbolic scripts: strain energy and kinetic energy of
    a member as integrals over its length, interpolation, and Hooke's law.  Nothing here refers to
    the model. *)
From Coq Require Import Reals List.
From Verif Require Import Base Csys SpecBeam.
Import ListNotations.
Local Open Scope R_scope.

(** ** Members *)
(** Strain energy per unit length (twice, as a bilinear form): stretching, twisting and bending
    in the two planes. *)
Definition strain_density (s : stiff) (f g : field) (x : R) : R :=
  EA s * peval (pder (f_u f)) x * peval (pder (f_u g)) x
  + GJ s * peval (pder (f_t f)) x * peval (pder (f_t g)) x
  + EI3 s * peval (pder (pder (f_v f))) x * peval (pder (pder (f_v g))) x
  + EI2 s * peval (pder (pder (f_w f))) x * peval (pder (pder (f_w g))) x.
(** Kinetic energy per unit length with inertia [mu], [mv], [mw] against motion along the axes and
    [mt] against twisting. *)
Definition motion_density (mu mv mw mt : R) (f g : field) (x : R) : R :=
  mu * peval (f_u f) x * peval (f_u g) x + mv * peval (f_v f) x * peval (f_v g) x
  + mw * peval (f_w f) x * peval (f_w g) x + mt * peval (f_t f) x * peval (f_t g) x.

(** ** Interpolation *)
Fixpoint combine_with (N v : list R) : R :=
  match N, v with a :: N', b :: v' => a * b + combine_with N' v' | _, _ => 0 end.
(** values and slopes of a cubic at the two ends of a member of length [l] *)
Definition hermite_data (p : poly) (l : R) : list R :=
  [peval p 0; peval (pder p) 0; peval p l; peval (pder p) l].
(** the same for the product p(x) q(y) on a square of side [l]: values, x-slopes, y-slopes and
    mixed slopes at the corners (0,0), (l,0), (0,l), (l,l) *)
Definition hermite_data2 (p q : poly) (l : R) : list R :=
  let corners (F : R -> R -> R) := [F 0 0; F l 0; F 0 l; F l l] in
  corners (fun x y => peval p x * peval q y) ++ corners (fun x y => peval (pder p) x * peval q y)
  ++ corners (fun x y => peval p x * peval (pder q) y) ++ corners (fun x y => peval (pder p) x * peval (pder q) y).

(** ** Hooke's law *)
(** Stress and strain by their six components; the strains are the engineering ones. *)
Record six : Type := Six { c_xx : R; c_yy : R; c_zz : R; c_xy : R; c_yz : R; c_zx : R }.
(** A bar pulled with stress s stretches by s/E and thins by nu s/E; a shear stress t makes the
    angle 2 (1 + nu) t / E. *)
Definition hooke (E nu : R) (s e : six) : Prop :=
  c_xx e = (c_xx s - nu * (c_yy s + c_zz s)) / E
  /\ c_yy e = (c_yy s - nu * (c_zz s + c_xx s)) / E
  /\ c_zz e = (c_zz s - nu * (c_xx s + c_yy s)) / E
  /\ c_xy e = 2 * (1 + nu) * c_xy s / E
  /\ c_yz e = 2 * (1 + nu) * c_yz s / E
  /\ c_zx e = 2 * (1 + nu) * c_zx s / E.
(** the symmetric 3x3 array of stresses *)
Definition is_stress (s : six) (a : nat -> nat -> R) : Prop :=
  a 0%nat 0%nat = c_xx s /\ a 1%nat 1%nat = c_yy s /\ a 2%nat 2%nat = c_zz s
  /\ a 0%nat 1%nat = c_xy s /\ a 1%nat 0%nat = c_xy s /\ a 1%nat 2%nat = c_yz s /\ a 2%nat 1%nat = c_yz s
  /\ a 2%nat 0%nat = c_zx s /\ a 0%nat 2%nat = c_zx s.
(** work of stresses on strains *)
Definition work6 (s e : six) : R :=
  c_xx s * c_xx e + c_yy s * c_yy e + c_zz s * c_zz e + c_xy s * c_xy e + c_yz s * c_yz e + c_zx s * c_zx e.
