(** Specification of the mass of the whole model, in global axes. *)
From Coq Require Import Reals Lra Lia List String.
From Verif Require Import Base Csys Sections Element Load FeModel Assembly Solver Post Api SpecGeom SpecBeam SpecAsm.
Import ListNotations.
Local Open Scope R_scope.

(** Density and area of a member. *)
Definition density (p : bprop) : R := match p with PSection s => m_rho (s_mat s) | PSimple _ _ _ _ _ _ r => r end.
Definition area (p : bprop) : R := match p with PSection s => s_A s | PSimple _ _ A _ _ _ _ => A end.
Definition member_mass (b : beam) : R :=
  density (b_prop b) * area (b_prop b) * distance (n_loc (b_ni b)) (n_loc (b_nj b)).
(** Half of the mass sits at each end; each rotation has the inertia 1e-12. *)
Definition member_inertia (m : fem) (x y : nat -> R) (b : beam) : R :=
  let d := beam_ends m b x in let e := beam_ends m b y in
  member_mass b / 2 * (dot3 (d_i d) (d_i e) + dot3 (d_j d) (d_j e))
  + 1 / 1000000000000 * (dot3 (r_i d) (r_i e) + dot3 (r_j d) (r_j e)).
(** The six masses of a node act on its six equations. *)
Definition node_inertia (m : fem) (x y : nat -> R) (kn : string * node) : R :=
  rsum 6 (fun i => nth i (n_mass (snd kn)) 0 * x (6 * num m (fst kn) + i)%nat * y (6 * num m (fst kn) + i)%nat).
(** Kinetic form of a translation. *)
Definition node_mass_along (t : vec3) (kn : string * node) : R :=
  nth 0 (n_mass (snd kn)) 0 * vx t ^ 2 + nth 1 (n_mass (snd kn)) 0 * vy t ^ 2 + nth 2 (n_mass (snd kn)) 0 * vz t ^ 2.
