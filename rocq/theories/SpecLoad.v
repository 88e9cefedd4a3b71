(** Vocabulary for the statements about the assembled load vector. *)
From Coq Require Import Reals List String Arith Bool.
From Verif Require Import Base Csys Sections Element Load FeModel Assembly Solver Post Api SpecApi SpecGeom SpecBeam SpecAsm.
Import ListNotations.
Local Open Scope R_scope.

(** The load vector that the assembled state belonging to [w] yields for a case. *)
Definition load_vector (w : world) (case : string) : option coo :=
  bindO (read_asb w) (fun a => assemble_f a case 0).

(** The factors and patterns of a case, as stored with the assembly. *)
Definition applied_in (heap : list pattern) (c : lcase) : list (R * pattern) :=
  flat_map (fun kf => match dget (fst kf) (c_pats c) with
                      | Some ad => match nth_error heap ad with Some p => [(snd kf, p)] | None => [] end
                      | None => [] end) (c_factor c).
Definition applied (w : world) (case : string) : list (R * pattern) :=
  match read_asb w with
  | Some a => match dget case (a_cases a) with Some c => applied_in (a_heap a) c | None => [] end
  | None => []
  end.

(** ** Loads of one pattern *)
Definition load_entry (d : dict (list R)) (k : string) (i : nat) : R :=
  match dget k d with Some v => nth i v 0 | None => 0 end.
Definition triple (d : dict (list R)) (k : string) (i : nat) : vec3 :=
  V3 (load_entry d k i) (load_entry d k (i+1)) (load_entry d k (i+2)).
(** Force and moment at a node, in global axes. *)
Definition node_force (p : pattern) (k : string) : vec3 := triple (p_nodal p) k 0.
Definition node_moment (p : pattern) (k : string) : vec3 := triple (p_nodal p) k 3.

(** Line load on a member of length l, member axes: intensities at the start (entries 0-3:
    axial, two transverse, torque) and at the end (6-9), linear in between.  Resultant and
    moment about the start: integrals of the trapezium and of its moment. *)
Definition trapezium (a b l : R) : R := l * (a + b) / 2.
Definition trapezium_moment (a b l : R) : R := l * l * (a + 2 * b) / 6.
Definition line_force (p : pattern) (k : string) (l : R) : vec3 :=
  let q := load_entry (p_dist p) k in V3 (trapezium (q 0%nat) (q 6%nat) l) (trapezium (q 1%nat) (q 7%nat) l) (trapezium (q 2%nat) (q 8%nat) l).
Definition line_moment (p : pattern) (k : string) (l : R) : vec3 :=
  let q := load_entry (p_dist p) k in
  V3 (trapezium (q 3%nat) (q 9%nat) l) (- trapezium_moment (q 2%nat) (q 8%nat) l) (trapezium_moment (q 1%nat) (q 7%nat) l).
(** Concentrated load: force (0-2) and moment (3-5) at the fraction r (6) of the length. *)
Definition point_force (p : pattern) (k : string) : vec3 := triple (p_conc p) k 0.
Definition point_moment (p : pattern) (k : string) (l : R) : vec3 :=
  vadd (triple (p_conc p) k 3) (cross (V3 (load_entry (p_conc p) k 6 * l) 0 0) (triple (p_conc p) k 0)).

(** Member axes to global axes. *)
Definition to_global (ex ey ez v : vec3) : vec3 :=
  vadd (vscale (vx v) ex) (vadd (vscale (vy v) ey) (vscale (vz v) ez)).
Definition member_force (p : pattern) (k : string) (b : beam) : vec3 :=
  let s := n_loc (b_ni b) in let e := n_loc (b_nj b) in let l := distance s e in
  to_global (axis_x s e) (axis_y s e) (axis_z s e) (vadd (line_force p k l) (point_force p k)).
(** about the origin *)
Definition member_moment (p : pattern) (k : string) (b : beam) : vec3 :=
  let s := n_loc (b_ni b) in let e := n_loc (b_nj b) in let l := distance s e in
  vadd (cross s (member_force p k b))
       (to_global (axis_x s e) (axis_y s e) (axis_z s e) (vadd (line_moment p k l) (point_moment p k l))).

(** Resultants of a pattern on a model. *)
Definition pattern_force (m : fem) (p : pattern) : vec3 :=
  vadd (vsum (map (fun kn => node_force p (fst kn)) (f_nodes m)))
       (vsum (map (fun kb => member_force p (fst kb) (snd kb)) (f_beams m))).
Definition pattern_moment (m : fem) (p : pattern) : vec3 :=
  vadd (vsum (map (fun kn => vadd (cross (n_loc (snd kn)) (node_force p (fst kn))) (node_moment p (fst kn))) (f_nodes m)))
       (vsum (map (fun kb => member_moment p (fst kb) (snd kb)) (f_beams m))).

(** The same member drawn from its end to its start. *)
Definition flipped (o : op) : op :=
  match o with
  | OpAddBeam n s e sec => OpAddBeam n e s sec
  | OpAddSimpleBeam n s e E mu A I2 I3 J rho => OpAddSimpleBeam n e s E mu A I2 I3 J rho
  | _ => o
  end.
