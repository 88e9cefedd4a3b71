(** Beam theory of frames, independent of finite elements: deflections of the members as
    functions of the place, the differential equations of the straight bar, jumps at
    concentrated loads, and the balance of the nodes. *)
From Coq Require Import Reals List String Arith Bool Sorting.Permutation.
From Verif Require Import Base Csys Sections Element Load FeModel Assembly Solver Post Api SpecApi SpecGeom SpecBeam SpecAsm SpecElim SpecLoad SpecSolve SpecStatics.
Import ListNotations.
Local Open Scope R_scope.

(** ** One member *)
(** Axial displacement u, deflections v (along y) and w (along z), twist t of the sections of a
    member, with the derivatives that the theory speaks of. *)
Record shape : Type := Shape {
  su0 : R -> R; su1 : R -> R;
  sv0 : R -> R; sv1 : R -> R; sv2 : R -> R; sv3 : R -> R;
  sw0 : R -> R; sw1 : R -> R; sw2 : R -> R; sw3 : R -> R;
  st0 : R -> R; st1 : R -> R }.
(** Loads per length: along the member, along y, along z, torque. *)
Record line_load : Type := LineLoad { lp : R -> R; lq2 : R -> R; lq3 : R -> R; lt : R -> R }.
(** Equations of the bar at x: EA u'' = - p, EI3 v'''' = q2, EI2 w'''' = q3, GJ t'' = - t. *)
Definition obeys (s : stiff) (q : line_load) (f : shape) (x : R) : Prop :=
  (derivable_pt_lim (su0 f) x (su1 f x) /\ derivable_pt_lim (fun y => EA s * su1 f y) x (- lp q x))
  /\ (derivable_pt_lim (sv0 f) x (sv1 f x) /\ derivable_pt_lim (sv1 f) x (sv2 f x) /\ derivable_pt_lim (sv2 f) x (sv3 f x)
      /\ derivable_pt_lim (fun y => EI3 s * sv3 f y) x (lq2 q x))
  /\ (derivable_pt_lim (sw0 f) x (sw1 f x) /\ derivable_pt_lim (sw1 f) x (sw2 f x) /\ derivable_pt_lim (sw2 f) x (sw3 f x)
      /\ derivable_pt_lim (fun y => EI2 s * sw3 f y) x (lq3 q x))
  /\ (derivable_pt_lim (st0 f) x (st1 f x) /\ derivable_pt_lim (fun y => GJ s * st1 f y) x (- lt q x)).
(** Displacement and rotation of the section at x; force and moment on the part before x. *)
Definition section_d (f : shape) (x : R) : vec3 := V3 (su0 f x) (sv0 f x) (sw0 f x).
Definition section_r (f : shape) (x : R) : vec3 := V3 (st0 f x) (- sw1 f x) (sv1 f x).
Definition inner_force (s : stiff) (f : shape) (x : R) : vec3 := V3 (EA s * su1 f x) (- (EI3 s * sv3 f x)) (- (EI2 s * sw3 f x)).
Definition inner_moment (s : stiff) (f : shape) (x : R) : vec3 := V3 (GJ s * st1 f x) (- (EI2 s * sw2 f x)) (EI3 s * sv2 f x).
(** A concentrated force and moment at a place of the member. *)
Record point_load : Type := PointLoad { pt_x : R; pt_F : vec3; pt_M : vec3 }.
(** Where the load P rests, the sections of both sides move together, and the load balances the
    jump of the inner forces. *)
Definition jumps (s : stiff) (P : point_load) (f g : shape) : Prop :=
  section_d g (pt_x P) = section_d f (pt_x P) /\ section_r g (pt_x P) = section_r f (pt_x P)
  /\ vadd (inner_force s g (pt_x P)) (pt_F P) = inner_force s f (pt_x P)
  /\ vadd (inner_moment s g (pt_x P)) (pt_M P) = inner_moment s f (pt_x P).
(** From the place a on, where the shape is f, up to l, where it is g, past the loads Ps. *)
Fixpoint reaches (s : stiff) (q : line_load) (l a : R) (f : shape) (Ps : list point_load) (g : shape) : Prop :=
  match Ps with
  | [] => g = f /\ a <= l /\ forall x, a <= x <= l -> obeys s q f x
  | P :: Ps => a <= pt_x P /\ (forall x, a <= x <= pt_x P -> obeys s q f x)
      /\ exists f', jumps s P f f' /\ reaches s q l (pt_x P) f' Ps g
  end.
(** A bar of length l under the loads, with end displacements d, on which the nodes exert e. *)
Definition bar_theory (s : stiff) (l : R) (q : line_load) (pts : list point_load) (d e : ends) : Prop :=
  exists Ps f g, Permutation Ps pts /\ reaches s q l 0 f Ps g
  /\ d = Ends (section_d f 0) (section_r f 0) (section_d g l) (section_r g l)
  /\ e = Ends (vscale (-1) (inner_force s f 0)) (vscale (-1) (inner_moment s f 0)) (inner_force s g l) (inner_moment s g l).

(** ** Loads of a case *)
(** Line load: each of the four parts runs linearly from its entry at the start (0 to 3) to that
    at the end (6 to 9); the patterns of the case add up with their factors. *)
Definition entry_sum (w : world) (c k : string) (i : nat) : R :=
  lsum (map (fun fp => fst fp * load_entry (p_dist (snd fp)) k i) (applied w c)).
Definition case_line (w : world) (c k : string) (l : R) : line_load :=
  let q := entry_sum w c k in
  LineLoad (ramp (q 0%nat) (q 6%nat) l) (ramp (q 1%nat) (q 7%nat) l) (ramp (q 2%nat) (q 8%nat) l) (ramp (q 3%nat) (q 9%nat) l).
(** Concentrated loads: force (0-2) and moment (3-5) at the fraction (6) of the length. *)
Definition case_points (w : world) (c k : string) (l : R) : list point_load :=
  flat_map (fun fp => match dget k (p_conc (snd fp)) with
                      | Some v => [PointLoad (nth 6 v 0 * l) (vscale (fst fp) (triple (p_conc (snd fp)) k 0)) (vscale (fst fp) (triple (p_conc (snd fp)) k 3))]
                      | None => [] end) (applied w c).
Definition case_force (w : world) (c k : string) : vec3 := vsum (map (fun fp => vscale (fst fp) (node_force (snd fp) k)) (applied w c)).
Definition case_moment (w : world) (c k : string) : vec3 := vsum (map (fun fp => vscale (fst fp) (node_moment (snd fp) k)) (applied w c)).
(** Concentrated loads rest on their members. *)
Definition on_members (w : world) (c : string) (m : fem) : Prop :=
  forall k b fp v, In (k, b) (f_beams m) -> In fp (applied w c) -> dget k (p_conc (snd fp)) = Some v -> 0 <= nth 6 v 0 <= 1.

(** ** The frame *)
Definition global_of (b : beam) (v : vec3) : vec3 :=
  let s := n_loc (b_ni b) in let e := n_loc (b_nj b) in to_global (axis_x s e) (axis_y s e) (axis_z s e) v.
(** Force and moment that the node k exerts on the members that meet there. *)
Definition exerted_force (m : fem) (acts : string -> ends) (k : string) : vec3 :=
  vsum (map (fun kb => vadd (if String.eqb (n_name (b_ni (snd kb))) k then global_of (snd kb) (d_i (acts (fst kb))) else zero3)
                            (if String.eqb (n_name (b_nj (snd kb))) k then global_of (snd kb) (d_j (acts (fst kb))) else zero3)) (f_beams m)).
Definition exerted_moment (m : fem) (acts : string -> ends) (k : string) : vec3 :=
  vsum (map (fun kb => vadd (if String.eqb (n_name (b_ni (snd kb))) k then global_of (snd kb) (r_i (acts (fst kb))) else zero3)
                            (if String.eqb (n_name (b_nj (snd kb))) k then global_of (snd kb) (r_j (acts (fst kb))) else zero3)) (f_beams m)).
Definition among (F M : vec3) (j : nat) : R := nth j [vx F; vy F; vz F; vx M; vy M; vz M] 0.
(** The displacements U of the nodes and the actions on the members are those of the frame under a
    case: nothing moves at a support, every member obeys the theory of the bar between the
    displaced nodes, and every node is balanced in every direction that is free. *)
Record frame_theory (ext : externals) (w : world) (c : string) (m : fem) (U : nat -> R) (acts : string -> ends) : Prop := {
  th_supports : permitted ext w c U;
  th_members : forall k b, In (k, b) (f_beams m) ->
    let s := n_loc (b_ni b) in let e := n_loc (b_nj b) in let l := distance s e in
    bar_theory (props (b_prop b)) l (case_line w c k l) (case_points w c k l)
      (ends_along (axis_x s e) (axis_y s e) (axis_z s e) (beam_ends m b U)) (acts k);
  th_nodes : forall k n j, In (k, n) (f_nodes m) -> (j < 6)%nat -> ~ restrained_for ext w c (6 * num m k + j)%nat ->
    among (exerted_force m acts k) (exerted_moment m acts k) j = among (case_force w c k) (case_moment w c k) j }.
