(** Vocabulary for the statements about results, loads read back and masses. *)
From Coq Require Import Reals List String Arith Bool.
From Verif Require Import Base Csys Sections Element Load FeModel Assembly Solver Post Api SpecApi SpecGeom SpecBeam SpecAsm.
Import ListNotations.
Local Open Scope R_scope.

(** End displacements of a member in its own axes, for nodal values [u]. *)
Definition member_ends (m : fem) (b : beam) (u : nat -> R) : ends :=
  let p := n_loc (b_ni b) in let q := n_loc (b_nj b) in
  ends_along (axis_x p q) (axis_y p q) (axis_z p q) (beam_ends m b u).
(** The six stored values of the [i]-th node, as far as they exist. *)
Definition block_of (i : nat) (d v : list R) : Prop :=
  (List.length v <= 6)%nat /\ forall k, (k < 6)%nat -> nth_error v k = nth_error d (6 * i + k).
(** Deformation at [loc] (0 start, 1 end) of a member. *)
Definition deformation (ext : externals) (w : world) (b : string) (loc : R) (c : string) : option (list R) :=
  match answer ext w (OpBeamDeformation b loc c) with RVec v => Some v | _ => None end.

(** Calls of the setters of a load pattern. *)
Inductive pat_call : Type :=
| PNodalLoad (n : string) (v : six R)
| PNodalDisp (n : string) (v : six R)
| PLineLoad (b : string) (pi pj qi2 qj2 qi3 qj3 ti tj : R)
| PPointLoad (b : string) (v : six R) (r : R).
Definition pat_do (c : pat_call) (p : pattern) : pattern :=
  match c with
  | PNodalLoad n (a, b, c, d, e, f) => pat_set_nodal_load n a b c d e f p
  | PNodalDisp n (a, b, c, d, e, f) => pat_set_nodal_disp n a b c d e f p
  | PLineLoad b pi pj qi2 qj2 qi3 qj3 ti tj => pat_set_beam_dist b pi pj qi2 qj2 qi3 qj3 ti tj p
  | PPointLoad b (a, b', c, d, e, f) r => pat_set_beam_conc b a b' c d e f r p
  end.
Fixpoint pat_run (l : list pat_call) (p : pattern) : pattern :=
  match l with [] => p | c :: r => pat_run r (pat_do c p) end.
Definition line_load_on (b : string) (c : pat_call) : Prop :=
  match c with PLineLoad b' _ _ _ _ _ _ _ _ => b' = b | _ => False end.

(** A pattern loads a node. *)
Definition loads_node (n : string) (p : pattern) : Prop := In n (map fst (p_nodal p)).
(** All load vectors have six components (as the setters store them). *)
Definition six_wide (p : pattern) : Prop := forall n v, In (n, v) (p_nodal p) -> List.length v = 6%nat.
(** The patterns of a case with their factor and the values of their curve. *)
Definition history_of (heap : list pattern) (c : lcase) (k : string) (p : pattern) (factor : R) (values : list R) : Prop :=
  In (k, factor) (c_factor c) /\ (exists a times, dget k (c_pats c) = Some a /\ nth_error heap a = Some p /\ dget k (c_curve c) = Some (times, values)).
(** Length of the longest curve. *)
Definition longest (c : lcase) (L : nat) : Prop :=
  (forall k cv, In (k, cv) (c_curve c) -> (List.length (snd cv) <= L)%nat)
  /\ (c_curve c = [] -> L = O) /\ (c_curve c <> [] -> exists k cv, In (k, cv) (c_curve c) /\ List.length (snd cv) = L).

(** A sequence of [add_node] calls with [check_dup=True]. *)
Fixpoint add_merged (l : list (string * (R * R * R))) (m : fem) : option fem :=
  match l with
  | [] => Some m
  | (k, (x, y, z)) :: r => bindO (model_add_node k x y z true m) (fun hm => add_merged r (snd hm))
  end.
