(** What the caller has told about loads: load patterns, load cases and the restraints of a
    case, read off the calls and their answers alone. *)
From Coq Require Import Reals List String Arith Bool.
From Verif Require Import Base Csys Sections Element Load FeModel Assembly Solver Post Api SpecTold.
Import ListNotations.
Local Open Scope R_scope.

(** One pattern: force and moment at a node; a line load on a beam (values at the start,
    then at the end: axial, two transverse, torque); a concentrated load on a beam and its
    place as a fraction of the length. *)
Record sheet : Type := Sheet {
  s_node : string -> option (six R);
  s_line : string -> option ((R * R * R * R) * (R * R * R * R));
  s_point : string -> option (six R * R) }.
Definition no_loads : sheet := Sheet (fun _ => None) (fun _ => None) (fun _ => None).
(** One case: its kind, for the name of a pattern which creation of that name it applies and
    the factor, and its own restraints. *)
Record order : Type := Order {
  o_kind : ckind;
  o_uses : string -> option (nat * R);
  o_rest : string -> option (six bool) }.
Definition no_uses (k : ckind) : order := Order k (fun _ => None) (fun _ => None).
(** Creating a pattern under a name already used makes a new, empty one; cases that apply the
    old one keep it.  So patterns are known by the number of their creation. *)
Record loads : Type := Loads {
  l_made : nat;
  l_last : string -> option nat;
  l_sheet : nat -> sheet;
  l_case : string -> option order }.
Definition no_cases : loads := Loads 0 (fun _ => None) (fun _ => no_loads) (fun _ => None).
Record lbook : Type := LBook { l_now : loads; l_kept : string -> option loads; l_built : option loads }.
Definition lblank : lbook := LBook no_cases (fun _ => None) None.

Definition at_number {A} (i : nat) (v : A) (f : nat -> A) : nat -> A := fun j => if Nat.eqb j i then v else f j.
Definition write (p : string) (f : sheet -> sheet) (t : loads) : loads :=
  match l_last t p with
  | Some i => Loads (l_made t) (l_last t) (at_number i (f (l_sheet t i)) (l_sheet t)) (l_case t)
  | None => t
  end.
Definition instruct (c : string) (f : order -> order) (t : loads) : loads :=
  match l_case t c with
  | Some o => Loads (l_made t) (l_last t) (l_sheet t) (put c (f o) (l_case t))
  | None => t
  end.

(** One accepted call. *)
Definition tell_load (o : op) (t : loads) : loads :=
  match o with
  | OpAddPattern n => Loads (S (l_made t)) (put n (l_made t) (l_last t)) (at_number (l_made t) no_loads (l_sheet t)) (l_case t)
  | OpSetNodalLoad p n f => write p (fun s => Sheet (put n f (s_node s)) (s_line s) (s_point s)) t
  | OpSetBeamDist p b pi pj qi2 qj2 qi3 qj3 ti tj =>
      write p (fun s => Sheet (s_node s) (put b ((pi, qi2, qi3, ti), (pj, qj2, qj3, tj)) (s_line s)) (s_point s)) t
  | OpSetBeamConc p b F r => write p (fun s => Sheet (s_node s) (s_line s) (put b (F, r) (s_point s))) t
  | OpAddStatic n => Loads (l_made t) (l_last t) (l_sheet t) (put n (no_uses KStatic) (l_case t))
  | OpAddModal n => Loads (l_made t) (l_last t) (l_sheet t) (put n (no_uses KModal) (l_case t))
  | OpAddCasePattern c p factor =>
      match l_last t p with
      | Some i => instruct c (fun o => Order (o_kind o) (put p (i, factor) (o_uses o)) (o_rest o)) t
      | None => t
      end
  | OpSetCaseRestraint c n fl => instruct c (fun o => Order (o_kind o) (o_uses o) (put n fl (o_rest o))) t
  | _ => t
  end.
Definition note_load (b : lbook) (entry : op * out) : lbook :=
  match entry with
  | (OpSave f, RBool true) => LBook (l_now b) (put f (l_now b) (l_kept b)) (l_built b)
  | (OpLoad f, RBool true) => match l_kept b f with Some t => LBook t (l_kept b) (l_built b) | None => b end
  | (OpAssemble, RBool true) => LBook (l_now b) (l_kept b) (Some (l_now b))
  | (o, RBool true) => LBook (tell_load o (l_now b)) (l_kept b) (l_built b)
  | _ => b
  end.
Definition load_notes (log : list (op * out)) : lbook := fold_left note_load log lblank.

(** What the stored patterns and cases hold.  A line load is stored in twelve places with
    zeros for the two end moments of each end. *)
Definition line_row (v : (R * R * R * R) * (R * R * R * R)) : list R :=
  match v with ((a1, a2, a3, a4), (b1, b2, b3, b4)) => [a1; a2; a3; a4; 0; 0; b1; b2; b3; b4; 0; 0] end.
Definition point_row (v : six R * R) : list R := as_list (fst v) ++ [snd v].
Definition holds_sheet (p : pattern) (s : sheet) : Prop :=
  (forall k, dget k (p_nodal p) = option_map as_list (s_node s k))
  /\ (forall k, dget k (p_dist p) = option_map line_row (s_line s k))
  /\ (forall k, dget k (p_conc p) = option_map point_row (s_point s k)).
Definition holds_order (c : lcase) (o : order) : Prop :=
  c_kind c = o_kind o
  /\ (forall k, dget k (c_pats c) = option_map fst (o_uses o k))
  /\ (forall k, dget k (c_factor c) = option_map snd (o_uses o k))
  /\ (forall k, dget k (c_rest c) = option_map as_list (o_rest o k)).
Definition holds_loads (heap : list pattern) (cases : dict lcase) (t : loads) : Prop :=
  List.length heap = l_made t
  /\ (forall i p, nth_error heap i = Some p -> holds_sheet p (l_sheet t i))
  /\ (forall k, match dget k cases, l_case t k with
               | Some c, Some o => holds_order c o
               | None, None => True
               | _, _ => False end).

(** The load told at a node in one of the six directions, for one creation of a pattern. *)
Definition node_load (t : loads) (i : nat) (n : string) (d : nat) : R :=
  match s_node (l_sheet t i) n with Some f => nth d (as_list f) 0 | None => 0 end.
(** The loads told for a case at a node, over the pattern names [names]. *)
Definition told_at (t : loads) (o : order) (names : list string) (n : string) (d : nat) : R :=
  lsum (map (fun p => match o_uses o p with Some (i, factor) => factor * node_load t i n d | None => 0 end) names).
(** Only nodes are loaded by a case. *)
Definition nodes_only (t : loads) (o : order) : Prop := forall p i factor, o_uses o p = Some (i, factor) ->
  forall b, s_line (l_sheet t i) b = None /\ s_point (l_sheet t i) b = None.
