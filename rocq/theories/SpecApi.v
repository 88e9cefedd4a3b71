(** Vocabulary for the statements about call histories.  Everything here speaks
    about calls, answers and histories; none of it is used by the model. *)
From Coq Require Import Reals List String Arith Bool.
From Verif Require Import Base Csys Sections Element Load FeModel Assembly Solver Post Api.
Import ListNotations.
Local Open Scope R_scope.

(** ** Histories *)

(** The answer of one call, and the state after it. *)
Definition answer (ext : externals) (w : world) (o : op) : out := snd (step ext w o).
Definition after (ext : externals) (w : world) (o : op) : world := fst (step ext w o).

(** A condition on every call of a history, evaluated in the state the call is made in. *)
Fixpoint guarded (ext : externals) (G : world -> op -> Prop) (w : world) (ops : list op) : Prop :=
  match ops with
  | [] => True
  | o :: r => G w o /\ guarded ext G (after ext w o) r
  end.

(** The list of (call, answer) pairs of a history. *)
Fixpoint trace (ext : externals) (w : world) (ops : list op) : list (op * out) :=
  match ops with
  | [] => []
  | o :: r => (o, answer ext w o) :: trace ext (after ext w o) r
  end.

(** Two states nobody can tell apart by any continuation. *)
Definition indistinguishable (ext : externals) (w1 w2 : world) : Prop :=
  forall cont, outs ext w1 cont = outs ext w2 cont.

(** The name is listed by [get_node_names]. *)
Definition node_exists (ext : externals) (w : world) (n : string) : Prop :=
  exists l, answer ext w OpNodeNames = RNames l /\ In n l.

(** [add_node] is only called with names not yet listed by [get_node_names]. *)
Definition fresh_node (ext : externals) (w : world) (o : op) : Prop :=
  match o with
  | OpAddNode n _ _ _ => exists l, answer ext w OpNodeNames = RNames l /\ ~ In n l
  | _ => True
  end.
Definition never_readds_nodes (ext : externals) (ops : list op) : Prop :=
  guarded ext (fresh_node ext) init ops.

(** Beams and shells are only added under names not yet listed. *)
Definition fresh_element (ext : externals) (w : world) (o : op) : Prop :=
  match o with
  | OpAddBeam n _ _ _ | OpAddSimpleBeam n _ _ _ _ _ _ _ _ _ =>
      exists l, answer ext w OpBeamNames = RNames l /\ ~ In n l
  | OpAddShell n _ _ _ _ _ => exists l, answer ext w OpShellNames = RNames l /\ ~ In n l
  | _ => True
  end.
Definition never_readds_elements (ext : externals) (ops : list op) : Prop :=
  guarded ext (fresh_element ext) init ops.

(** [add_loadpattern] is only called with names that are not yet patterns
    (get_all_nodal_load answers None). *)
Definition fresh_pattern (ext : externals) (w : world) (o : op) : Prop :=
  match o with
  | OpAddPattern p => answer ext w (OpGetAllNodalLoad p) = RNone
  | _ => True
  end.
Definition never_recreates_patterns (ext : externals) (ops : list op) : Prop :=
  guarded ext (fresh_pattern ext) init ops.

(** ** Bookkeeping on traces only: [upd] digests each (call, answer) pair; a
    successful save remembers the current value, a successful load returns to it. *)
Fixpoint track {A : Type} (upd : A -> op -> out -> A) (cur : A) (saved : string -> option A)
    (tr : list (op * out)) : A :=
  match tr with
  | [] => cur
  | (OpSave f, RBool true) :: r =>
      track upd cur (fun g => if String.eqb g f then Some cur else saved g) r
  | (OpLoad f, RBool true) :: r =>
      track upd (match saved f with Some a => a | None => cur end) saved r
  | (o, x) :: r => track upd (upd cur o x) saved r
  end.

Definition nothing_saved {A : Type} : string -> option A := fun _ => None.

(** names in order of first successful addition *)
Definition note_name (adds : op -> option string) (cur : list string) (o : op) (x : out) : list string :=
  match adds o, x with
  | Some n, RBool true => if in_dec string_dec n cur then cur else cur ++ [n]
  | _, _ => cur
  end.
Definition adds_node (o : op) : option string :=
  match o with OpAddNode n _ _ _ => Some n | _ => None end.
Definition adds_beam (o : op) : option string :=
  match o with
  | OpAddBeam n _ _ _ => Some n
  | OpAddSimpleBeam n _ _ _ _ _ _ _ _ _ => Some n
  | _ => None
  end.
Definition adds_shell (o : op) : option string :=
  match o with OpAddShell n _ _ _ _ _ => Some n | _ => None end.

(** ** Observations: what can be asked about a single named thing *)
Inductive obs : Type :=
| ObNodeLocation (n : string)
| ObNodeRestraint (n : string)            (* entry of the global table *)
| ObCaseRestraint (c n : string)          (* entry of the table of a case *)
| ObBeamNodes (b : string)
| ObBeamLocation (b : string)
| ObShellNodes (s : string)
| ObNodalLoad (p n : string)
| ObDisplacement (n c : string)
| ObDeformation (b : string) (loc : R) (c : string)
| ObListed (kind n : string).             (* is the name listed (node/beam/shell)? *)

Fixpoint lookup {A : Type} (k : string) (l : list (string * A)) : option A :=
  match l with
  | [] => None
  | (k', v) :: r => if string_dec k k' then Some v else lookup k r
  end.

Definition entry (n : string) (x : out) : option (list bool) :=
  match x with RFlags d => lookup n d | _ => None end.

Inductive view : Type := VOut (x : out) | VFlags (f : option (list bool)) | VMember (b : bool).

Definition observe (ext : externals) (w : world) (b : obs) : view :=
  match b with
  | ObNodeLocation n => VOut (answer ext w (OpNodeLocation n))
  | ObNodeRestraint n => VFlags (entry n (answer ext w (OpNodeRestraints None)))
  | ObCaseRestraint c n => VFlags (entry n (answer ext w (OpNodeRestraints (Some c))))
  | ObBeamNodes b => VOut (answer ext w (OpBeamNodeNames b))
  | ObBeamLocation b => VOut (answer ext w (OpBeamLocation b))
  | ObShellNodes s => VOut (answer ext w (OpShellNodeNames s))
  | ObNodalLoad p n => VOut (answer ext w (OpGetNodalLoad p n))
  | ObDisplacement n c => VOut (answer ext w (OpNodalDisp n c))
  | ObDeformation b loc c => VOut (answer ext w (OpBeamDeformation b loc c))
  | ObListed kind n =>
      VMember (match answer ext w (if string_dec kind "node" then OpNodeNames
                                   else if string_dec kind "beam" then OpBeamNames else OpShellNames) with
               | RNames l => if in_dec string_dec n l then true else false
               | _ => false
               end)
  end.

(** Which calls are entitled to change which observations. *)
Definition may_change (o : op) (b : obs) : Prop :=
  match o, b with
  | OpAddNode n _ _ _, ObNodeLocation n' => n = n'
  | OpAddNode n _ _ _, ObListed k n' => k = "node"%string /\ n = n'
  | OpSetRestraint n _, ObNodeRestraint n' => n = n'
  | OpSetCaseRestraint c n _, ObCaseRestraint c' n' => c = c' /\ n = n'
  | OpAddStatic c, ObCaseRestraint c' _ => c = c'
  | OpAddModal c, ObCaseRestraint c' _ => c = c'
  | (OpAddBeam b _ _ _ | OpAddSimpleBeam b _ _ _ _ _ _ _ _ _), (ObBeamNodes b' | ObBeamLocation b') => b = b'
  | (OpAddBeam b _ _ _ | OpAddSimpleBeam b _ _ _ _ _ _ _ _ _), ObListed k b' => k = "beam"%string /\ b = b'
  | OpAddShell s _ _ _ _ _, ObShellNodes s' => s = s'
  | OpAddShell s _ _ _ _ _, ObListed k s' => k <> "node"%string /\ k <> "beam"%string /\ s = s'
  | OpAddPattern p, ObNodalLoad p' _ => p = p'
  | OpSetNodalLoad p n _, ObNodalLoad p' n' => p = p' /\ n = n'
  | OpAssemble, (ObDisplacement _ _ | ObDeformation _ _ _) => True
  | OpSolveStatic c, (ObDisplacement _ c' | ObDeformation _ _ c') => c = c'
  | OpLoad _, (ObDisplacement _ _ | ObDeformation _ _ _) => False
  | OpLoad _, _ => True
  | _, _ => False
  end.

(** ** Read-after-write: the query that belongs to a setter and the answer expected *)
Definition reads_back (o : op) : option (op * (out -> Prop)) :=
  match o with
  | OpAddNode n x y z => Some (OpNodeLocation n, fun a => a = RVec3 (V3 x y z))
  | OpAddBeam b s e _ => Some (OpBeamNodeNames b, fun a => a = RNames [s; e])
  | OpAddSimpleBeam b s e _ _ _ _ _ _ _ => Some (OpBeamNodeNames b, fun a => a = RNames [s; e])
  | OpAddPattern p => Some (OpGetAllNodalLoad p, fun a => a = RDict [])
  | OpSetRestraint n fl =>
      Some (OpNodeRestraints None, fun a => entry n a = Some (list6 fl))
  | OpSetCaseRestraint c n fl =>
      Some (OpNodeRestraints (Some c), fun a => entry n a = Some (list6 fl))
  | OpSetNodalLoad p n f => Some (OpGetNodalLoad p n, fun a => a = RVec (list6 f))
  | OpAddStatic c => Some (OpNodeRestraints (Some c), fun a => a = RFlags [])
  | OpAddModal c => Some (OpNodeRestraints (Some c), fun a => a = RFlags [])
  | _ => None
  end.

(** Element matrices (local axes) of the beam stored under a name. *)
Definition element_K (w : world) (b : string) : option mat := bindO (dget b (f_beams (k_fem (w_core w)))) beam_K.
Definition element_M (w : world) (b : string) : option mat := option_map beam_M (dget b (f_beams (k_fem (w_core w)))).
(** Section stored under a name. *)
Definition stored_section (w : world) (s : string) : option bsection := dget s (f_bsecs (k_fem (w_core w))).
(** Number of a node in the current model and in the assembled model. *)
Definition number_of (w : world) (n : string) : option nat := model_node_hid n (k_fem (w_core w)).

(** Calls that neither assemble nor solve; calls that solve or read results. *)
Definition is_edit (o : op) : Prop :=
  match o with OpAssemble | OpSolveStatic _ => False | _ => True end.
Definition is_result (o : op) : Prop :=
  match o with OpSolveStatic _ | OpNodalDisp _ _ | OpBeamDeformation _ _ _ => True | _ => False end.
(** Calls that do not look at the files of the work directory. *)
Definition is_model_call (o : op) : Prop :=
  match o with
  | OpLoad _ | OpSolveStatic _ | OpNodalDisp _ _ | OpAllNodalDisp _ | OpBeamDeformation _ _ _ => False
  | _ => True
  end.
Definition is_Load (o : op) : Prop := match o with OpLoad _ => True | _ => False end.

(** ** The factor table of a case, as the caller knows it *)
Fixpoint assign (p : string) (k : R) (l : list (string * R)) : list (string * R) :=
  match l with
  | [] => [(p, k)]
  | (q, x) :: r => if string_dec p q then (q, k) :: r else (q, x) :: assign p k r
  end.
Definition note_factor (c : string) (cur : list (string * R)) (o : op) (x : out) : list (string * R) :=
  match o, x with
  | (OpAddStatic c' | OpAddModal c'), RBool true => if string_dec c c' then [] else cur
  | OpAddCasePattern c' p k, RBool true => if string_dec c c' then assign p k cur else cur
  | _, _ => cur
  end.
(** Component [i] of an answer that is a vector. *)
Definition component (i : nat) (x : out) : R := match x with RVec v => nth i v 0 | _ => 0 end.
(** Sum over a factor table. *)
Fixpoint total (f : string -> R) (l : list (string * R)) : R :=
  match l with [] => 0 | (p, k) :: r => k * f p + total f r end.
(** [get_nodal_f(node)] of the case object stored under a name. *)
Definition case_load (w : world) (c n : string) : option (list R) :=
  bindO (dget c (k_cases (w_core w))) (fun lc => case_nodal_f (k_heap (w_core w)) lc n 0).

(** the two ways of adding a beam, with their section defined *)
Definition adds_beam_between (w : world) (o : op) (a b : string) : Prop :=
  (exists name sec s, o = OpAddBeam name a b sec /\ dget sec (f_bsecs (k_fem (w_core w))) = Some s)
  \/ (exists name E mu A I2 I3 J rho, o = OpAddSimpleBeam name a b E mu A I2 I3 J rho).
