(** Vocabulary for structures of which one part is not connected with the rest: no beam and no
    shell has a node of the part and a node outside it. *)
From Coq Require Import Reals List String Arith Bool.
From Verif Require Import Base Csys Sections Element Load FeModel Assembly Solver Post Api SpecApi SpecGeom SpecBeam SpecAsm SpecElim
  SpecLoad SpecSolve SpecStatics SpecTold SpecToldLoad SpecSame.
Import ListNotations.
Local Open Scope R_scope.

(** The part is given by the names of its nodes. *)
Definition apart (part : string -> bool) (t : told) : Prop :=
  (forall k a b p, t_beam t k = Some (a, b, p) -> part a = part b)
  /\ (forall k l s, t_shell t k = Some (l, s) -> forall a b, In a l -> In b l -> part a = part b).
(** The member or shell of a name, if it belongs to the part. *)
Definition beam_of (part : string -> bool) (t : told) (k : string) : option (string * string * bprop) :=
  match t_beam t k with Some (a, b, p) => if part a then Some (a, b, p) else None | None => None end.
Definition shell_of (part : string -> bool) (t : told) (k : string) : option (list string * ssection) :=
  match t_shell t k with Some (l, s) => if existsb part l then Some (l, s) else None | None => None end.
(** Two descriptions that agree about the part and may differ in anything else. *)
Record same_part (part : string -> bool) (t t' : told) : Prop := {
  sp_node : forall k, part k = true -> option_map fst (t_node t' k) = option_map fst (t_node t k);
  sp_beam : forall k, beam_of part t' k = beam_of part t k;
  sp_shell : forall k, shell_of part t' k = shell_of part t k }.

(** The load pattern has no load on the part; two patterns have the same loads on it. *)
Definition idle (part : string -> bool) (t : told) (s : sheet) : Prop :=
  (forall k, part k = true -> s_node s k = None)
  /\ (forall k, beam_of part t k <> None -> s_line s k = None /\ s_point s k = None).
Definition same_loads (part : string -> bool) (t : told) (s s' : sheet) : Prop :=
  (forall k, part k = true -> s_node s' k = s_node s k)
  /\ (forall k, beam_of part t k <> None -> s_line s' k = s_line s k /\ s_point s' k = s_point s k).
(** The case loads the part alike: patterns that load it are used in both with the same
    factor; patterns that do not load it may be used in one alone, or with another factor. *)
Definition part_case (part : string -> bool) (t : told) (l l' : loads) (case : string) : Prop :=
  match l_case l case, l_case l' case with
  | Some o, Some o' => forall p,
      match o_uses o p, o_uses o' p with
      | Some (i, f), Some (i', f') =>
          (f = f' /\ same_loads part t (l_sheet l i) (l_sheet l' i')) \/ (idle part t (l_sheet l i) /\ idle part t (l_sheet l' i'))
      | Some (i, f), None => idle part t (l_sheet l i)
      | None, Some (i', f') => idle part t (l_sheet l' i')
      | None, None => True
      end
  | _, _ => False
  end.
Definition idle_case (part : string -> bool) (t : told) (l : loads) (case : string) : Prop :=
  forall o p i f, l_case l case = Some o -> o_uses o p = Some (i, f) -> idle part t (l_sheet l i).
(** The caller reads back the same supports for the nodes of the part. *)
Definition same_held (part : string -> bool) (ext : externals) (w w' : world) (case : string) : Prop :=
  forall k j, part k = true -> flag (governing ext w' case) k j = flag (governing ext w case) k j.
