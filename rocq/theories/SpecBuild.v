(** Vocabulary for building with the duplicate check. *)
From Coq Require Import Reals List String Bool.
From Verif Require Import Base Csys Element FeModel Build SpecGeom.
Import ListNotations.
Local Open Scope R_scope.

(** The calls that ask for the duplicate check whenever they can. *)
Definition checks (c : mcall) : bool :=
  match c with MNode _ _ _ _ d => d | MBeam _ _ _ _ d => d | MSimple _ _ _ _ _ _ _ _ _ _ d => d | _ => true end.
(** Points that count as one, and members that join the same two points, either way round. *)
Definition at_once (p q : vec3) : Prop := distance p q < 1 / 1000000000.
Definition joins (b : beam) (p q : vec3) : Prop :=
  (at_once (n_loc (b_ni b)) p /\ at_once (n_loc (b_nj b)) q) \/ (at_once (n_loc (b_ni b)) q /\ at_once (n_loc (b_nj b)) p).
(** A call for a beam of the given name between two nodes. *)
Definition beam_call (c : mcall) : option (string * string * string) :=
  match c with
  | MBeam n s e _ true => Some (n, s, e)
  | MSimple n s e _ _ _ _ _ _ _ true => Some (n, s, e)
  | _ => None
  end.
