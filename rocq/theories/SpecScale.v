(** Vocabulary for structures that differ only in the stiffness of their members. *)
From Coq Require Import Reals List String.
From Verif Require Import Base Csys Sections Element Load FeModel SpecGeom SpecBeam SpecAsm SpecMass SpecTold SpecSame.
Local Open Scope R_scope.

(** The second member is [c] times as stiff in tension, torsion and both bendings. *)
Definition times_stiffer (c : R) (p q : bprop) : Prop :=
  EA (props q) = c * EA (props p) /\ GJ (props q) = c * GJ (props p)
  /\ EI2 (props q) = c * EI2 (props p) /\ EI3 (props q) = c * EI3 (props p).
(** The same nodes at the same places, the same members between them, each [c] times as
    stiff, and no shells (their stiffness is a parameter of the model). *)
Record rescaled (c : R) (t t' : told) : Prop := {
  rs_node : forall k, option_map fst (t_node t' k) = option_map fst (t_node t k);
  rs_shell : forall k, t_shell t k = None /\ t_shell t' k = None;
  rs_beam : forall k, match t_beam t k, t_beam t' k with
                      | Some (a, b, p), Some (a', b', p') => a' = a /\ b' = b /\ times_stiffer c p p'
                      | None, None => True
                      | _, _ => False end }.
(** The masses are left as they are. *)
Definition same_mass (t t' : told) : Prop :=
  (forall k, t_node t' k = t_node t k)
  /\ forall k a b p a' b' p', t_beam t k = Some (a, b, p) -> t_beam t' k = Some (a', b', p') -> density p' * area p' = density p * area p.
