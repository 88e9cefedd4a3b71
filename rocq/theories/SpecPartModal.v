(** Vocabulary for the modes of structures of which one part is not connected with the rest. *)
From Coq Require Import Reals List String Arith Bool.
From Verif Require Import Base Csys Sections Element Load FeModel Assembly Solver Post Api SpecApi SpecGeom SpecBeam SpecAsm SpecElim
  SpecLoad SpecSolve SpecMass SpecStatics SpecTold SpecModal.
Import ListNotations.
Local Open Scope R_scope.

(** The nodes of the part have the same masses in both descriptions. *)
Definition same_masses (part : string -> bool) (t t' : told) : Prop :=
  forall k, part k = true -> option_map snd (t_node t' k) = option_map snd (t_node t k).
(** V moves the nodes of the part in the model m as U moves those of the same names in the
    model m', and no other node. *)
Definition seen_in (part : string -> bool) (m' m : fem) (U V : nat -> R) : Prop :=
  forall k j, In k (dkeys (f_nodes m)) -> (j < 6)%nat -> V (6 * num m k + j)%nat = if part k then U (6 * num m' k + j)%nat else 0.
(** The structure can swing freely with these displacements and this square of the circular
    frequency. *)
Definition swings (ext : externals) (w : world) (c : string) (lambda : R) (U : nat -> R) : Prop :=
  permitted ext w c U /\ forall v, permitted ext w c v -> energy ext w v U = lambda * inertia w v U.
