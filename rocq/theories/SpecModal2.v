(** Vocabulary for the statements about the stored modes taken together. *)
From Coq Require Import Reals List String Arith Bool ZArith.
From Verif Require Import Base Csys Sections Element Load FeModel Assembly Solver Post Api SpecApi SpecGeom SpecBeam SpecAsm SpecMass SpecElim SpecLoad SpecSolve SpecStatics Dynamic SpecModal.
Import ListNotations.
Local Open Scope R_scope.

(** The first n modes stored by a modal case, with different eigenvalues lambda and displacements U. *)
Record first_modes (ext : externals) (w : world) (c : string) (modes : list (list R)) (o : list R) (n : nat) (lambda : nat -> R) (U : nat -> nat -> R) : Prop := {
  fm_different : NoDup (firstn n o);
  fm_modes : forall i, (i < n)%nat -> nth_error o i = Some (lambda i) /\ exists x, nth_error modes i = Some x /\ shape_of ext w c x (U i) }.
(** Mass of the whole structure in the direction of a unit vector t: node masses and the masses of the members. *)
Definition mass_along (m : fem) (t : vec3) : R := lsum (map (node_mass_along t) (f_nodes m)) + lsum (map member_mass (dvals (f_beams m))) * dot3 t t.
(** scipy documents that [eigsh] answers fewer modes than there are equations, and raises for
    a sparse matrix if as many or more are asked for. *)
Definition answers_fewer (eigsh : eigensolver) : Prop := forall N k K M, (N <= k)%nat -> eigsh N k K M = None.
