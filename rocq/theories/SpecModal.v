(** Vocabulary for the statements about the modes of a modal case: kinetic form, and the
    displacements that a stored row stands for. *)
From Coq Require Import Reals List String Arith Bool.
From Verif Require Import Base Csys Sections Element Load FeModel Assembly Solver Post Api SpecApi SpecGeom SpecBeam SpecAsm SpecMass SpecElim SpecLoad SpecSolve SpecStatics.
Import ListNotations.
Local Open Scope R_scope.

Definition mass_at (w : world) (p q : nat) : R := match mass_matrix w with Some M => coo_get M p q | None => 0 end.
(** Twice the kinetic energy of velocities x, as a bilinear form. *)
Definition inertia (w : world) (x y : nat -> R) : R := work_of w (fun q => rsum (equations w) (fun p => mass_at w q p * y p)) x.
(** No node and no member has a negative mass. *)
Definition massive (w : world) : Prop := forall m, assembled_model w = Some m ->
  (forall k n i, In (k, n) (f_nodes m) -> 0 <= nth i (n_mass n) 0)
  /\ (forall k b, In (k, b) (f_beams m) -> 0 <= density (b_prop b) * area (b_prop b)).
(** The displacements that a row of numbers, one for every free equation, stands for. *)
Definition shape_of (ext : externals) (w : world) (c : string) (x : list R) (U : nat -> R) : Prop :=
  permitted ext w c U
  /\ exists F, lists_free (equations w) (restrained_for ext w c) F /\ forall j, (j < List.length F)%nat -> U (nth j F O) = nth j x 0.
