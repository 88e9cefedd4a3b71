(** Vocabulary for the statements about the energy of computed motions. *)
From Coq Require Import Reals List String Arith Bool ZArith.
From Verif Require Import Base Dynamic SpecDyn SpecAsm.
Import ListNotations.
Local Open Scope R_scope.

(** x . A y *)
Definition energy_form (N : nat) (A : nat -> nat -> R) (x y : nat -> R) : R :=
  rsum N (fun i => x i * rsum N (fun j => A i j * y j)).
(** kinetic energy and strain energy of a state *)
Definition mechanical (N : nat) (M K : nat -> nat -> R) (s : motion) : R :=
  1/2 * energy_form N M (mv_ s) (mv_ s) + 1/2 * energy_form N K (mu_ s) (mu_ s).
(** halfway between two vectors, and from one to the other *)
Definition midway (x y : nat -> R) (i : nat) : R := (x i + y i) / 2.
Definition change_of (x y : nat -> R) (i : nat) : R := y i - x i.
Definition no_force : nat -> R := fun _ => 0.
(** A load history without any load on the [N] equations. *)
Definition unloaded (N : nat) (F : list (nat -> R)) : Prop := forall f i, In f F -> (i < N)%nat -> f i = 0.

(** The row [r] of a stored history as a vector. *)
Definition as_vector (r : list R) (i : nat) : R := nth i r 0.
(** The energy of two neighbouring rows of a history of step [dt]: kinetic energy of the
    velocity between them, and strain energy. *)
Definition pair_energy (N : nat) (M K : nat -> nat -> R) (dt : R) (q r : list R) : R :=
  1/2 * energy_form N M (fun i => (as_vector r i - as_vector q i) / dt) (fun i => (as_vector r i - as_vector q i) / dt)
  + 1/2 * energy_form N K (as_vector q) (as_vector r).
(** What the mode [x] takes part in a row. *)
Definition mode_share (N : nat) (M : nat -> nat -> R) (x : nat -> R) (r : list R) : R := energy_form N M x (as_vector r).
(** Damping force per momentum of a mode of circular frequency [w], if the ratios are 5% at
    the period 2 and 2% at the period 1. *)
Definition modal_damping (w : R) : R := (16 * PI^2 - w^2) / (150 * PI).
