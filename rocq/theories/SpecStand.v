(** Vocabulary for structures in balance with a constant load. *)
From Coq Require Import Reals List.
From Verif Require Import Base Dynamic SpecDyn SpecAsm SpecSuper.
Local Open Scope R_scope.

(** The state is at rest and its displacements balance the load. *)
Definition in_balance (N : nat) (K : nat -> nat -> R) (f : nat -> R) (s : motion) : Prop :=
  (forall i, (i < N)%nat -> rsum N (fun j => K i j * mu_ s j) = f i) /\ zero_upto N (mv_ s) /\ zero_upto N (ma_ s).
(** The load is the same in all steps. *)
Definition constant_load (N : nat) (f : nat -> R) (F : list (nat -> R)) : Prop :=
  forall k g, nth_error F k = Some g -> forall i, (i < N)%nat -> g i = f i.
