(** What a sampled curve and the number of steps of a case are. *)
From Coq Require Import Reals List String Arith Bool ZArith.
From Verif Require Import Base Load Curve.
Import ListNotations.
Local Open Scope R_scope.

(** [n] samples of [g], every [dt] from 0 on. *)
Definition samples (g : R -> R) (dt : R) (n : nat) (c : sampled) : Prop :=
  List.length (fst c) = n /\ List.length (snd c) = n
  /\ forall k, (k < n)%nat -> nth_error (fst c) k = Some (INR k * dt) /\ nth_error (snd c) k = Some (g (INR k * dt)).
(** [m] is the least number of values of the curves of a case. *)
Definition least_values (c : lcase) (m : nat) : Prop :=
  (exists p, In p (c_curve c) /\ List.length (snd (snd p)) = m) /\ forall p, In p (c_curve c) -> (m <= List.length (snd (snd p)))%nat.
