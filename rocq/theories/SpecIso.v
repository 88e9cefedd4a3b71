(** Vocabulary for statements about turning a shell in its own plane.  Independent of the model. *)
From Coq Require Import Reals List Arith.
From Verif Require Import Base.
Import ListNotations.
Local Open Scope R_scope.

(** Corner coordinates x1 y1 x2 y2 ... turned by the angle with cosine c and sine s. *)
Fixpoint spin (c s : R) (xl : list R) : list R :=
  match xl with x :: y :: r => (c * x - s * y) :: (s * x + c * y) :: spin c s r | _ => xl end.
(** Corner values turned with them: u, v and a drilling rotation per corner; *)
Definition spin_membrane (c s : R) (x : nat -> R) (i : nat) : R :=
  match (i mod 3)%nat with O => c * x i - s * x (S i) | S O => s * x (pred i) + c * x i | _ => x i end.
(** a deflection and the rotations about x and y per corner; *)
Definition spin_plate (c s : R) (x : nat -> R) (i : nat) : R :=
  match (i mod 3)%nat with O => x i | S O => c * x i - s * x (S i) | _ => s * x (pred i) + c * x i end.
(** u and v per corner. *)
Definition spin_pair (c s : R) (x : nat -> R) (i : nat) : R :=
  match (i mod 2)%nat with O => c * x i - s * x (S i) | _ => s * x (pred i) + c * x i end.
