(** Vocabulary for superposition of motions. *)
From Coq Require Import Reals List String Arith Bool ZArith.
From Verif Require Import Base Dynamic SpecDyn SpecAsm.
Import ListNotations.
Local Open Scope R_scope.

(** [z] is [a] times [x] and [b] times [y], in the first [N] components. *)
Definition combines (N : nat) (a b : R) (x y z : nat -> R) : Prop := forall i, (i < N)%nat -> z i = a * x i + b * y i.
Definition motions_combine (N : nat) (a b : R) (s1 s2 s3 : motion) : Prop :=
  combines N a b (mu_ s1) (mu_ s2) (mu_ s3) /\ combines N a b (mv_ s1) (mv_ s2) (mv_ s3) /\ combines N a b (ma_ s1) (ma_ s2) (ma_ s3).
(** The first [n] loads of the third history are those of the first two combined. *)
Definition loads_combine (N : nat) (a b : R) (n : nat) (F1 F2 F3 : list (nat -> R)) : Prop :=
  forall k f1 f2 f3, (k < n)%nat -> nth_error F1 k = Some f1 -> nth_error F2 k = Some f2 -> nth_error F3 k = Some f3 -> combines N a b f1 f2 f3.
(** Every motion has kinetic energy. *)
Definition inertial (N : nat) (M : nat -> nat -> R) : Prop :=
  forall x, (exists i, (i < N)%nat /\ x i <> 0) -> 0 < rsum N (fun i => rsum N (fun j => x i * M i j * x j)).
(** Only the zero vector is sent to zero. *)
Definition regular (N : nat) (A : nat -> nat -> R) : Prop :=
  forall x, (forall i, (i < N)%nat -> rsum N (fun j => A i j * x j) = 0) -> forall i, (i < N)%nat -> x i = 0.
(** Two lists of numbers combined, as vectors. *)
Definition rows_combine (N : nat) (a b : R) (x y z : list R) : Prop :=
  forall i, (i < N)%nat -> nth i z 0 = a * nth i x 0 + b * nth i y 0.
(** The same motion, and the same first [n] loads, in the first [N] components. *)
Definition same_motion (N : nat) (s s' : motion) : Prop := forall i, (i < N)%nat -> mu_ s i = mu_ s' i /\ mv_ s i = mv_ s' i /\ ma_ s i = ma_ s' i.
Definition same_loads (N : nat) (n : nat) (F F' : list (nat -> R)) : Prop :=
  forall k f f', (k < n)%nat -> nth_error F k = Some f -> nth_error F' k = Some f' -> forall i, (i < N)%nat -> f i = f' i.
(** At rest, without load, in the first [N] components. *)
Definition zero_upto (N : nat) (x : nat -> R) : Prop := forall i, (i < N)%nat -> x i = 0.
Definition at_rest (N : nat) (s : motion) : Prop := zero_upto N (mu_ s) /\ zero_upto N (mv_ s) /\ zero_upto N (ma_ s).
(** [F'] is [F] after [m] steps without load. *)
Definition delayed (N m : nat) (F F' : list (nat -> R)) : Prop :=
  (forall k f', (k < m)%nat -> nth_error F' k = Some f' -> zero_upto N f')
  /\ forall k f f', nth_error F k = Some f -> nth_error F' (m + k) = Some f' -> forall i, (i < N)%nat -> f i = f' i.
