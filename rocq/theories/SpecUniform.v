(** Vocabulary for uniformly accelerated motions. *)
From Coq Require Import Reals List.
From Verif Require Import Base Dynamic SpecAsm.
Local Open Scope R_scope.

(** The state at time t of the motion that starts at u with velocity v and has the acceleration a at all times. *)
Definition accelerated (u v a : nat -> R) (t : R) (i : nat) : R * R * R := (u i + v i * t + a i * t^2 / 2, v i + a i * t, a i).
(** A state is that of the motion at time t. *)
Definition moves_at (N : nat) (u v a : nat -> R) (t : R) (s : motion) : Prop :=
  forall i, (i < N)%nat -> (mu_ s i, mv_ s i, ma_ s i) = accelerated u v a t i.
(** The load that causes the motion: that of step k is taken at the end of the step. *)
Definition drives (N : nat) (M C K : nat -> nat -> R) (u v a : nat -> R) (dt : R) (F : list (nat -> R)) : Prop :=
  forall k f, nth_error F k = Some f -> forall i, (i < N)%nat ->
    f i = rsum N (fun j => M i j * a j) + rsum N (fun j => C i j * (v j + a j * (INR (S k) * dt)))
          + rsum N (fun j => K i j * (u j + v j * (INR (S k) * dt) + a j * (INR (S k) * dt)^2 / 2)).
