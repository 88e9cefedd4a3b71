(** Vocabulary for the statements about the response spectrum analysis. *)
From Coq Require Import Reals List String Arith Bool.
From Verif Require Import Base.
Import ListNotations.
Local Open Scope R_scope.

(** [x . M y] for two vectors of size [N]. *)
Definition form (N : nat) (M : nat -> nat -> R) (x y : nat -> R) : R := rsum N (fun q => x q * rsum N (fun p => M q p * y p)).
(** Column [i] of a matrix. *)
Definition column (mode : nat -> nat -> R) (i : nat) : nat -> R := fun q => mode q i.
(** The columns are orthogonal with respect to [M] and none of them is without mass. *)
Definition orthogonal (N : nat) (M mode : nat -> nat -> R) : Prop := forall i j, (i < N)%nat -> (j < N)%nat ->
  (i = j -> form N M (column mode i) (column mode i) <> 0) /\ (i <> j -> form N M (column mode i) (column mode j) = 0).
Definition diagonal (N : nat) (M : nat -> nat -> R) : Prop := forall q p, (q < N)%nat -> (p < N)%nat -> q <> p -> M q p = 0.
Definition all_ones : nat -> R := fun _ => 1.
(** The modal answer to a unit acceleration of the ground of the mode [phi]: the factor of the
    mode is [phi . M 1 / phi . M phi]. *)
Definition modal_share (N : nat) (M : nat -> nat -> R) (phi : nat -> R) (q : nat) : R := form N M phi all_ones / form N M phi phi * phi q.
(** A polygon through points with increasing abscissae. *)
Fixpoint increasing (pts : list (R * R)) : Prop :=
  match pts with (x0, _) :: (((x1, _) :: _) as r) => x0 < x1 /\ increasing r | _ => True end.
Definition on_segment (p0 p1 : R * R) (x y : R) : Prop :=
  fst p0 <= x <= fst p1 /\ (y - snd p0) * (fst p1 - fst p0) = (snd p1 - snd p0) * (x - fst p0).
Definition on_polygon (pts : list (R * R)) (x y : R) : Prop :=
  (exists p r, pts = p :: r /\ x <= fst p /\ y = snd p)
  \/ (exists r p, pts = r ++ [p] /\ fst p <= x /\ y = snd p)
  \/ (exists r p0 p1 r', pts = r ++ p0 :: p1 :: r' /\ on_segment p0 p1 x y).
