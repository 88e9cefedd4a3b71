(** Base data structures used by the model: python dictionaries, finite sums,
    sparse matrices.  Nothing here is specific to one source file; the python
    behaviour that each definition stands for is quoted next to it. *)
From Coq Require Import Reals Lra List String Arith Lia Permutation Bool.
Import ListNotations.

(** ** Python [dict] with string keys.
    Insertion-ordered association list; assigning to an existing key keeps its
    position (CPython >= 3.7).  Used for every [Dict[str, ...]] attribute, e.g.
    /repo/hyperstatic/core/fe_model/model.py:25-36. *)
Definition dict (A : Type) : Type := list (string * A).

(** [d[k]] / [d.get(k)]: [None] stands for KeyError. *)
Fixpoint dget {A : Type} (k : string) (d : dict A) : option A :=
  match d with
  | [] => None
  | (k', v) :: r => if String.eqb k k' then Some v else dget k r
  end.

(** [d[k] = v]. *)
Fixpoint dset {A : Type} (k : string) (v : A) (d : dict A) : dict A :=
  match d with
  | [] => [(k, v)]
  | (k', v') :: r => if String.eqb k k' then (k', v) :: r else (k', v') :: dset k v r
  end.

(** [list(d.keys())], [d.values()], [k in d.keys()]. *)
Definition dkeys {A : Type} (d : dict A) : list string := map fst d.
Definition dvals {A : Type} (d : dict A) : list A := map snd d.
Definition dmem {A : Type} (k : string) (d : dict A) : bool :=
  match dget k d with Some _ => true | None => false end.

(** ** Option-valued traversal: a python [for] loop that may raise. *)
Fixpoint mapM {A B : Type} (f : A -> option B) (l : list A) : option (list B) :=
  match l with
  | [] => Some []
  | a :: r => match f a with
              | None => None
              | Some b => match mapM f r with None => None | Some bs => Some (b :: bs) end
              end
  end.

Definition bindO {A B : Type} (x : option A) (f : A -> option B) : option B :=
  match x with Some a => f a | None => None end.

(** Replace the [i]-th element of a list (used for the heap of load patterns). *)
Fixpoint set_nth {A : Type} (i : nat) (v : A) (l : list A) : list A :=
  match l, i with
  | [], _ => []
  | _ :: r, O => v :: r
  | x :: r, S j => x :: set_nth j v r
  end.

(** ** Finite sums *)
Local Open Scope R_scope.

Fixpoint rsum (n : nat) (f : nat -> R) : R :=
  match n with O => 0 | S m => rsum m f + f m end.

Fixpoint lsum (l : list R) : R :=
  match l with [] => 0 | x :: r => x + lsum r end.

(** Decidable comparison on reals as a boolean. *)
Definition Rltb (x y : R) : bool := if Rlt_dec x y then true else false.
Definition Reqb (x y : R) : bool := if Req_EM_T x y then true else false.

(** ** Sparse matrices: [scipy.sparse.coo_matrix] triplets (row, col, value);
    duplicate positions are summed. *)
Definition coo : Type := list (nat * nat * R).

Fixpoint coo_get (L : coo) (i j : nat) : R :=
  match L with
  | [] => 0
  | (r, c, v) :: M =>
      (if (Nat.eqb r i && Nat.eqb c j)%bool then v else 0) + coo_get M i j
  end.

(** [coo_matrix((data,(row,col)),shape=(nr,nc))] raises when an index is out of
    range. *)
Definition coo_inrange (nr nc : nat) (L : coo) : bool :=
  forallb (fun t => match t with (r, c, _) => (Nat.ltb r nr && Nat.ltb c nc)%bool end) L.

Definition coo_make (nr nc : nat) (L : coo) : option coo :=
  if coo_inrange nr nc L then Some L else None.

(** Triplets of the transposed matrix. *)
Definition coo_T (L : coo) : coo := map (fun t => match t with (r, c, v) => (c, r, v) end) L.

(** ** Dense matrices of known size, as functions. *)
Definition mat : Type := nat -> nat -> R.
Definition mmul (n : nat) (A B : mat) : mat := fun i j => rsum n (fun k => A i k * B k j).
Definition mT (A : mat) : mat := fun i j => A j i.
Definition mvec (n : nat) (A : mat) (x : nat -> R) : nat -> R :=
  fun i => rsum n (fun k => A i k * x k).
Definition dot (n : nat) (x y : nat -> R) : R := rsum n (fun k => x k * y k).
(** quadratic form x' A x *)
Definition qform (n : nat) (A : mat) (x : nat -> R) : R := dot n x (mvec n A x).

(** All entries of a dense n x m matrix as triplets, row by row (python's
    [tocoo] drops exact zeros; summing makes them irrelevant). *)
Definition mat_coo (n m : nat) (A : mat) : coo :=
  flat_map (fun i => map (fun j => (i, j, A i j)) (seq 0 m)) (seq 0 n).

(** A list used as a numpy vector. *)
Definition vnth (l : list R) : nat -> R := fun i => nth i l 0.
