(** Vocabulary for the comparison of the modes of modal cases. *)
From Coq Require Import Reals Lra Lia List String Arith Bool ZArith.
From Verif Require Import Base Csys Sections Element Load FeModel Assembly Solver Post Api SpecApi SpecElim SpecGeom SpecBeam SpecAsm SpecLoad SpecSolve
  SpecMass SpecStatics SpecTold Dynamic SpecDyn SpecModal.
Import ListNotations.
Local Open Scope R_scope.

(** The product x^T A y. *)
Definition product_with (N : nat) (A : coo) (x y : nat -> R) : R := rsum N (fun r => x r * rsum N (fun j => coo_get A r j * y j)).
Definition entries (x : list R) (j : nat) : R := nth j x 0.
(** Pairs of numbers and shapes that are the lowest ones: the numbers in ascending order, the
    shapes orthogonal to each other with respect to the mass, and no displacements orthogonal
    to all of them have a smaller quotient of stiffness and mass than any of the numbers. *)
Record lowest_pairs (N : nat) (K M : coo) (o : list R) (modes : list (list R)) : Prop := {
  lp_length : List.length modes = List.length o;
  lp_order : forall i j a b, (i <= j)%nat -> nth_error o i = Some a -> nth_error o j = Some b -> a <= b;
  lp_apart : forall i j x y, i <> j -> nth_error modes i = Some x -> nth_error modes j = Some y -> product_with N M (entries x) (entries y) = 0;
  lp_least : forall v, (forall x, In x modes -> product_with N M v (entries x) = 0) ->
    forall a, In a o -> a * product_with N M v v <= product_with N K v v }.
(** What scipy documents for [eigsh(K_,k,M_,sigma=0,which='LM')] (dynamic.py:64) with a
    positive definite stiffness: the pairs next to 0 come first, and none is left out. *)
Definition lowest_eigen (eigsh : eigensolver) : Prop := forall N k K M o modes, eigsh N k K M = Some (o, modes) -> lowest_pairs N K M o modes.
(** Displacements for all stored rows. *)
Definition shapes_of (ext : externals) (w : world) (c : string) (modes : list (list R)) (U : nat -> nat -> R) : Prop :=
  forall j x, nth_error modes j = Some x -> shape_of ext w c x (U j).

(** The second structure has the nodes, shells and members of the first, no member softer
    and no node or member heavier. *)
Record stiffer_lighter (t t' : told) : Prop := {
  sl_node : forall k, match t_node t k, t_node t' k with
                      | Some (p, m), Some (p', m') => p' = p /\ forall i, nth i m' 0 <= nth i m 0
                      | None, None => True
                      | _, _ => False end;
  sl_shell : forall k, t_shell t' k = t_shell t k;
  sl_beam : forall k, match t_beam t k, t_beam t' k with
                      | Some (a, b, p), Some (a', b', p') => a' = a /\ b' = b /\ no_softer p p' /\ density p' * area p' <= density p * area p
                      | None, None => True
                      | _, _ => False end }.
