(** Properties C16-C18: elimination of restrained equations and expansion.
    Only statements, each closed by a lemma proved elsewhere, with the assumptions it
    rests on and an instance of its hypotheses. *)
From Coq Require Import Reals Lra Lia List String Arith Bool ZArith Sorting.Permutation Sorting.Sorted.
From Verif Require Import Base Csys Sections Element Load FeModel Assembly Solver Post Api SpecApi SpecElim ElimFacts.
Import ListNotations.
Local Open Scope string_scope.
Local Open Scope list_scope.
Local Open Scope R_scope.

(** C16. Eliminating the equations [idx] (in any order) from a sparse matrix leaves the
    matrix of the free equations, duplicates included. *)
Theorem C16_elimination :
  forall n M idx F, NoDup idx -> (forall i, In i idx -> (i < n)%nat) ->
  (forall r c v, In (r, c, v) M -> (r < n /\ c < n)%nat) ->
  lists_free n (fun q => In q idx) F ->
  exists A, drop_matrix n M idx = Some (List.length F, A)
    /\ (forall a b, (a < List.length F)%nat -> (b < List.length F)%nat ->
        coo_get A a b = coo_get M (nth a F O) (nth b F O))
    /\ (forall a b, (List.length F <= a \/ List.length F <= b)%nat -> coo_get A a b = 0).
Proof. exact c16_elimination. Qed.
Print Assumptions C16_elimination.
Example C16_example : NoDup [3; 0]%nat /\ (forall i, In i [3; 0]%nat -> (i < 4)%nat)
  /\ (forall r c v, In (r, c, v) [(1%nat, 2%nat, 5); (1%nat, 2%nat, 7); (3%nat, 3%nat, 1)] -> (r < 4 /\ c < 4)%nat)
  /\ lists_free 4 (fun q => In q [3; 0]%nat) [1; 2]%nat.
Proof.
  repeat split.
  - repeat constructor; simpl; intuition discriminate.
  - intros i [<-|[<-|[]]]; lia.
  - destruct H as [H|[H|[H|[]]]]; injection H as <- <- <-; lia.
  - destruct H as [H|[H|[H|[]]]]; injection H as <- <- <-; lia.
  - repeat constructor.
  - destruct H as [<-|[<-|[]]]; lia.
  - destruct H as [<-|[<-|[]]]; simpl; intuition discriminate.
  - intros [H1 H2]. simpl in *. destruct q as [|[|[|[|q]]]]; auto; try lia; tauto.
Qed.

(** C17. The load vector is reduced to the same free equations in the same order. *)
Theorem C17_vector :
  forall n V idx F, lists_free n (fun q => In q idx) F ->
  drop_vector n V idx = map (fun q => coo_get V q 0) F
  /\ List.length (drop_vector n V idx) = List.length F
  /\ forall a, (a < List.length F)%nat -> nth a (drop_vector n V idx) 0 = coo_get V (nth a F O) 0.
Proof. exact c17_vector. Qed.
Print Assumptions C17_vector.
Example C17_example : drop_vector 4 [(1%nat, 0%nat, 5); (3%nat, 0%nat, 2); (1%nat, 0%nat, 6)] [3; 0]%nat = [11; 0].
Proof. unfold drop_vector. cbn. f_equal; [|f_equal]; ring. Qed.

(** C18. The expanded vector is zero at the restrained equations and carries the solved
    values, in order and all of them, at the free ones. *)
Theorem C18_expansion :
  forall n idx F delta, NoDup idx -> (forall i, In i idx -> (i < n)%nat) ->
  lists_free n (fun q => In q idx) F -> List.length delta = List.length F ->
  exists d, expand 0 n (sort idx) delta = Some d /\ List.length d = n
    /\ (forall q, In q idx -> nth q d 0 = 0)
    /\ (forall a, (a < List.length F)%nat -> nth (nth a F O) d 0 = nth a delta 0)
    /\ map (fun q => nth q d 0) F = delta.
Proof. exact c18_expansion. Qed.
Print Assumptions C18_expansion.
Example C18_example : expand 0 4 (sort [3; 0]%nat) [8; 9] = Some [0; 8; 9; 0].
Proof. reflexivity. Qed.

(** C18. A solution vector that is too short is an error, not padded. *)
Theorem C18_too_short :
  forall n idx F delta, NoDup idx -> (forall i, In i idx -> (i < n)%nat) ->
  lists_free n (fun q => In q idx) F -> (List.length delta < List.length F)%nat ->
  expand 0 n (sort idx) delta = None.
Proof. exact c18_too_short. Qed.
Print Assumptions C18_too_short.
Example C18_too_short_example : expand 0 4 (sort [3; 0]%nat) [8] = None.
Proof. reflexivity. Qed.
