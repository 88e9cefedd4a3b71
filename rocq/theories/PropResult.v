(** C132-C134: the results of members, periods and load combinations of the drawing model.
    Only statements, each closed by a lemma proved elsewhere, with the assumptions it
    rests on and an instance of its hypotheses. *)
From Coq Require Import Reals Lra Lia List String Arith Bool ZArith Sorting.Permutation Sorting.Sorted.
From Verif Require Import Base BaseFacts General SpecGeneral GeneralResult SpecResult ResultProofs.
Import ListNotations.
Local Open Scope string_scope.
Local Open Scope list_scope.
Local Open Scope R_scope.

(** C132. For every table of stored end forces and every unit a project can have, the forces answered for a member in a load case are
    those of its rows, all of them, in the order stored, each number converted to the unit in force; a member without rows gets none. *)
Theorem C132_forces : forall u n c t rows, In u units -> rows_of n c t rows ->
  match get_result_frame_force u n c t with
  | ReadNone => rows = []
  | ReadRows l => rows <> [] /\ Forall2 (tells u) l rows
  | _ => False
  end.
Proof. exact c132_forces. Qed.
Print Assumptions C132_forces.
Example C132_forces_example : let f k := FForce "beam" "dead" k (Six 1000 0 2000 0 3000 0) (Six 0 0 0 0 0 4000) in
  exists l, get_result_frame_force "kN_mm_C" "beam" "dead" [f 0%nat; FForce "beam" "live" 0 (Six 1 1 1 1 1 1) (Six 1 1 1 1 1 1); f 1%nat] = ReadRows l
  /\ List.length l = 2%nat /\ Forall2 (tells "kN_mm_C") l [f 0%nat; f 1%nat].
Proof.
  intro f. pose proof (C132_forces "kN_mm_C" "beam" "dead" [f 0%nat; FForce "beam" "live" 0 (Six 1 1 1 1 1 1) (Six 1 1 1 1 1 1); f 1%nat] [f 0%nat; f 1%nat]) as H.
  eexists. split; [reflexivity|]. split; [reflexivity|]. apply H; [cbn; tauto|].
  apply rows_take; [reflexivity|reflexivity|]. apply rows_leave; [right; discriminate|]. apply rows_take; [reflexivity|reflexivity|constructor].
Qed.

(** C133. Asked for all periods of a modal case, the answer is the stored ones, in the order stored.  What is missing: the period of one
    order, see the theorem below. *)
Theorem C133_all_partial : forall c t l, periods_of c t l -> get_result_period c (OText "all") t = ReadList l.
Proof. exact c133_all. Qed.
Print Assumptions C133_all_partial.
Example C133_all_example : get_result_period "modal" (OText "all") [MPeriod "modal" 1 3; MPeriod "other" 1 7; MPeriod "modal" 2 2] = ReadList [3; 2].
Proof.
  apply C133_all_partial. apply (per_take "modal" (MPeriod "modal" 1 3)); [reflexivity|]. apply per_leave; [discriminate|].
  apply (per_take "modal" (MPeriod "modal" 2 2)); [reflexivity|constructor].
Qed.

(** C133 is false for a single order: a stored period asked for by its order is never answered (the list of rows is asked for its rows
    once more, and the call raises). *)
Theorem C133_order_refuted : exists c k t m, In m t /\ mp_case m = c /\ mp_order m = k /\ forall l, get_result_period c (OInt k) t <> ReadList l.
Proof. exact c133_refuted. Qed.
Print Assumptions C133_order_refuted.
Example C133_order_example : get_result_period "modal" (OInt 1) [MPeriod "modal" 1 3] = ReadRaise.
Proof. reflexivity. Qed.

(** C134. After any sequence of calls, the factor of a load case in a combination is the one last given for it to [add_load].  What is
    missing: the factors given when the combination is made, see the theorem below. *)
Theorem C134_given_partial : forall name given method ops lc v, last_given lc ops v ->
  dget lc (cb_cases (fold_left cstep ops (new_combination name given method))) = v.
Proof. exact c134_given. Qed.
Print Assumptions C134_given_partial.
Example C134_given_example : dget "dead" (cb_cases (fold_left cstep [CAdd "dead" 1; CAdd "live" 3; CAdd "dead" 2; CName "uls"] (new_combination "c" [] "linear_add"))) = Some 2.
Proof. apply C134_given_partial. apply (lg_name _ "uls" [_; _; _]). apply (lg_this _ 2 [_; _]). Qed.

(** C134 is false for the factors the constructor is given: none of them is kept. *)
Theorem C134_constructor_refuted : exists name given method lc f, dget lc given = Some f
  /\ dget lc (cb_cases (new_combination name given method)) <> Some f.
Proof. exact c134_refuted. Qed.
Print Assumptions C134_constructor_refuted.
Example C134_constructor_example : cb_cases (new_combination "c" [("dead"%string, 2); ("live"%string, 3)] "linear_add") = [].
Proof. reflexivity. Qed.
