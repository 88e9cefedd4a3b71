(** C139: structures that differ in the stiffness of their members alone.
    Only statements, each closed by a lemma proved elsewhere, with the assumptions it
    rests on and an instance of its hypotheses. *)
From Coq Require Import Reals Lra Lia List String Arith Bool ZArith Sorting.Permutation Sorting.Sorted.
From Verif Require Import Base BaseFacts Csys Sections Element Load FeModel Assembly Kernels Solver Post Api SpecApi ApiFacts SpecElim SpecGeom CsysFacts SpecBeam SpecAsm AsmProofs SpecLoad SpecSolve SpecTold SpecToldLoad Demo Demo2 SpecStatics SpecSame StaticsDemo StaticsDemo2 StaticsDemo3 SpecScale ScaleProofs ScaleDemo.
Import ListNotations.
Local Open Scope string_scope.
Local Open Scope list_scope.
Local Open Scope R_scope.

(** C139. Two histories that tell the same structure but for the stiffness of the members, which is c times as large in the
    second, and the same case: every displacement of the first is c times that of the second. *)
Theorem C139_stiffness ext ops ops' t t' l l' case c : never_readds_nodes ext ops -> never_readds_nodes ext ops' ->
  let w := final ext init (ops ++ [OpAssemble]) in let w' := final ext init (ops' ++ [OpAssemble]) in
  describes ext ops t l -> describes ext ops' t' l' -> rescaled c t t' -> same_loads l l' case ->
  (forall k j, flag (governing ext w' case) k j = flag (governing ext w case) k j) ->
  solved ext w case -> solved ext w' case -> stable ext w case ->
  forall k, answer ext w (OpNodeLocation k) <> RNone -> exists v, List.length v = 6%nat
  /\ answer ext (after ext w' (OpSolveStatic case)) (OpNodalDisp k case) = RVec v
  /\ answer ext (after ext w (OpSolveStatic case)) (OpNodalDisp k case) = RVec (map (Rmult c) v).
Proof. exact (m139_scaled ext ops ops' t t' l l' case c). Qed.
Print Assumptions C139_stiffness.
Example C139_stiffness_example : let w := final bench init (bar_calls true p0 p1 slim ++ [OpAssemble]) in let w' := final bench init (bar_calls true p0 p1 thick ++ [OpAssemble]) in
  exists v, List.length v = 6%nat /\ answer bench (after bench w' (OpSolveStatic "C")) (OpNodalDisp "B" "C") = RVec v
  /\ answer bench (after bench w (OpSolveStatic "C")) (OpNodalDisp "B" "C") = RVec (map (Rmult 2) v).
Proof.
  destruct (bars_described bench true p0 p1 slim sep_p slim_nodup) as (t & l & D & H & HL).
  destruct (bars_described bench true p0 p1 thick sep_p thick_nodup) as (t' & l' & D' & H' & HL').
  apply (C139_stiffness bench (bar_calls true p0 p1 slim) (bar_calls true p0 p1 thick) t t' l l' "C" 2 (bar_told bench true p0 p1 slim) (bar_told bench true p0 p1 thick) D D'
    (thick_scaled t t' H H') (same_same_loads _ _ _ (bars_same_case _ l l' HL HL'))); [|exact (solved_slim "C" (or_introl eq_refl) true)|exact (solved_thick true)
    |exact (bars_stable bench true p0 p1 slim sep_p slim_nodup "C" _ eq_refl eq_refl ltac:(discriminate) slim_pos)|exact (bars_there bench true p0 p1 slim sep_p slim_nodup "B" (or_intror eq_refl))].
  intros k j.
  rewrite (bars_flag bench true p0 p1 slim sep_p slim_nodup "C" _ k j eq_refl eq_refl), (bars_flag bench true p0 p1 thick sep_p thick_nodup "C" _ k j eq_refl eq_refl).
  reflexivity.
Qed.
