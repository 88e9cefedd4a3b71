(** C130: parts of a structure that nothing connects.
    Only statements, each closed by a lemma proved elsewhere, with the assumptions it
    rests on and an instance of its hypotheses. *)
From Coq Require Import Reals Lra Lia List String Arith Bool ZArith Sorting.Permutation Sorting.Sorted.
From Verif Require Import Base BaseFacts Csys Sections Element Load FeModel Assembly Solver Post Api SpecApi SpecGeom SpecBeam SpecAsm SpecLoad SpecSolve SpecTold SpecToldLoad SpecStatics SpecSame SpecPart PartProofs2 Demo StaticsDemo StaticsDemo2 StaticsDemo3 GaussDemo CutDemo PartProofs3 PartDemo PartDemo2.
Import ListNotations.
Local Open Scope string_scope.
Local Open Scope list_scope.
Local Open Scope R_scope.

(** C130. Two histories that agree about a part (its nodes, members, shells, supports and loads), which nothing connects with the
    rest, give the same displacements at the nodes of the part, whatever else they build. *)
Theorem C130_same ext ops ops' t t' l l' case part : never_readds_nodes ext ops -> never_readds_nodes ext ops' ->
  let w := final ext init (ops ++ [OpAssemble]) in let w' := final ext init (ops' ++ [OpAssemble]) in
  describes ext ops t l -> describes ext ops' t' l' -> apart part t -> apart part t' -> same_part part t t' ->
  part_case part t l l' case -> same_held part ext w w' case ->
  solved ext w case -> solved ext w' case -> stable ext w case -> symmetric_elements ext w -> symmetric_elements ext w' ->
  forall i, answer ext w (OpNodeLocation i) <> RNone -> part i = true -> exists v, List.length v = 6%nat
  /\ answer ext (after ext w (OpSolveStatic case)) (OpNodalDisp i case) = RVec v
  /\ answer ext (after ext w' (OpSolveStatic case)) (OpNodalDisp i case) = RVec v.
Proof. exact (m130_same ext ops ops' t t' l l' case part). Qed.
Print Assumptions C130_same.
Example C130_same_example : let ext := eliminate_ext zero_ker in let w := final ext init (canti_ops false ++ [OpAssemble]) in let w' := final ext init (duo_ops ++ [OpAssemble]) in
  exists v, List.length v = 6%nat /\ answer ext (after ext w (OpSolveStatic "C")) (OpNodalDisp "B" "C") = RVec v
  /\ answer ext (after ext w' (OpSolveStatic "C")) (OpNodalDisp "B" "C") = RVec v.
Proof.
  destruct (canti_described (eliminate_ext zero_ker) false) as (t & l & D & H & HL). destruct (duo_described (eliminate_ext zero_ker)) as (t' & l' & D' & H' & HL').
  exact (C130_same (eliminate_ext zero_ker) (canti_ops false) duo_ops t t' l l' "C" near (canti_fresh _ false) (duo_fresh _) D D'
    (canti_apart t H) (duo_apart t' near H' (or_introl eq_refl)) (duo_same t t' H H') (duo_part_case t l l' HL HL') (duo_held _ "C" (or_introl eq_refl))
    (canti_solved _ false "C" (or_introl eq_refl) (eliminate_exact _) (eliminate_able _)) (duo_solved _ "C" (or_introl eq_refl) (eliminate_exact _) (eliminate_able _))
    (canti_stable _ false "C" (or_introl eq_refl)) (canti_symmetric _ false) (duo_symmetric _) "B" (canti_there _ false "B" (or_intror eq_refl)) eq_refl).
Qed.

(** C130. A part that nothing connects with the rest and that the case does not load stays where it is. *)
Theorem C130_idle ext ops t l case part : never_readds_nodes ext ops -> let w := final ext init (ops ++ [OpAssemble]) in
  describes ext ops t l -> apart part t -> idle_case part t l case ->
  solved ext w case -> stable ext w case -> symmetric_elements ext w ->
  forall i, answer ext w (OpNodeLocation i) <> RNone -> part i = true ->
  answer ext (after ext w (OpSolveStatic case)) (OpNodalDisp i case) = RVec [0; 0; 0; 0; 0; 0].
Proof. exact (m130_idle ext ops t l case part). Qed.
Print Assumptions C130_idle.
Example C130_idle_example : let ext := eliminate_ext zero_ker in let w := final ext init (duo_ops ++ [OpAssemble]) in
  answer ext (after ext w (OpSolveStatic "D")) (OpNodalDisp "F" "D") = RVec [0; 0; 0; 0; 0; 0].
Proof.
  destruct (duo_described (eliminate_ext zero_ker)) as (t & l & D & H & HL).
  exact (C130_idle (eliminate_ext zero_ker) duo_ops t l "D" beside (duo_fresh _) D (duo_apart t beside H (or_intror eq_refl)) (duo_idle t l H HL)
    (duo_solved _ "D" (or_intror eq_refl) (eliminate_exact _) (eliminate_able _)) (duo_stable _ "D" (or_intror eq_refl)) (duo_symmetric _) "F" (duo_there _ "F" (or_intror eq_refl)) eq_refl).
Qed.

(** C130. What is stable stays stable when it is reduced to such a part: no part leans on the others. *)
Theorem C130_stable_part ext ops ops' t t' l l' case part : never_readds_nodes ext ops -> never_readds_nodes ext ops' ->
  let w := final ext init (ops ++ [OpAssemble]) in let w' := final ext init (ops' ++ [OpAssemble]) in
  describes ext ops t l -> describes ext ops' t' l' -> apart part t -> same_part part t t' -> same_held part ext w w' case ->
  stiffness ext w <> None -> stiffness ext w' <> None -> (forall k, t_node t' k <> None -> part k = true) ->
  stable ext w case -> stable ext w' case.
Proof. exact (m130_stable_part ext ops ops' t t' l l' case part). Qed.
Print Assumptions C130_stable_part.
Example C130_stable_part_example ext : stable ext (final ext init (canti_ops false ++ [OpAssemble])) "C".
Proof.
  destruct (canti_described ext false) as (t & l & D & H & HL). destruct (duo_described ext) as (t' & l' & D' & H' & HL').
  exact (C130_stable_part ext duo_ops (canti_ops false) t' t l' l "C" near (duo_fresh _) (canti_fresh _ false) D' D (duo_apart t' near H' (or_introl eq_refl))
    (part_sym _ _ _ (duo_same t t' H H')) (held_sym _ _ _ _ _ (duo_held _ "C" (or_introl eq_refl))) (duo_stiffness _) (canti_stiffness _ false)
    (fun k => canti_only t k H) (duo_stable _ "C" (or_introl eq_refl))).
Qed.

(** C130. If no element releases energy, and the part and the rest each occur in a stable structure, the whole is stable. *)
Theorem C130_stable_whole ext ops ops1 ops2 t t1 t2 l l1 l2 case part : never_readds_nodes ext ops -> never_readds_nodes ext ops1 -> never_readds_nodes ext ops2 ->
  let w := final ext init (ops ++ [OpAssemble]) in let w1 := final ext init (ops1 ++ [OpAssemble]) in let w2 := final ext init (ops2 ++ [OpAssemble]) in
  let rest := fun k => negb (part k) in
  describes ext ops t l -> describes ext ops1 t1 l1 -> describes ext ops2 t2 l2 ->
  apart part t -> apart part t1 -> apart rest t2 -> same_part part t1 t -> same_part rest t2 t ->
  same_held part ext w1 w case -> same_held rest ext w2 w case ->
  stiffness ext w <> None -> stiffness ext w1 <> None -> stiffness ext w2 <> None -> elastic ext w ->
  stable ext w1 case -> stable ext w2 case -> stable ext w case.
Proof. exact (m130_stable_whole ext ops ops1 ops2 t t1 t2 l l1 l2 case part). Qed.
Print Assumptions C130_stable_whole.
Example C130_stable_whole_example ext : stable ext (final ext init (duo_ops ++ [OpAssemble])) "C".
Proof.
  destruct (canti_described ext false) as (t1 & l1 & D1 & H1 & _). destruct (solo_described ext) as (t2 & l2 & D2 & H2). destruct (duo_described ext) as (t & l & D & H & _).
  exact (C130_stable_whole ext duo_ops (canti_ops false) solo_ops t t1 t2 l l1 l2 "C" near (duo_fresh _) (canti_fresh _ false) (solo_fresh _) D D1 D2
    (duo_apart t near H (or_introl eq_refl)) (canti_apart t1 H1) (solo_apart t2 H2) (duo_same t1 t H1 H) (solo_same t2 t H2 H) (duo_held _ "C" (or_introl eq_refl)) (solo_held _)
    (duo_stiffness _) (canti_stiffness _ false) (solo_stiffness _) (duo_elastic _) (canti_stable _ false "C" (or_introl eq_refl)) (solo_stable _)).
Qed.
