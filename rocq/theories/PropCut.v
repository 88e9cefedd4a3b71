(** C115: cutting a member by a node on it.
    Only statements, each closed by a lemma proved elsewhere, with the assumptions it
    rests on and an instance of its hypotheses. *)
From Coq Require Import Reals Lra Lia List String Arith Bool ZArith Sorting.Permutation Sorting.Sorted.
From Verif Require Import Base BaseFacts Csys Sections Element Load FeModel Assembly Solver Post Api SpecApi SpecGeom SpecBeam SpecAsm SpecLoad SpecSolve SpecTold SpecToldLoad SpecStatics SpecSame SpecCut CutProofs2 Demo StaticsDemo StaticsDemo2 StaticsDemo3 GaussDemo CutDemo.
Import ListNotations.
Local Open Scope string_scope.
Local Open Scope list_scope.
Local Open Scope R_scope.

(** C115. Cutting a member by a free node on it, its loads shared out to the parts, changes no displacement at any
    node that was there. *)
Theorem C115_same ext ops ops' t t' l l' case r k k2 n a b pa pb : never_readds_nodes ext ops -> never_readds_nodes ext ops' ->
  let w := final ext init (ops ++ [OpAssemble]) in let w' := final ext init (ops' ++ [OpAssemble]) in
  describes ext ops t l -> describes ext ops' t' l' -> cut r k k2 n a b pa pb t t' -> cut_case r k k2 n l l' case ->
  solved ext w case -> solved ext w' case -> stable ext w case -> symmetric_elements ext w ->
  forall i, answer ext w (OpNodeLocation i) <> RNone -> exists v, List.length v = 6%nat
  /\ answer ext (after ext w (OpSolveStatic case)) (OpNodalDisp i case) = RVec v
  /\ answer ext (after ext w' (OpSolveStatic case)) (OpNodalDisp i case) = RVec v.
Proof. exact (m115_same ext ops ops' t t' l l' case r k k2 n a b pa pb). Qed.
Print Assumptions C115_same.
Example C115_same_example : let ext := eliminate_ext zero_ker in let w := final ext init (canti_ops false ++ [OpAssemble]) in let w' := final ext init (canti_ops true ++ [OpAssemble]) in
  exists v, List.length v = 6%nat /\ answer ext (after ext w (OpSolveStatic "C")) (OpNodalDisp "B" "C") = RVec v
  /\ answer ext (after ext w' (OpSolveStatic "C")) (OpNodalDisp "B" "C") = RVec v.
Proof.
  destruct (canti_described (eliminate_ext zero_ker) false) as (t & l & D & H & HL). destruct (canti_described (eliminate_ext zero_ker) true) as (t' & l' & D' & H' & HL').
  exact (C115_same (eliminate_ext zero_ker) (canti_ops false) (canti_ops true) t t' l l' "C" (1/4) "k" "k2" "N" "A" "B" p0 p1 (canti_fresh _ false) (canti_fresh _ true) D D'
    (canti_cut t t' H H') (canti_cut_case l l' "C" HL HL' (or_introl eq_refl))
    (canti_solved _ false "C" (or_introl eq_refl) (eliminate_exact _) (eliminate_able _)) (canti_solved _ true "C" (or_introl eq_refl) (eliminate_exact _) (eliminate_able _))
    (canti_stable _ false "C" (or_introl eq_refl)) (canti_symmetric _ false) "B" (canti_there _ false "B" (or_intror eq_refl))).
Qed.

(** C115. If the member carries no load, the new node moves and turns as the deflection curve through the answers at
    the ends of the member does there. *)
Theorem C115_between ext ops ops' t t' l l' case r k k2 n a b pa pb : never_readds_nodes ext ops -> never_readds_nodes ext ops' ->
  let w := final ext init (ops ++ [OpAssemble]) in let w' := final ext init (ops' ++ [OpAssemble]) in
  describes ext ops t l -> describes ext ops' t' l' -> cut r k k2 n a b pa pb t t' -> cut_case r k k2 n l l' case ->
  solved ext w case -> solved ext w' case -> stable ext w' case -> symmetric_elements ext w -> unloaded l case k ->
  let member := along (axis_x pa pb) (axis_y pa pb) (axis_z pa pb) in
  exists va vb v, answer ext (after ext w (OpSolveStatic case)) (OpNodalDisp a case) = RVec va
  /\ answer ext (after ext w (OpSolveStatic case)) (OpNodalDisp b case) = RVec vb
  /\ answer ext (after ext w' (OpSolveStatic case)) (OpNodalDisp n case) = RVec v
  /\ forall f, beam_field f ->
     ends_of_field f (distance pa pb) = Ends (member (shift_of va)) (member (spin_of va)) (member (shift_of vb)) (member (spin_of vb)) ->
     member (shift_of v) = disp_x f (r * distance pa pb) /\ member (spin_of v) = rot_x f (r * distance pa pb).
Proof. exact (m115_between ext ops ops' t t' l l' case r k k2 n a b pa pb). Qed.
Print Assumptions C115_between.
Example C115_between_example : let ext := eliminate_ext zero_ker in let w := final ext init (canti_ops false ++ [OpAssemble]) in let w' := final ext init (canti_ops true ++ [OpAssemble]) in
  let member := along (axis_x p0 p1) (axis_y p0 p1) (axis_z p0 p1) in
  exists va vb v, answer ext (after ext w (OpSolveStatic "D")) (OpNodalDisp "A" "D") = RVec va
  /\ answer ext (after ext w (OpSolveStatic "D")) (OpNodalDisp "B" "D") = RVec vb
  /\ answer ext (after ext w' (OpSolveStatic "D")) (OpNodalDisp "N" "D") = RVec v
  /\ forall f, beam_field f ->
     ends_of_field f (distance p0 p1) = Ends (member (shift_of va)) (member (spin_of va)) (member (shift_of vb)) (member (spin_of vb)) ->
     member (shift_of v) = disp_x f (1/4 * distance p0 p1) /\ member (spin_of v) = rot_x f (1/4 * distance p0 p1).
Proof.
  destruct (canti_described (eliminate_ext zero_ker) false) as (t & l & D & H & HL). destruct (canti_described (eliminate_ext zero_ker) true) as (t' & l' & D' & H' & HL').
  exact (C115_between (eliminate_ext zero_ker) (canti_ops false) (canti_ops true) t t' l l' "D" (1/4) "k" "k2" "N" "A" "B" p0 p1 (canti_fresh _ false) (canti_fresh _ true) D D'
    (canti_cut t t' H H') (canti_cut_case l l' "D" HL HL' (or_intror eq_refl))
    (canti_solved _ false "D" (or_intror eq_refl) (eliminate_exact _) (eliminate_able _)) (canti_solved _ true "D" (or_intror eq_refl) (eliminate_exact _) (eliminate_able _))
    (canti_stable _ true "D" (or_intror eq_refl)) (canti_symmetric _ false) (canti_unloaded l HL)).
Qed.

(** C115. The structure with the cut member is stable exactly if the one without is. *)
Theorem C115_stable ext ops ops' t t' l l' case r k k2 n a b pa pb : never_readds_nodes ext ops -> never_readds_nodes ext ops' ->
  let w := final ext init (ops ++ [OpAssemble]) in let w' := final ext init (ops' ++ [OpAssemble]) in
  describes ext ops t l -> describes ext ops' t' l' -> cut r k k2 n a b pa pb t t' -> cut_case r k k2 n l l' case ->
  elastic ext w -> (forall p, t_beam t k = Some (a, b, p) -> props_pos p) ->
  (stable ext w case <-> stable ext w' case).
Proof. exact (m115_stable ext ops ops' t t' l l' case r k k2 n a b pa pb). Qed.
Print Assumptions C115_stable.
Example C115_stable_example : let ext := eliminate_ext zero_ker in stable ext (final ext init (canti_ops true ++ [OpAssemble])) "C".
Proof.
  destruct (canti_described (eliminate_ext zero_ker) false) as (t & l & D & H & HL). destruct (canti_described (eliminate_ext zero_ker) true) as (t' & l' & D' & H' & HL').
  exact (proj1 (C115_stable (eliminate_ext zero_ker) (canti_ops false) (canti_ops true) t t' l l' "C" (1/4) "k" "k2" "N" "A" "B" p0 p1 (canti_fresh _ false) (canti_fresh _ true) D D'
    (canti_cut t t' H H') (canti_cut_case l l' "C" HL HL' (or_introl eq_refl))
    (canti_elastic _ false) (fun p => canti_props t "A" "B" p H)) (canti_stable _ false "C" (or_introl eq_refl))).
Qed.
