(** Static answers of frames are those of beam theory.
    Only statements, each closed by a lemma proved elsewhere, with the assumptions it
    rests on and an instance of its hypotheses. *)
From Coq Require Import Reals Lra Lia List String Arith Bool ZArith Sorting.Permutation Sorting.Sorted.
From Verif Require Import Base Csys Sections Element Load FeModel Assembly Solver Post Api SpecApi SpecGeom SpecBeam SpecAsm AsmProofs SpecElim SpecLoad SpecSolve SpecStatics StaticsDemo GaussDemo Demo SolveDemo CutDemo SpecTheory TheoryProofs TheoryDemo.
Import ListNotations.
Local Open Scope string_scope.
Local Open Scope list_scope.
Local Open Scope R_scope.

(** C119. Answers of a static case are those of beam theory, without discretisation error: with the displacements that
    the case stores, there are actions of the nodes on the members such that nothing moves at supports, every member
    obeys the differential equations of the bar under its loads, with the jumps at concentrated loads, between
    the displaced nodes, and every node is balanced in every free direction. *)
Theorem C119_answers ext ops c m : never_readds_nodes ext ops -> let w := final ext init (ops ++ [OpAssemble]) in
  solved ext w c -> assembled_model w = Some m -> f_shells m = [] ->
  (forall k b, In (k, b) (f_beams m) -> props_pos (b_prop b)) -> on_members w c m ->
  exists acts, frame_theory ext w c m (solution ext w c) acts.
Proof. exact (m119_answers ext ops c m). Qed.
Print Assumptions C119_answers.
Example C119_answers_example : let ext := eliminate_ext zero_ker in let w := final ext init (canti_ops false ++ [OpAssemble]) in
  exists acts, frame_theory ext w "C" (canti_fem false true) (solution ext w "C") acts.
Proof.
  intros ext w. destruct tip_solved as (S & _ & M).
  exact (C119_answers ext (canti_ops false) "C" _ (canti_fresh ext false) S M eq_refl (canti_positive ext false) (tip_on_member ext)).
Qed.

(** C119. In a stable structure there are no others: displacements that beam theory allows are those stored. *)
Theorem C119_unique ext ops c m U acts : never_readds_nodes ext ops -> let w := final ext init (ops ++ [OpAssemble]) in
  solved ext w c -> assembled_model w = Some m -> f_shells m = [] -> stable ext w c ->
  frame_theory ext w c m U acts -> forall q, (q < equations w)%nat -> solution ext w c q = U q.
Proof. exact (m119_unique ext ops c m U acts). Qed.
Print Assumptions C119_unique.
(** The deflection of the end of a cantilever of unit length with EI = 4 under a line load from 16 to 8, a force 6 at
    five eighths and 10 at the end: 10/12 + 8/32 + 8/120 + 6 (5/8)^2 (3 - 5/8) / 24. *)
Example C119_unique_example : let ext := eliminate_ext zero_ker in let w := final ext init (canti_ops false ++ [OpAssemble]) in
  solution ext w "C" 8%nat = 10/12 + 8/32 + 8/120 + 6 * (5/8)^2 * (3 - 5/8) / 24.
Proof.
  intros ext w. destruct tip_solved as (S & ST & M).
  assert (Q : (8 < equations w)%nat) by (unfold equations; change (assembled_model w) with (assembled_model (final (eliminate_ext zero_ker) init (canti_ops false ++ [OpAssemble]))); rewrite M; cbn; lia).
  pose proof (C119_unique ext (canti_ops false) "C" _ tip_values tip_acts (canti_fresh ext false) S M eq_refl ST (tip_theory ext) 8%nat Q) as E. fold w in E. rewrite E.
  unfold tip_values, tip_deflection; cbn [nth]. lra.
Qed.

(** C119. Nor are there other actions on the members. *)
Theorem C119_actions ext ops c m U acts U' acts' : never_readds_nodes ext ops -> let w := final ext init (ops ++ [OpAssemble]) in
  solved ext w c -> assembled_model w = Some m -> f_shells m = [] -> stable ext w c ->
  frame_theory ext w c m U acts -> frame_theory ext w c m U' acts' -> forall k b, In (k, b) (f_beams m) -> acts k = acts' k.
Proof. exact (m119_actions ext ops c m U acts U' acts'). Qed.
Print Assumptions C119_actions.
Example C119_actions_example : let ext := eliminate_ext zero_ker in let w := final ext init (canti_ops false ++ [OpAssemble]) in
  forall acts, frame_theory ext w "C" (canti_fem false true) (solution ext w "C") acts -> acts "k" = Ends (V3 0 (-28) 0) (V3 0 0 (- (229 / 12))) (V3 0 10 0) zero3.
Proof.
  intros ext w acts H. destruct tip_solved as (S & ST & M).
  exact (C119_actions ext (canti_ops false) "C" _ _ acts _ tip_acts (canti_fresh ext false) S M eq_refl ST H (tip_theory ext) "k" _ (or_introl eq_refl)).
Qed.
