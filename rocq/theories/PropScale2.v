(** C140: modes of structures that differ in the stiffness of their members alone.
    Only statements, each closed by a lemma proved elsewhere, with the assumptions it
    rests on and an instance of its hypotheses. *)
From Coq Require Import Reals Lra Lia List String Arith Bool ZArith Sorting.Permutation Sorting.Sorted.
From Verif Require Import Base BaseFacts Csys Sections Element Load FeModel Assembly Kernels Solver Post Api SpecApi ApiFacts SpecElim SpecGeom CsysFacts SpecBeam SpecAsm AsmProofs SpecLoad SpecSolve SpecMass Dynamic SpecDyn SpecModal ModalProofs SpecTold SpecToldLoad Demo Demo2 SpecStatics SpecSame StaticsDemo StaticsDemo2 StaticsDemo3 SpecFreq FreqDemo SpecPartModal SpecScale SpecModal2 ScaleProofs2 ScaleProofs3 ScaleDemo.
Import ListNotations.
Local Open Scope string_scope.
Local Open Scope list_scope.
Local Open Scope R_scope.

(** C140. Two histories that tell the same structure with the same masses but for the stiffness of the members, which is c times as
    large in the second: every mode that a modal case of the first finds is one of the second, with c times the square of the
    circular frequency. *)
Theorem C140_modes ext ops ops' t t' l l' eigsh a case st modes o c m m' : never_readds_nodes ext ops -> never_readds_nodes ext ops' ->
  let w := final ext init (ops ++ [OpAssemble]) in let w' := final ext init (ops' ++ [OpAssemble]) in
  describes ext ops t l -> describes ext ops' t' l' -> rescaled c t t' -> same_mass t t' ->
  (forall k j, flag (governing ext w' case) k j = flag (governing ext w case) k j) ->
  stiffness ext w' <> None -> assembled_model w = Some m -> assembled_model w' = Some m' ->
  exact_eigen eigsh -> read_asb w = Some a -> solve_eigen (x_ker ext) eigsh a case st = Some (modes, o) ->
  forall i lambda x U V, nth_error o i = Some lambda -> nth_error modes i = Some x -> shape_of ext w case x U -> seen_in (fun _ => true) m m' U V ->
  swings ext w' case (c * lambda) V /\ exists q, (q < equations w')%nat /\ V q <> 0.
Proof. exact (m140_modes ext ops ops' t t' l l' eigsh a case st modes o c m m'). Qed.
Print Assumptions C140_modes.
Example C140_modes_example : let w' := final bench init (bar_calls true p0 p1 thick ++ [OpAssemble]) in
  exists U, swings bench w' "C" (2 * (2 * 1)) U /\ exists q, (q < equations w')%nat /\ U q <> 0.
Proof.
  destruct (bars_described bench true p0 p1 slim sep_p slim_nodup) as (t & l & D & H & HL).
  destruct (bars_described bench true p0 p1 thick sep_p thick_nodup) as (t' & l' & D' & H' & HL').
  destruct (bar_all true 1) as (a & _ & _ & Ha & _).
  destruct (m116_modes bench (bar_calls true p0 p1 slim) (bar_mode 1) a "C" (Modal 1 None) _ _ (bar_told bench true p0 p1 slim) (bar_mode_exact 1) Ha (bar_C true 1 a Ha) 0%nat _ _ eq_refl eq_refl) as ((U & SU) & _).
  exists U.
  refine (C140_modes bench (bar_calls true p0 p1 slim) (bar_calls true p0 p1 thick) t t' l l' (bar_mode 1) a "C" (Modal 1 None) _ _ 2 (bar_fem true p0 p1 slim) (bar_fem true p0 p1 thick)
    (bar_told bench true p0 p1 slim) (bar_told bench true p0 p1 thick) D D' (thick_scaled t t' H H') (thick_mass t t' H H') _
    (bars_stiffness bench true p0 p1 thick sep_p thick_nodup) (bars_model bench true p0 p1 slim sep_p slim_nodup) (bars_model bench true p0 p1 thick sep_p thick_nodup)
    (bar_mode_exact 1) Ha (bar_C true 1 a Ha) 0%nat _ _ U U eq_refl eq_refl SU _).
  - intros k j.
    rewrite (bars_flag bench true p0 p1 slim sep_p slim_nodup "C" _ k j eq_refl eq_refl), (bars_flag bench true p0 p1 thick sep_p thick_nodup "C" _ k j eq_refl eq_refl).
    reflexivity.
  - intros k j _ _. reflexivity.
Qed.

(** C140. Both modal cases find the same modes: with solvers that answer the lowest modes, the square of the i-th circular frequency of the
    second structure is c times that of the first. *)
Theorem C140_squares ext ops ops' t t' l l' eigsh eigsh' a a' case st st' modes modes' o o' c : 0 < c -> never_readds_nodes ext ops -> never_readds_nodes ext ops' ->
  let w := final ext init (ops ++ [OpAssemble]) in let w' := final ext init (ops' ++ [OpAssemble]) in
  describes ext ops t l -> describes ext ops' t' l' -> rescaled c t t' -> same_mass t t' ->
  (forall k j, flag (governing ext w' case) k j = flag (governing ext w case) k j) ->
  exact_eigen eigsh -> lowest_eigen eigsh -> exact_eigen eigsh' -> lowest_eigen eigsh' -> read_asb w = Some a -> read_asb w' = Some a' ->
  solve_eigen (x_ker ext) eigsh a case st = Some (modes, o) -> solve_eigen (x_ker ext) eigsh' a' case st' = Some (modes', o') ->
  symmetric_elements ext w -> symmetric_elements ext w' -> elastic ext w -> elastic ext w' -> massive w -> massive w' -> stable ext w case ->
  forall i lambda lambda', nth_error o i = Some lambda -> nth_error o' i = Some lambda' -> lambda' = c * lambda.
Proof. exact (m140_squares ext ops ops' t t' l l' eigsh eigsh' a a' case st st' modes modes' o o' c). Qed.
Print Assumptions C140_squares.
Example C140_squares_example : let w := final bench init (bar_calls true p0 p1 slim ++ [OpAssemble]) in let w' := final bench init (bar_calls true p0 p1 thick ++ [OpAssemble]) in
  exists a a', read_asb w = Some a /\ read_asb w' = Some a'
  /\ solve_eigen (x_ker bench) (bar_mode 1) a "C" (Modal 1 None) = Some ([[1;0;0;0;0;0]], [2 * 1])
  /\ solve_eigen (x_ker bench) (bar_mode 2) a' "C" (Modal 1 None) = Some ([[1;0;0;0;0;0]], [2 * 2])
  /\ forall i l l', nth_error [2 * 1] i = Some l -> nth_error [2 * 2] i = Some l' -> l' = 2 * l.
Proof.
  intros w w'. destruct (bar_all true 1) as (a & _ & _ & Ha & _). destruct (bar_all true 2) as (a' & _ & _ & Ha' & _). exists a, a'.
  split; [exact Ha|]. split; [exact Ha'|]. split; [exact (bar_C true 1 a Ha)|]. split; [exact (bar_C true 2 a' Ha')|].
  destruct (bars_described bench true p0 p1 slim sep_p slim_nodup) as (t & l & D & H & HL).
  destruct (bars_described bench true p0 p1 thick sep_p thick_nodup) as (t' & l' & D' & H' & HL').
  refine (C140_squares bench (bar_calls true p0 p1 slim) (bar_calls true p0 p1 thick) t t' l l' (bar_mode 1) (bar_mode 2) a a' "C" (Modal 1 None) (Modal 1 None) [[1;0;0;0;0;0]] [[1;0;0;0;0;0]] [2 * 1] [2 * 2] 2 ltac:(lra)
    (bar_told bench true p0 p1 slim) (bar_told bench true p0 p1 thick) D D' (thick_scaled t t' H H') (thick_mass t t' H H') _ (bar_mode_exact 1) (bar_mode_lowest 1 ltac:(lra)) (bar_mode_exact 2) (bar_mode_lowest 2 ltac:(lra))
    Ha Ha' (bar_C true 1 a Ha) (bar_C true 2 a' Ha') (bars_symmetric bench true p0 p1 slim sep_p slim_nodup) (bars_symmetric bench true p0 p1 thick sep_p thick_nodup)
    (bars_elastic bench true p0 p1 slim sep_p slim_nodup (fun k E H => Rlt_le _ _ (slim_pos k E H))) (bars_elastic bench true p0 p1 thick sep_p thick_nodup _)
    (bar_massive true 1) (bar_massive true 2) (slim_stable true "C" _ eq_refl eq_refl)).
  - intros k j.
    rewrite (bars_flag bench true p0 p1 slim sep_p slim_nodup "C" _ k j eq_refl eq_refl), (bars_flag bench true p0 p1 thick sep_p thick_nodup "C" _ k j eq_refl eq_refl).
    reflexivity.
  - intros k E [Q|[]]. injection Q as _ <-. lra.
Qed.
