(** Comparison of the modes of modal cases.
    Only statements, each closed by a lemma proved elsewhere, with the assumptions it
    rests on and an instance of its hypotheses. *)
From Coq Require Import Reals Lra Lia List String Arith Bool ZArith Sorting.Permutation Sorting.Sorted.
From Verif Require Import Base Csys Sections Element Load FeModel Assembly Solver Post Api SpecApi SpecGeom SpecBeam SpecAsm SpecElim SpecLoad SpecSolve SpecMass SpecStatics SpecTold SpecToldLoad SpecSame StaticsDemo StaticsDemo2 StaticsDemo3 Dynamic SpecDyn SpecModal SpecFreq FreqProofs2 FreqDemo.
Import ListNotations.
Local Open Scope string_scope.
Local Open Scope list_scope.
Local Open Scope R_scope.

(** C121. The stored eigenvalues are the lowest: displacements that the supports permit and that have no inertia in common
    with the modes before number i have at least the quotient of strain energy and kinetic energy of mode i; with i = 0,
    no displacements whatever have less than the first. *)
Theorem C121_rayleigh ext ops eigsh a c st modes o : never_readds_nodes ext ops -> let w := final ext init (ops ++ [OpAssemble]) in
  exact_eigen eigsh -> lowest_eigen eigsh -> read_asb w = Some a -> solve_eigen (x_ker ext) eigsh a c st = Some (modes, o) ->
  symmetric_elements ext w -> elastic ext w -> massive w -> stable ext w c ->
  forall U i lambda v, shapes_of ext w c modes U -> nth_error o i = Some lambda -> permitted ext w c v -> (forall j, (j < i)%nat -> inertia w v (U j) = 0) ->
  lambda * inertia w v v <= energy ext w v v.
Proof. exact (m121_rayleigh ext ops eigsh a c st modes o). Qed.
Print Assumptions C121_rayleigh.
Example C121_rayleigh_example : let w := final bench init (bar_calls true p0 p1 slim ++ [OpAssemble]) in
  forall v, permitted bench w "C" v -> 2 * 1 * inertia w v v <= energy bench w v v.
Proof.
  intros w v PV. destruct (bar_all true 1) as (a & _ & _ & Ha & _).
  destruct (made_shapes bench _ (bar_told bench true p0 p1 slim) (bar_mode 1) a "C" (Modal 1 None) _ _ (bar_mode_exact 1) Ha (bar_C true 1 a Ha)) as (U & SU).
  exact (C121_rayleigh bench _ (bar_mode 1) a "C" (Modal 1 None) _ _ (bar_told bench true p0 p1 slim) (bar_mode_exact 1) (bar_mode_lowest 1 Rlt_0_1) Ha (bar_C true 1 a Ha)
    (bars_symmetric bench true p0 p1 slim sep_p slim_nodup) (bars_elastic bench true p0 p1 slim sep_p slim_nodup (fun k E H => Rlt_le _ _ (slim_pos k E H))) (bar_massive true 1) (slim_stable true "C" _ eq_refl eq_refl)
    U 0%nat (2 * 1) v SU eq_refl PV ltac:(intros j Hj; lia)).
Qed.

(** C121. Holding more never lowers an eigenvalue, whatever solver found them; and the eigenvalues under the same supports
    are the same, whatever solver found them. *)
Theorem C121_supports ext ops eigsh eigsh' a c c' st st' modes modes' o o' : never_readds_nodes ext ops -> let w := final ext init (ops ++ [OpAssemble]) in
  exact_eigen eigsh -> lowest_eigen eigsh -> exact_eigen eigsh' -> lowest_eigen eigsh' -> read_asb w = Some a ->
  solve_eigen (x_ker ext) eigsh a c st = Some (modes, o) -> solve_eigen (x_ker ext) eigsh' a c' st' = Some (modes', o') ->
  symmetric_elements ext w -> elastic ext w -> massive w -> stable ext w c ->
  (forall q, restrained_for ext w c q -> restrained_for ext w c' q) ->
  forall i lambda lambda', nth_error o i = Some lambda -> nth_error o' i = Some lambda' -> lambda <= lambda'.
Proof. exact (m121_supports ext ops eigsh eigsh' a c c' st st' modes modes' o o'). Qed.
Print Assumptions C121_supports.
Example C121_supports_example : let w := final bench init (bar_calls true p0 p1 slim ++ [OpAssemble]) in
  exists a, read_asb w = Some a
  /\ solve_eigen (x_ker bench) (bar_mode 1) a "C" (Modal 1 None) = Some ([[1;0;0;0;0;0]], [2 * 1])
  /\ forall eigsh st modes o l, exact_eigen eigsh -> lowest_eigen eigsh -> solve_eigen (x_ker bench) eigsh a "S" st = Some (modes, l :: o) -> 2 * 1 <= l.
Proof.
  intros w. destruct (bar_all true 1) as (a & _ & _ & Ha & _). exists a. split; [exact Ha|]. split; [exact (bar_C true 1 a Ha)|].
  intros eigsh st modes o l EX LO HS.
  apply (C121_supports bench (bar_calls true p0 p1 slim) (bar_mode 1) eigsh a "C" "S" (Modal 1 None) st _ modes _ (l :: o) (bar_told bench true p0 p1 slim) (bar_mode_exact 1) (bar_mode_lowest 1 Rlt_0_1) EX LO Ha (bar_C true 1 a Ha) HS
    (bars_symmetric bench true p0 p1 slim sep_p slim_nodup) (bars_elastic bench true p0 p1 slim sep_p slim_nodup (fun k E H => Rlt_le _ _ (slim_pos k E H))) (bar_massive true 1) (slim_stable true "C" _ eq_refl eq_refl)) with (i := 0%nat); [|reflexivity|reflexivity].
  intros q (n & k & i & j & A & B & C & D & F). exists n, k, i, j. repeat split; auto. apply (bars_guided bench true p0 p1 slim sep_p slim_nodup). exact F.
Qed.
(** There is such a solver for the second case. *)
Example C121_supports_guided : exists a, read_asb (final bench init (bar_calls true p0 p1 slim ++ [OpAssemble])) = Some a
  /\ exact_eigen (guided_mode 1) /\ lowest_eigen (guided_mode 1) /\ solve_eigen (x_ker bench) (guided_mode 1) a "S" (Modal 1 None) = Some ([[1;0;0;0;0]], [2 * 1]).
Proof.
  destruct (bar_all true 1) as (a & _ & _ & Ha & _). exists a. split; [exact Ha|]. split; [apply guided_mode_exact|]. split; [exact (guided_mode_lowest 1 Rlt_0_1)|]. exact (bar_S true 1 a Ha).
Qed.

(** C121. Neither do stiffer members, smaller masses or more supports, told in another history of calls. *)
Theorem C121_told ext ops ops' t t' l l' eigsh eigsh' a a' c st st' modes modes' o o' : never_readds_nodes ext ops -> never_readds_nodes ext ops' ->
  let w := final ext init (ops ++ [OpAssemble]) in let w' := final ext init (ops' ++ [OpAssemble]) in
  describes ext ops t l -> describes ext ops' t' l' -> stiffer_lighter t t' ->
  (forall k j, flag (governing ext w c) k j = true -> flag (governing ext w' c) k j = true) ->
  exact_eigen eigsh -> lowest_eigen eigsh -> exact_eigen eigsh' -> lowest_eigen eigsh' -> read_asb w = Some a -> read_asb w' = Some a' ->
  solve_eigen (x_ker ext) eigsh a c st = Some (modes, o) -> solve_eigen (x_ker ext) eigsh' a' c st' = Some (modes', o') ->
  symmetric_elements ext w -> elastic ext w -> elastic ext w' -> massive w -> massive w' -> stable ext w c ->
  forall i lambda lambda', nth_error o i = Some lambda -> nth_error o' i = Some lambda' -> lambda <= lambda'.
Proof. exact (m121_told ext ops ops' t t' l l' eigsh eigsh' a a' c st st' modes modes' o o'). Qed.
Print Assumptions C121_told.
Example C121_told_example : let w := final bench init (bar_calls true p0 p1 slim ++ [OpAssemble]) in let w' := final bench init (bar_calls false p0 p1 thick ++ [OpAssemble]) in
  exists a a', read_asb w = Some a /\ read_asb w' = Some a'
  /\ solve_eigen (x_ker bench) (bar_mode 1) a "C" (Modal 1 None) = Some ([[1;0;0;0;0;0]], [2 * 1])
  /\ solve_eigen (x_ker bench) (bar_mode 2) a' "C" (Modal 1 None) = Some ([[1;0;0;0;0;0]], [2 * 2])
  /\ forall i l l', nth_error [2 * 1] i = Some l -> nth_error [2 * 2] i = Some l' -> l <= l'.
Proof.
  intros w w'. destruct (bar_all true 1) as (a & _ & _ & Ha & _). destruct (bar_all false 2) as (a' & _ & _ & Ha' & _). exists a, a'.
  split; [exact Ha|]. split; [exact Ha'|]. split; [exact (bar_C true 1 a Ha)|]. split; [exact (bar_C false 2 a' Ha')|].
  destruct (bars_described bench true p0 p1 slim sep_p slim_nodup) as (t & l & D & H & HL).
  destruct (bars_described bench false p0 p1 thick sep_p thick_nodup) as (t' & l' & D' & H' & HL').
  apply (C121_told bench (bar_calls true p0 p1 slim) (bar_calls false p0 p1 thick) t t' l l' (bar_mode 1) (bar_mode 2) a a' "C" (Modal 1 None) (Modal 1 None) [[1;0;0;0;0;0]] [[1;0;0;0;0;0]] [2 * 1] [2 * 2] (bar_told bench true p0 p1 slim) (bar_told bench false p0 p1 thick) D D'); auto.
  - apply (bars_lighter true false p0 p1 slim thick t t' H H'). intros k. cbn [slim thick dget]. destruct (String.eqb k "b"); [lra|exact I].
  - intros k j. rewrite (bars_flag bench true p0 p1 slim sep_p slim_nodup "C" _ k j eq_refl eq_refl), (bars_flag bench false p0 p1 thick sep_p thick_nodup "C" _ k j eq_refl eq_refl). auto.
  - apply bar_mode_exact.
  - apply bar_mode_lowest; lra.
  - apply bar_mode_exact.
  - apply bar_mode_lowest; lra.
  - exact (bar_C true 1 a Ha).
  - exact (bar_C false 2 a' Ha').
  - exact (bars_symmetric bench true p0 p1 slim sep_p slim_nodup).
  - exact (bars_elastic bench true p0 p1 slim sep_p slim_nodup (fun k E H => Rlt_le _ _ (slim_pos k E H))).
  - apply (bars_elastic bench false p0 p1 thick sep_p thick_nodup). intros k E [X|[]]. injection X as <- <-. lra.
  - exact (bar_massive true 1).
  - exact (bar_massive false 2).
  - exact (slim_stable true "C" _ eq_refl eq_refl).
Qed.

(** C121. Two histories that tell the same structure, masses and supports have the same eigenvalues, whatever solvers found
    them. *)
Theorem C121_same ext ops ops' t t' l l' eigsh eigsh' a a' c st st' modes modes' o o' : never_readds_nodes ext ops -> never_readds_nodes ext ops' ->
  let w := final ext init (ops ++ [OpAssemble]) in let w' := final ext init (ops' ++ [OpAssemble]) in
  describes ext ops t l -> describes ext ops' t' l' -> same_structure t t' -> (forall k, t_node t' k = t_node t k) ->
  (forall k j, flag (governing ext w' c) k j = flag (governing ext w c) k j) ->
  exact_eigen eigsh -> lowest_eigen eigsh -> exact_eigen eigsh' -> lowest_eigen eigsh' -> read_asb w = Some a -> read_asb w' = Some a' ->
  solve_eigen (x_ker ext) eigsh a c st = Some (modes, o) -> solve_eigen (x_ker ext) eigsh' a' c st' = Some (modes', o') ->
  symmetric_elements ext w -> symmetric_elements ext w' -> elastic ext w -> elastic ext w' -> massive w -> massive w' -> stable ext w c ->
  forall i lambda lambda', nth_error o i = Some lambda -> nth_error o' i = Some lambda' -> lambda = lambda'.
Proof. exact (m121_same ext ops ops' t t' l l' eigsh eigsh' a a' c st st' modes modes' o o'). Qed.
Print Assumptions C121_same.
Example C121_same_example : let w := final bench init (bar_calls true p0 p1 slim ++ [OpAssemble]) in let w' := final bench init (bar_calls false p0 p1 slim ++ [OpAssemble]) in
  exists a a', read_asb w = Some a /\ read_asb w' = Some a'
  /\ solve_eigen (x_ker bench) (bar_mode 1) a "C" (Modal 1 None) = Some ([[1;0;0;0;0;0]], [2 * 1])
  /\ forall eigsh st modes o l, exact_eigen eigsh -> lowest_eigen eigsh -> solve_eigen (x_ker bench) eigsh a' "C" st = Some (modes, l :: o) -> 2 * 1 = l.
Proof.
  intros w w'. destruct (bar_all true 1) as (a & _ & _ & Ha & _). destruct (bar_all false 1) as (a' & _ & _ & Ha' & _). exists a, a'.
  split; [exact Ha|]. split; [exact Ha'|]. split; [exact (bar_C true 1 a Ha)|]. intros eigsh st modes o x EX LO HS.
  destruct (bars_described bench true p0 p1 slim sep_p slim_nodup) as (t & l & D & H & HL).
  destruct (bars_described bench false p0 p1 slim sep_p slim_nodup) as (t' & l' & D' & H' & HL').
  apply (C121_same bench (bar_calls true p0 p1 slim) (bar_calls false p0 p1 slim) t t' l l' (bar_mode 1) eigsh a a' "C" (Modal 1 None) st [[1;0;0;0;0;0]] modes [2 * 1] (x :: o) (bar_told bench true p0 p1 slim) (bar_told bench false p0 p1 slim) D D') with (i := 0%nat); auto.
  - exact (bars_same_structure true false p0 p1 slim t t' H H').
  - intros k. exact (bars_nodes_told true false p0 p1 slim slim t t' k H H').
  - intros k j. rewrite (bars_flag bench true p0 p1 slim sep_p slim_nodup "C" _ k j eq_refl eq_refl), (bars_flag bench false p0 p1 slim sep_p slim_nodup "C" _ k j eq_refl eq_refl). reflexivity.
  - apply bar_mode_exact.
  - apply bar_mode_lowest; lra.
  - exact (bar_C true 1 a Ha).
  - exact (bars_symmetric bench true p0 p1 slim sep_p slim_nodup).
  - exact (bars_symmetric bench false p0 p1 slim sep_p slim_nodup).
  - exact (bars_elastic bench true p0 p1 slim sep_p slim_nodup (fun k E H => Rlt_le _ _ (slim_pos k E H))).
  - exact (bars_elastic bench false p0 p1 slim sep_p slim_nodup (fun k E H => Rlt_le _ _ (slim_pos k E H))).
  - exact (bar_massive true 1).
  - exact (bar_massive false 1).
  - exact (slim_stable true "C" _ eq_refl eq_refl).
Qed.
