(** C138: a delayed load gives the delayed motion.
    Only statements, each closed by a lemma proved elsewhere, with the assumptions it
    rests on and an instance of its hypotheses. *)
From Coq Require Import Reals Lra Lia List String Arith Bool ZArith Sorting.Permutation Sorting.Sorted.
From Verif Require Import Base BaseFacts Csys Sections Element Load FeModel Assembly Solver Post Api SpecAsm SpecSolve Dynamic SpecDyn DynProofs DynDemo SpecEnergy EnergyProofs EnergyDemo SpecSuper SuperProofs SuperDemo DriveDemo DelayProofs.
Import ListNotations.
Local Open Scope string_scope.
Local Open Scope list_scope.
Local Open Scope R_scope.

(** C138. With Newmark's method a load that comes m steps later moves a structure at rest in the same way m steps later. *)
Theorem C138_newmark : forall N solve K M C beta gamma T0 T1 T T0' T1' T' F F' s s' out out' m, exact_linear solve ->
  0 < beta -> 0 <= gamma -> T0 < T1 -> T1' - T0' = T1 - T0 -> inertial N M -> psd_upto N K -> psd_upto N C ->
  newmark N solve K M C beta gamma (T0 :: T1 :: T) F s = Some out -> newmark N solve K M C beta gamma (T0' :: T1' :: T') F' s' = Some out' ->
  at_rest N s -> at_rest N s' -> delayed N m F F' ->
  forall n t r t' r', nth_error out n = Some (t, r) -> nth_error out' (m + n) = Some (t', r') -> same_motion N r r'.
Proof. exact c138_newmark. Qed.
Print Assumptions C138_newmark.
Example C138_newmark_example : exists o o', newmark 1 divide one one zero_mat (1/4) (1/2) [0;1] [unit_force; none] still = Some o
  /\ newmark 1 divide one one zero_mat (1/4) (1/2) [0;1] [none; unit_force] still = Some o'
  /\ exists t s t' s', nth_error o 1 = Some (t, s) /\ nth_error o' 2 = Some (t', s') /\ same_motion 1 s s'.
Proof.
  destruct (newmark_any unit_force none still) as (t1 & z1 & ? & ? & E1). destruct (newmark_any none unit_force still) as (? & ? & t2 & z2 & E2).
  eexists. eexists. split; [exact E1|]. split; [exact E2|]. exists t1, z1, t2, z2. split; [reflexivity|]. split; [reflexivity|].
  refine (C138_newmark 1 divide one one zero_mat (1/4) (1/2) 0 1 [] 0 1 [] _ _ still still _ _ 1%nat
    divide_exact ltac:(lra) ltac:(lra) ltac:(lra) eq_refl one_inertial one_psd none_psd E1 E2 _ _ _ 1%nat t1 z1 t2 z2 eq_refl eq_refl).
  - repeat split; intros i _; reflexivity.
  - repeat split; intros i _; reflexivity.
  - split.
    + intros k f' Hk Q. destruct k as [|k]; [|lia]. cbn [nth_error] in Q. injection Q as <-. intros i _. reflexivity.
    + intros k f f' Q Q'. destruct k as [|[|k]]; cbn [nth_error Nat.add] in Q, Q'; [|discriminate|destruct k; discriminate]. injection Q as <-. injection Q' as <-. reflexivity.
Qed.

(** C138. The same for direct integration. *)
Theorem C138_direct : forall ext a a' c c' dt d d' o o' N K_ M_ C_ m, exact_cg ext -> dt <> 0 ->
  solve_direct ext a c (Direct dt d) = Some o -> solve_direct ext a' c' (Direct dt d') = Some o' ->
  free_system ext a c N K_ M_ C_ -> free_system ext a' c' N K_ M_ C_ ->
  regular N (fun i j => coo_get M_ i j / dt^2 + coo_get C_ i j / (2 * dt)) ->
  (forall t f', (t < m)%nat -> free_load a' c' t f' -> forall i, (i < N)%nat -> nth i f' 0 = 0) ->
  (forall t f f', free_load a c t f -> free_load a' c' (m + t) f' -> forall i, (i < N)%nat -> nth i f 0 = nth i f' 0) ->
  forall n r r', nth_error o n = Some r -> nth_error o' (m + n) = Some r' -> forall i, (i < N)%nat -> nth i r 0 = nth i r' 0.
Proof. exact c138_direct. Qed.
Print Assumptions C138_direct.
Example C138_direct_example : exists o o', solve_direct uncoupled (drive_asm [1;2;5]) "C" (Direct 1 0) = Some o /\ solve_direct uncoupled (drive_asm [0;0;1;2;5]) "C" (Direct 1 0) = Some o'
  /\ forall n r r', nth_error o n = Some r -> nth_error o' (2 + n) = Some r' -> forall i, (i < 6)%nat -> nth i r 0 = nth i r' 0.
Proof.
  destruct (drive_solved [1;2;5] ltac:(discriminate)) as (o & E). destruct (drive_solved [0;0;1;2;5] ltac:(discriminate)) as (o' & E'). destruct drive_damped as (M_ & C_ & FS & RG).
  exists o, o'. split; [exact E|]. split; [exact E'|].
  refine (C138_direct uncoupled (drive_asm [1;2;5]) (drive_asm [0;0;1;2;5]) "C" "C" 1 0 0 o o' 6 [] M_ C_ 2%nat uncoupled_exact ltac:(lra) E E' (FS _) (FS _) RG _ _).
  - intros t f Ht G i _. destruct t as [|[|t]]; [| |lia]; rewrite (drive_load_at _ _ _ G); destruct i as [|[|[|[|[|[|i]]]]]]; try reflexivity; destruct i; reflexivity.
  - intros t f f' G G' i _. rewrite (drive_load_at _ _ _ G), (drive_load_at _ _ _ G'). destruct t as [|[|[|[|t]]]]; reflexivity.
Qed.

(** C138. With Wilson's method the same, if the load starts from zero.  What is missing: loads that do not, see the theorem below. *)
Theorem C138_wilson_partial : forall N solve K M C beta gamma theta T0 T1 T T0' T1' T' F F' s s' out out' m, exact_linear solve ->
  0 < beta -> 0 <= gamma -> 0 < theta -> T0 < T1 -> T1' - T0' = T1 - T0 -> inertial N M -> psd_upto N K -> psd_upto N C ->
  wilson N solve K M C beta gamma theta (T0 :: T1 :: T) F s = Some out -> wilson N solve K M C beta gamma theta (T0' :: T1' :: T') F' s' = Some out' ->
  at_rest N s -> at_rest N s' -> delayed N m F F' -> (forall f, nth_error F 0 = Some f -> zero_upto N f) ->
  forall n t r t' r', nth_error out n = Some (t, r) -> nth_error out' (m + n) = Some (t', r') -> same_motion N r r'.
Proof. exact c138_wilson. Qed.
Print Assumptions C138_wilson_partial.
Example C138_wilson_partial_example : exists o o', wilson 1 divide one one zero_mat (1/6) (1/2) (7/5) [0;1] [none; unit_force] still = Some o
  /\ wilson 1 divide one one zero_mat (1/6) (1/2) (7/5) [0;1] [none; none] still = Some o'
  /\ exists t s t' s', nth_error o 1 = Some (t, s) /\ nth_error o' 2 = Some (t', s') /\ same_motion 1 s s'.
Proof.
  destruct (wilson_any none unit_force still) as (t1 & z1 & ? & ? & E1). destruct (wilson_any none none still) as (? & ? & t2 & z2 & E2).
  eexists. eexists. split; [exact E1|]. split; [exact E2|]. exists t1, z1, t2, z2. split; [reflexivity|]. split; [reflexivity|].
  refine (C138_wilson_partial 1 divide one one zero_mat (1/6) (1/2) (7/5) 0 1 [] 0 1 [] _ _ still still _ _ 1%nat
    divide_exact ltac:(lra) ltac:(lra) ltac:(lra) ltac:(lra) eq_refl one_inertial one_psd none_psd E1 E2 _ _ _ _ 1%nat t1 z1 t2 z2 eq_refl eq_refl).
  - repeat split; intros i _; reflexivity.
  - repeat split; intros i _; reflexivity.
  - split.
    + intros k f' Hk Q. destruct k as [|k]; [|lia]. cbn [nth_error] in Q. injection Q as <-. intros i _. reflexivity.
    + intros k f f' Q Q'. destruct k as [|[|k]]; cbn [nth_error Nat.add] in Q, Q'; [|discriminate|destruct k; discriminate]. injection Q as <-. injection Q' as <-. reflexivity.
  - intros f Q. cbn [nth_error] in Q. injection Q as <-. intros i _. reflexivity.
Qed.

(** C138 is false for Wilson's method: the load of the first step is taken as it is, that of every other step is extrapolated, so that a
    load which comes one step later moves the structure differently. *)
Theorem C138_wilson_refuted : exists N solve K M C beta gamma theta T F F' s out out' t r t' r', exact_linear solve
  /\ 0 < beta /\ 0 <= gamma /\ 1 <= theta /\ inertial N M /\ psd_upto N K /\ psd_upto N C
  /\ wilson N solve K M C beta gamma theta (0 :: 1 :: T) F s = Some out /\ wilson N solve K M C beta gamma theta (0 :: 1 :: T) F' s = Some out'
  /\ at_rest N s /\ delayed N 1 F F' /\ nth_error out 1 = Some (t, r) /\ nth_error out' (1 + 1) = Some (t', r') /\ ~ same_motion N r r'.
Proof. exact c138_wilson_refuted. Qed.
Print Assumptions C138_wilson_refuted.

