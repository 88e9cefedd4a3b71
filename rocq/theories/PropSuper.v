(** C135-C136: superposition of computed motions, and later loads.
    Only statements, each closed by a lemma proved elsewhere, with the assumptions it
    rests on and an instance of its hypotheses. *)
From Coq Require Import Reals Lra Lia List String Arith Bool ZArith Sorting.Permutation Sorting.Sorted.
From Verif Require Import Base BaseFacts Csys Sections Element Load FeModel Assembly Solver Post Api SpecAsm SpecSolve Dynamic SpecDyn DynProofs DynDemo SpecEnergy EnergyProofs EnergyDemo SpecSuper SuperProofs SuperDemo DriveDemo.
Import ListNotations.
Local Open Scope string_scope.
Local Open Scope list_scope.
Local Open Scope R_scope.

(** C135. Motions computed by Newmark's method superpose: if start and loads of a third run are those of two others combined with any
    factors, so is every state, displacements, velocities and accelerations, at the same time.  For all masses, and all stiffness and damping
    that take no energy from nothing.  Only the loads of the steps up to the state have to be combined. *)
Theorem C135_newmark : forall N solve K M C beta gamma T0 T1 T F1 F2 F3 s1 s2 s3 out1 out2 out3 p q, exact_linear solve ->
  0 < beta -> 0 <= gamma -> T0 < T1 -> inertial N M -> psd_upto N K -> psd_upto N C ->
  newmark N solve K M C beta gamma (T0 :: T1 :: T) F1 s1 = Some out1 ->
  newmark N solve K M C beta gamma (T0 :: T1 :: T) F2 s2 = Some out2 ->
  newmark N solve K M C beta gamma (T0 :: T1 :: T) F3 s3 = Some out3 ->
  motions_combine N p q s1 s2 s3 ->
  forall n t1 r1 t2 r2 t3 r3, loads_combine N p q n F1 F2 F3 ->
    nth_error out1 n = Some (t1, r1) -> nth_error out2 n = Some (t2, r2) -> nth_error out3 n = Some (t3, r3) ->
    t1 = t2 /\ t2 = t3 /\ motions_combine N p q r1 r2 r3.
Proof. exact c135_newmark. Qed.
Print Assumptions C135_newmark.
Example C135_newmark_example p q : let rest := Motion (fun _ => 0) (fun _ => 0) (fun _ => 0) in let mix := Motion (fun _ => p) (fun _ => 0) (fun _ => - p) in
  exists o1 o2 o3, newmark 1 divide one one zero_mat (1/4) (1/2) [0;1] [no_force; unit_force] let_go = Some o1
  /\ newmark 1 divide one one zero_mat (1/4) (1/2) [0;1] [unit_force; fun _ => 3] rest = Some o2
  /\ newmark 1 divide one one zero_mat (1/4) (1/2) [0;1] [fun _ => q; fun _ => p + 3 * q] mix = Some o3
  /\ exists t s1 s2 s3, nth_error o1 2 = Some (t, s1) /\ nth_error o2 2 = Some (t, s2) /\ nth_error o3 2 = Some (t, s3) /\ mu_ s3 0%nat = p * mu_ s1 0%nat + q * mu_ s2 0%nat.
Proof.
  intros rest mix. destruct (newmark_any no_force unit_force let_go) as (? & ? & t1 & z1 & E1). destruct (newmark_any unit_force (fun _ => 3) rest) as (? & ? & t2 & z2 & E2).
  destruct (newmark_any (fun _ => q) (fun _ => p + 3 * q) mix) as (? & ? & t3 & z3 & E3). eexists. eexists. eexists. split; [exact E1|]. split; [exact E2|]. split; [exact E3|].
  destruct (C135_newmark 1 divide one one zero_mat (1/4) (1/2) 0 1 [] [no_force; unit_force] [unit_force; fun _ => 3] [fun _ => q; fun _ => p + 3 * q] let_go rest mix _ _ _ p q
    divide_exact ltac:(lra) ltac:(lra) ltac:(lra) one_inertial one_psd none_psd E1 E2 E3) with (n := 2%nat) (t1 := t1) (r1 := z1) (t2 := t2) (r2 := z2) (t3 := t3) (r3 := z3) as (Q1 & Q2 & U & _).
  - split; [|split]; intros i _; cbn [mu_ mv_ ma_ let_go rest mix]; ring.
  - intros k f1 f2 f3 Hk K1 K2 K3 i _. destruct k as [|[|k]]; [| |lia]; cbn [nth_error] in K1, K2, K3; injection K1 as <-; injection K2 as <-; injection K3 as <-; unfold no_force, unit_force; ring.
  - reflexivity.
  - reflexivity.
  - reflexivity.
  - subst t2 t3. exists t1, z1, z2, z3. repeat (split; [reflexivity|]). exact (U 0%nat ltac:(lia)).
Qed.

(** C135. The same for Wilson's method, with every theta. *)
Theorem C135_wilson : forall N solve K M C beta gamma theta T0 T1 T F1 F2 F3 s1 s2 s3 out1 out2 out3 p q, exact_linear solve ->
  0 < beta -> 0 <= gamma -> 0 < theta -> T0 < T1 -> inertial N M -> psd_upto N K -> psd_upto N C ->
  wilson N solve K M C beta gamma theta (T0 :: T1 :: T) F1 s1 = Some out1 ->
  wilson N solve K M C beta gamma theta (T0 :: T1 :: T) F2 s2 = Some out2 ->
  wilson N solve K M C beta gamma theta (T0 :: T1 :: T) F3 s3 = Some out3 ->
  motions_combine N p q s1 s2 s3 ->
  forall n t1 r1 t2 r2 t3 r3, loads_combine N p q n F1 F2 F3 ->
    nth_error out1 n = Some (t1, r1) -> nth_error out2 n = Some (t2, r2) -> nth_error out3 n = Some (t3, r3) ->
    t1 = t2 /\ t2 = t3 /\ motions_combine N p q r1 r2 r3.
Proof. exact c135_wilson. Qed.
Print Assumptions C135_wilson.
Example C135_wilson_example p q : let rest := Motion (fun _ => 0) (fun _ => 0) (fun _ => 0) in let mix := Motion (fun _ => p) (fun _ => 0) (fun _ => - p) in
  exists o1 o2 o3, wilson 1 divide one one zero_mat (1/6) (1/2) (7/5) [0;1] [no_force; unit_force] let_go = Some o1
  /\ wilson 1 divide one one zero_mat (1/6) (1/2) (7/5) [0;1] [unit_force; fun _ => 3] rest = Some o2
  /\ wilson 1 divide one one zero_mat (1/6) (1/2) (7/5) [0;1] [fun _ => q; fun _ => p + 3 * q] mix = Some o3
  /\ exists t s1 s2 s3, nth_error o1 2 = Some (t, s1) /\ nth_error o2 2 = Some (t, s2) /\ nth_error o3 2 = Some (t, s3) /\ mu_ s3 0%nat = p * mu_ s1 0%nat + q * mu_ s2 0%nat.
Proof.
  intros rest mix. destruct (wilson_any no_force unit_force let_go) as (? & ? & t1 & z1 & E1). destruct (wilson_any unit_force (fun _ => 3) rest) as (? & ? & t2 & z2 & E2).
  destruct (wilson_any (fun _ => q) (fun _ => p + 3 * q) mix) as (? & ? & t3 & z3 & E3). eexists. eexists. eexists. split; [exact E1|]. split; [exact E2|]. split; [exact E3|].
  destruct (C135_wilson 1 divide one one zero_mat (1/6) (1/2) (7/5) 0 1 [] [no_force; unit_force] [unit_force; fun _ => 3] [fun _ => q; fun _ => p + 3 * q] let_go rest mix _ _ _ p q
    divide_exact ltac:(lra) ltac:(lra) ltac:(lra) ltac:(lra) one_inertial one_psd none_psd E1 E2 E3) with (n := 2%nat) (t1 := t1) (r1 := z1) (t2 := t2) (r2 := z2) (t3 := t3) (r3 := z3) as (Q1 & Q2 & U & _).
  - split; [|split]; intros i _; cbn [mu_ mv_ ma_ let_go rest mix]; ring.
  - intros k f1 f2 f3 Hk K1 K2 K3 i _. destruct k as [|[|k]]; [| |lia]; cbn [nth_error] in K1, K2, K3; injection K1 as <-; injection K2 as <-; injection K3 as <-; unfold no_force, unit_force; ring.
  - reflexivity.
  - reflexivity.
  - reflexivity.
  - subst t2 t3. exists t1, z1, z2, z3. repeat (split; [reflexivity|]). exact (U 0%nat ltac:(lia)).
Qed.

(** C135. The same for direct integration of cases of assembled structures with the same free equations, if the matrix of the step is regular. *)
Theorem C135_direct : forall ext a1 a2 a3 c1 c2 c3 dt d1 d2 d3 o1 o2 o3 N K_ M_ C_ p q, exact_cg ext -> dt <> 0 ->
  solve_direct ext a1 c1 (Direct dt d1) = Some o1 -> solve_direct ext a2 c2 (Direct dt d2) = Some o2 -> solve_direct ext a3 c3 (Direct dt d3) = Some o3 ->
  free_system ext a1 c1 N K_ M_ C_ -> free_system ext a2 c2 N K_ M_ C_ -> free_system ext a3 c3 N K_ M_ C_ ->
  regular N (fun i j => coo_get M_ i j / dt^2 + coo_get C_ i j / (2 * dt)) ->
  forall n r1 r2 r3,
    (forall t f1 f2 f3, (t < n)%nat -> free_load a1 c1 t f1 -> free_load a2 c2 t f2 -> free_load a3 c3 t f3 -> rows_combine N p q f1 f2 f3) ->
    nth_error o1 n = Some r1 -> nth_error o2 n = Some r2 -> nth_error o3 n = Some r3 -> rows_combine N p q r1 r2 r3.
Proof. exact c135_direct. Qed.
Print Assumptions C135_direct.
Example C135_direct_example p q : exists o1 o2 o3, solve_direct uncoupled (drive_asm [1;2;0]) "C" (Direct 1 0) = Some o1 /\ solve_direct uncoupled (drive_asm [0;3;5]) "C" (Direct 1 0) = Some o2
  /\ solve_direct uncoupled (drive_asm [p; 2*p + 3*q; 5*q]) "C" (Direct 1 0) = Some o3
  /\ forall n r1 r2 r3, (n <= 3)%nat -> nth_error o1 n = Some r1 -> nth_error o2 n = Some r2 -> nth_error o3 n = Some r3 -> rows_combine 6 p q r1 r2 r3.
Proof.
  destruct (drive_solved [1;2;0] ltac:(discriminate)) as (o1 & E1). destruct (drive_solved [0;3;5] ltac:(discriminate)) as (o2 & E2).
  destruct (drive_solved [p; 2*p + 3*q; 5*q] ltac:(discriminate)) as (o3 & E3). destruct drive_damped as (M_ & C_ & FS & RG).
  exists o1, o2, o3. split; [exact E1|]. split; [exact E2|]. split; [exact E3|]. intros n r1 r2 r3 Hn H1 H2 H3.
  refine (C135_direct uncoupled (drive_asm [1;2;0]) (drive_asm [0;3;5]) (drive_asm [p; 2*p + 3*q; 5*q]) "C" "C" "C" 1 0 0 0 o1 o2 o3 6 [] M_ C_ p q uncoupled_exact ltac:(lra) E1 E2 E3 (FS _) (FS _) (FS _) RG n r1 r2 r3 _ H1 H2 H3).
  intros t f1 f2 f3 Ht G1 G2 G3 i _. destruct t as [|[|[|t]]]; [| | |lia];
    rewrite (drive_load_at _ _ _ G1), (drive_load_at _ _ _ G2), (drive_load_at _ _ _ G3);
    (destruct i as [|[|[|[|[|[|i]]]]]]; cbn [nth]; [ring..|destruct i; ring]).
Qed.

(** C136. The state that Newmark's method computes for a step does not depend on loads after it. *)
Theorem C136_newmark : forall N solve K M C beta gamma T0 T1 T F F' s s' out out', exact_linear solve ->
  0 < beta -> 0 <= gamma -> T0 < T1 -> inertial N M -> psd_upto N K -> psd_upto N C ->
  newmark N solve K M C beta gamma (T0 :: T1 :: T) F s = Some out -> newmark N solve K M C beta gamma (T0 :: T1 :: T) F' s' = Some out' ->
  same_motion N s s' -> forall n t r t' r', same_loads N n F F' -> nth_error out n = Some (t, r) -> nth_error out' n = Some (t', r') ->
  t = t' /\ same_motion N r r'.
Proof. exact c136_newmark. Qed.
Print Assumptions C136_newmark.
Example C136_newmark_example f : exists o o', newmark 1 divide one one zero_mat (1/4) (1/2) [0;1] [unit_force; no_force] let_go = Some o
  /\ newmark 1 divide one one zero_mat (1/4) (1/2) [0;1] [unit_force; f] let_go = Some o'
  /\ exists t s s', nth_error o 1 = Some (t, s) /\ nth_error o' 1 = Some (t, s') /\ same_motion 1 s s'.
Proof.
  destruct (newmark_any unit_force no_force let_go) as (t1 & z1 & ? & ? & E1). destruct (newmark_any unit_force f let_go) as (t2 & z2 & ? & ? & E2).
  eexists. eexists. split; [exact E1|]. split; [exact E2|].
  destruct (C136_newmark 1 divide one one zero_mat (1/4) (1/2) 0 1 [] [unit_force; no_force] [unit_force; f] let_go let_go _ _
    divide_exact ltac:(lra) ltac:(lra) ltac:(lra) one_inertial one_psd none_psd E1 E2) with (n := 1%nat) (t := t1) (r := z1) (t' := t2) (r' := z2) as (Q & S).
  - intros i _. repeat split; reflexivity.
  - intros k g g' Hk K1 K2 i _. destruct k as [|k]; [|lia]. cbn [nth_error] in K1, K2. injection K1 as <-. injection K2 as <-. reflexivity.
  - reflexivity.
  - reflexivity.
  - subst t2. exists t1, z1, z2. split; [reflexivity|]. split; [reflexivity|exact S].
Qed.

(** C136. The same for Wilson's method: the load it extrapolates to is made of the loads up to the step. *)
Theorem C136_wilson : forall N solve K M C beta gamma theta T0 T1 T F F' s s' out out', exact_linear solve ->
  0 < beta -> 0 <= gamma -> 0 < theta -> T0 < T1 -> inertial N M -> psd_upto N K -> psd_upto N C ->
  wilson N solve K M C beta gamma theta (T0 :: T1 :: T) F s = Some out -> wilson N solve K M C beta gamma theta (T0 :: T1 :: T) F' s' = Some out' ->
  same_motion N s s' -> forall n t r t' r', same_loads N n F F' -> nth_error out n = Some (t, r) -> nth_error out' n = Some (t', r') ->
  t = t' /\ same_motion N r r'.
Proof. exact c136_wilson. Qed.
Print Assumptions C136_wilson.
Example C136_wilson_example f : exists o o', wilson 1 divide one one zero_mat (1/6) (1/2) (7/5) [0;1] [unit_force; no_force] let_go = Some o
  /\ wilson 1 divide one one zero_mat (1/6) (1/2) (7/5) [0;1] [unit_force; f] let_go = Some o'
  /\ exists t s s', nth_error o 1 = Some (t, s) /\ nth_error o' 1 = Some (t, s') /\ same_motion 1 s s'.
Proof.
  destruct (wilson_any unit_force no_force let_go) as (t1 & z1 & ? & ? & E1). destruct (wilson_any unit_force f let_go) as (t2 & z2 & ? & ? & E2).
  eexists. eexists. split; [exact E1|]. split; [exact E2|].
  destruct (C136_wilson 1 divide one one zero_mat (1/6) (1/2) (7/5) 0 1 [] [unit_force; no_force] [unit_force; f] let_go let_go _ _
    divide_exact ltac:(lra) ltac:(lra) ltac:(lra) ltac:(lra) one_inertial one_psd none_psd E1 E2) with (n := 1%nat) (t := t1) (r := z1) (t' := t2) (r' := z2) as (Q & S).
  - intros i _. repeat split; reflexivity.
  - intros k g g' Hk K1 K2 i _. destruct k as [|k]; [|lia]. cbn [nth_error] in K1, K2. injection K1 as <-. injection K2 as <-. reflexivity.
  - reflexivity.
  - reflexivity.
  - subst t2. exists t1, z1, z2. split; [reflexivity|]. split; [reflexivity|exact S].
Qed.

(** C136. The same for direct integration. *)
Theorem C136_direct : forall ext a a' c c' dt d d' o o' N K_ M_ C_, exact_cg ext -> dt <> 0 ->
  solve_direct ext a c (Direct dt d) = Some o -> solve_direct ext a' c' (Direct dt d') = Some o' ->
  free_system ext a c N K_ M_ C_ -> free_system ext a' c' N K_ M_ C_ ->
  regular N (fun i j => coo_get M_ i j / dt^2 + coo_get C_ i j / (2 * dt)) ->
  forall n r r', (forall t f f', (t < n)%nat -> free_load a c t f -> free_load a' c' t f' -> forall i, (i < N)%nat -> nth i f 0 = nth i f' 0) ->
    nth_error o n = Some r -> nth_error o' n = Some r' -> forall i, (i < N)%nat -> nth i r 0 = nth i r' 0.
Proof. exact c136_direct. Qed.
Print Assumptions C136_direct.
Example C136_direct_example n : exists o o', solve_direct uncoupled (push_asm n) "C" (Direct 1 0) = Some o /\ solve_direct uncoupled (push_asm (n + 5)) "C" (Direct 1 0) = Some o'
  /\ forall k r r', (k <= n)%nat -> nth_error o k = Some r -> nth_error o' k = Some r' -> forall i, (i < 6)%nat -> nth i r 0 = nth i r' 0.
Proof.
  destruct (push_solved n) as (o & E). destruct (push_solved (n + 5)) as (o' & E'). destruct push_damped as (M_ & C_ & FS & RG).
  exists o, o'. split; [exact E|]. split; [exact E'|]. intros k r r' Hk H H'.
  refine (C136_direct uncoupled (push_asm n) (push_asm (n + 5)) "C" "C" 1 0 0 o o' 6 [] M_ C_ uncoupled_exact ltac:(lra) E E' (FS _) (FS _) RG k r r' _ H H').
  intros t f f' Ht G G' i _. rewrite (push_load_is n t f ltac:(lia) G), (push_load_is (n + 5) t f' ltac:(lia) G'). reflexivity.
Qed.
