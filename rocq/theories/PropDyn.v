(** Properties C49-C53, C63-C66: modal frequencies, damping, time integration, modal combination.
    Only statements, each closed by a lemma proved elsewhere, with the assumptions it
    rests on and an instance of its hypotheses. *)
From Coq Require Import Reals Lra Lia List String Arith Bool ZArith Sorting.Permutation Sorting.Sorted.
From Verif Require Import Base BaseFacts Csys Sections Element Load FeModel Assembly Solver Post Api Demo SolveDemo Dynamic SpecDyn DynProofs CqcProofs DynDemo.
Import ListNotations.
Local Open Scope string_scope.
Local Open Scope list_scope.
Local Open Scope R_scope.

(** C49. What is reported for every mode of a solved modal case: frequency and period are
    reciprocal, but 2*pi*f is the eigenvalue, not its root.  Missing: the root. *)
Theorem C49_partial ker eigsh a c st modes o i lambda x : exact_eigen eigsh -> solve_eigen ker eigsh a c st = Some (modes, o) ->
  nth_error o i = Some lambda -> nth_error modes i = Some x -> 0 < lambda ->
  exists N K_ M_ f T, free_pair ker a c N K_ M_ /\ (exists j, (j < N)%nat /\ nth j x 0 <> 0)
    /\ mode_of N (coo_get K_) (coo_get M_) (sqrt lambda) (fun j => nth j x 0)
    /\ nth_error (resolve_modal_frequency o) i = Some (lambda, f, T) /\ 0 < f /\ 0 < T /\ f * T = 1 /\ 2 * PI * f = lambda.
Proof. exact (c49_pipeline_partial ker eigsh a c st modes o i lambda x). Qed.
Print Assumptions C49_partial.
Example C49_partial_example : exact_eigen (trial_eigen 2 axial)
  /\ solve_eigen zero_ker (trial_eigen 2 axial) demo_asm "C" (Modal 1 None) = Some ([axial], [2]).
Proof. split; [apply trial_eigen_exact|exact demo_eigen]. Qed.

(** C49. Frequency and period are those of the eigenvalue only if the eigenvalue is 1. *)
Theorem C49_only_one o i lambda om f T : nth_error o i = Some lambda -> 0 < lambda ->
  nth_error (resolve_modal_frequency o) i = Some (om, f, T) ->
  (true_frequency lambda f T <-> lambda = 1).
Proof. exact (c49_iff o i lambda om f T). Qed.
Print Assumptions C49_only_one.
Example C49_only_one_example : exists f T, nth_error (resolve_modal_frequency [2]) 0 = Some (2, f, T) /\ ~ true_frequency 2 f T.
Proof. exists (1 / (2 * PI / 2)), (2 * PI / 2). split; [reflexivity|]. intros H. apply (C49_only_one [2] 0 2 2 _ _ eq_refl ltac:(lra) eq_refl) in H. lra. Qed.

(** C49. So the property is refuted: the axial mode of a cantilever. *)
Theorem C49_refuted : exists ker eigsh a c st modes o x om f T, exact_eigen eigsh /\ solve_eigen ker eigsh a c st = Some (modes, o)
  /\ nth_error o 0 = Some om /\ nth_error modes 0 = Some x /\ 0 < om
  /\ nth_error (resolve_modal_frequency o) 0 = Some (om, f, T) /\ ~ true_frequency om f T.
Proof. exact c49_refuted. Qed.
Print Assumptions C49_refuted.


(** C50. The two ratios are met at the two frequencies. *)
Theorem C50_ratios xi_i xi_j wi wj : 0 < wi -> 0 < wj -> wi <> wj ->
  let a := rayleigh xi_i xi_j wi wj in
  damping_ratio (fst a) (snd a) wi = xi_i /\ damping_ratio (fst a) (snd a) wj = xi_j.
Proof. exact (c50_ratio xi_i xi_j wi wj). Qed.
Print Assumptions C50_ratios.
Example C50_ratios_example : damping_ratio (fst (rayleigh (1/20) (1/50) 1 2)) (snd (rayleigh (1/20) (1/50) 1 2)) 2 = 1/50.
Proof. apply (C50_ratios (1/20) (1/50) 1 2); lra. Qed.

(** C50. On the matrices: the damping matrix damps a mode at a period of 2 s with 5% and one at
    1 s with 2%. *)
Theorem C50_modes N M K w x : mode_of N (coo_get K) (coo_get M) w x -> w <> 0 ->
  (w = 2 * PI / 2 -> forall i, (i < N)%nat -> rsum N (fun j => coo_get (damping_matrix M K) i j * x j) = 2 * (5/100) * w * rsum N (fun j => coo_get M i j * x j))
  /\ (w = 2 * PI / 1 -> forall i, (i < N)%nat -> rsum N (fun j => coo_get (damping_matrix M K) i j * x j) = 2 * (2/100) * w * rsum N (fun j => coo_get M i j * x j)).
Proof. exact (c50_matrix N M K w x). Qed.
Print Assumptions C50_modes.
Example C50_modes_example : let K := [(0%nat, 0%nat, (2 * PI / 2)^2)] in let M := [(0%nat, 0%nat, 1)] in
  coo_get (damping_matrix M K) 0 0 = 2 * (5/100) * (2 * PI / 2).
Proof.
  cbv zeta. pose proof PI_RGT_0 as P.
  destruct (C50_modes 1 [(0%nat, 0%nat, 1)] [(0%nat, 0%nat, (2 * PI / 2)^2)] (2 * PI / 2) (fun _ => 1)) as (A & _).
  - intros i Hi. assert (i = O) by lia. subst i. cbn [rsum coo_get Nat.eqb andb]. ring.
  - lra.
  - specialize (A eq_refl 0%nat ltac:(lia)). cbn [rsum] in A. rewrite !Rplus_0_l, !Rmult_1_r in A. rewrite A. cbn [coo_get Nat.eqb andb]. ring.
Qed.

(** C51. What is stored, for every model, load history and step count: the first step solves the
    equation of motion; pass t solves it for rows t-2, t-1 and t+1 with the load of step t.
    Missing: rows t-1, t, t+1 for t > 0 (see C51_refuted). *)
Theorem C51_partial ext a c p s : exact_cg ext -> dp_step p <> 0 -> solve_direct ext a c p = Some s ->
  exists N K_ M_ C_ lc steps, free_system ext a c N K_ M_ C_ /\ dget c (a_cases a) = Some lc /\ snd (case_max_min_step lc) = Some steps
    /\ List.length s = S steps /\ (forall j, nth j (nth 0 s []) 0 = 0)
    /\ integrates N (coo_get M_) (coo_get C_) (coo_get K_) (dp_step p) (Nat.min 1 steps) (free_load a c) s
    /\ forall t, (t < steps)%nat -> exists f, free_load a c t f
         /\ central_difference N (coo_get M_) (coo_get C_) (coo_get K_) (dp_step p) f
              (row_at s (Z.of_nat t - 2)) (row_at s (Z.of_nat t - 1)) (row_at s (Z.of_nat t + 1)).
Proof. exact (c51_actual ext a c p s). Qed.
Print Assumptions C51_partial.
Example C51_partial_example : exact_cg mass_ext /\ solve_direct mass_ext mass_asm "C" (Direct 1 (5/100)) = Some mass_rows.
Proof. split; [exact mass_exact|apply mass_history; reflexivity]. Qed.

(** C51. A history that does not solve the equation of motion at its second step. *)
Theorem C51_refuted : exists ext a c p s N K_ M_ C_ lc steps, exact_cg ext /\ dp_step p <> 0 /\ solve_direct ext a c p = Some s
  /\ free_system ext a c N K_ M_ C_ /\ dget c (a_cases a) = Some lc /\ snd (case_max_min_step lc) = Some steps
  /\ ~ integrates N (coo_get M_) (coo_get C_) (coo_get K_) (dp_step p) steps (free_load a c) s.
Proof. exact c51_refuted. Qed.
Print Assumptions C51_refuted.


(** C51. Unless there are exactly six free equations, nothing is computed at all. *)
Theorem C51_only_six ext a c p s N K_ M_ C_ lc k : free_system ext a c N K_ M_ C_ -> dget c (a_cases a) = Some lc ->
  snd (case_max_min_step lc) = Some (S k) -> N <> 6%nat -> solve_direct ext a c p <> Some s.
Proof. exact (c51_only_six ext a c p s N K_ M_ C_ lc k). Qed.
Print Assumptions C51_only_six.
Example C51_only_six_example : exists K_ M_ C_ lc, free_system (Ext zero_ker (fun _ _ _ => None) (fun _ _ _ => None)) loose_asm "C" 12 K_ M_ C_
  /\ dget "C" (a_cases loose_asm) = Some lc /\ snd (case_max_min_step lc) = Some 2%nat.
Proof. exact loose_system. Qed.

(** C52. Every step satisfies the equation of motion and the velocity relation; the displacement
    relation holds exactly if beta is 1/2 or the last acceleration vanishes.  Missing: the
    displacement relation otherwise. *)
Theorem C52_partial N solve K M C beta gamma T0 T1 T F s0 out i t s t' s' : exact_linear solve -> beta <> 0 -> T0 <> T1 ->
  newmark N solve K M C beta gamma (T0 :: T1 :: T) F s0 = Some out ->
  nth_error out i = Some (t, s) -> nth_error out (S i) = Some (t', s') ->
  exists f, nth_error F i = Some f /\ in_motion N M C K f s' /\ velocity_relation gamma (T1 - T0) s s'
    /\ (displacement_relation beta (T1 - T0) s s' <-> beta = 1/2 \/ forall i, ma_ s i = 0).
Proof. exact (c52_partial N solve K M C beta gamma T0 T1 T F s0 out i t s t' s'). Qed.
Print Assumptions C52_partial.
Example C52_partial_example : exists s1 s2, newmark 1 divide zero_mat one zero_mat (1/4) (1/2) [0;1] [unit_force; unit_force] pushed
    = Some [(0, pushed); (0, s1); (1, s2)] /\ in_motion 1 one zero_mat zero_mat unit_force s1.
Proof.
  destruct newmark_pushed as (s1 & s2 & H & _). exists s1, s2. split; [exact H|].
  destruct (C52_partial 1 divide zero_mat one zero_mat (1/4) (1/2) 0 1 [] [unit_force; unit_force] pushed _ 0 0 pushed 0 s1 divide_exact ltac:(lra) ltac:(lra) H eq_refl eq_refl) as (f & E & A & _).
  cbn in E. injection E as <-. exact A.
Qed.

(** C52. The displacement relation fails with the default parameters. *)
Theorem C52_refuted : exists N solve K M C beta gamma T F s0 out t s t' s', exact_linear solve /\ beta = 1/4 /\ gamma = 1/2
  /\ newmark N solve K M C beta gamma T F s0 = Some out /\ nth_error out 0 = Some (t, s) /\ nth_error out 1 = Some (t', s')
  /\ (exists f0, nth_error F 0 = Some f0 /\ in_motion N M C K f0 s) /\ exists T0 T1 r, T = T0 :: T1 :: r /\ T0 < T1 /\ ~ displacement_relation beta (T1 - T0) s s'.
Proof. exact c52_refuted. Qed.
Print Assumptions C52_refuted.


(** C53. The coefficient lies in (0,1]. *)
Theorem C53_range xi r : 0 < xi -> 0 < r -> 0 < cqc_rho xi r <= 1.
Proof. exact (c53_range xi r). Qed.
Print Assumptions C53_range.
Example C53_range_example : 0 < cqc_rho (1/20) 2 <= 1.
Proof. apply C53_range; lra. Qed.

(** C53. It is symmetric in the two modes. *)
Theorem C53_symmetric xi r : 0 < xi -> 0 < r -> cqc_rho xi (1 / r) = cqc_rho xi r.
Proof. exact (c53_symmetric xi r). Qed.
Print Assumptions C53_symmetric.
Example C53_symmetric_example : cqc_rho (1/20) (1/2) = cqc_rho (1/20) 2.
Proof. apply C53_symmetric; lra. Qed.

(** C53. It is 1 for equal periods. *)
Theorem C53_equal xi : xi <> 0 -> cqc_rho xi 1 = 1.
Proof. exact (c53_equal xi). Qed.
Print Assumptions C53_equal.
Example C53_equal_example : cqc_rho (1/20) 1 = 1.
Proof. apply C53_equal; lra. Qed.

(** C53. Without correlation the combination is SRSS. *)
Theorem C53_srss n xi T S : (forall i j, (i < n)%nat -> (j < n)%nat -> i <> j -> cqc_rho xi (T i / T j) = 0) -> cqc n xi T S = srss n S.
Proof. exact (c53_srss n xi T S). Qed.
Print Assumptions C53_srss.
Example C53_srss_example : cqc 2 0 (fun i => INR (S i)) (fun _ => 1) = srss 2 (fun _ => 1).
Proof. apply C53_srss. intros i j _ _ _. unfold cqc_rho, Rdiv. ring. Qed.

(** C53. The combination is at most the absolute sum (also under the root). *)
Theorem C53_below_sum n xi T S : 0 < xi -> (forall i, (i < n)%nat -> 0 < T i) ->
  cqc_sum n xi T S <= (rsum n (fun i => Rabs (S i)))^2 /\ cqc n xi T S <= rsum n (fun i => Rabs (S i)).
Proof. exact (c53_below_abs n xi T S). Qed.
Print Assumptions C53_below_sum.
Example C53_below_sum_example : cqc 2 (1/20) (fun i => INR (S i)) (fun _ => 1) <= rsum 2 (fun _ => Rabs 1).
Proof. apply (C53_below_sum 2 (1/20) (fun i => INR (S i)) (fun _ => 1)); [lra|]. intros i _. apply lt_0_INR. lia. Qed.

(** C53. And at least SRSS if the responses have one sign. *)
Theorem C53_above_srss n xi T S : 0 < xi -> (forall i, (i < n)%nat -> 0 < T i) -> (forall i j, (i < n)%nat -> (j < n)%nat -> 0 <= S i * S j) ->
  srss n S <= cqc n xi T S.
Proof. exact (c53_above_srss n xi T S). Qed.
Print Assumptions C53_above_srss.
Example C53_above_srss_example : srss 2 (fun _ => 1) <= cqc 2 (1/20) (fun i => INR (S i)) (fun _ => 1).
Proof. apply C53_above_srss; [lra| |]; [intros i _; apply lt_0_INR; lia|intros; lra]. Qed.

(** C53. The sum under the root is never negative, whatever the signs of the responses: the
    coefficients form a positive semidefinite matrix. *)
Theorem C53_positive n xi T S : 0 < xi < 1 -> (forall i, (i < n)%nat -> 0 < T i) ->
  0 <= cqc_sum n xi T S /\ cqc n xi T S ^ 2 = cqc_sum n xi T S.
Proof. exact (c53_positive n xi T S). Qed.
Print Assumptions C53_positive.
Example C53_positive_example : 0 <= cqc_sum 3 (1/20) (fun i => INR (S i)) (fun i => if Nat.eqb i 1 then -3 else 2).
Proof. apply (C53_positive 3 (1/20) (fun i => INR (S i))); [lra|]. intros i _. apply lt_0_INR. lia. Qed.

(** C63. A Wilson step satisfies the kinematic relations over the step, and the equation of
    motion at the extrapolated time if beta is 1/2 or the last acceleration vanishes.
    Missing: the equation of motion otherwise. *)
Theorem C63_partial N solve K M C beta gamma theta dt s f s' : exact_linear solve -> theta <> 0 -> beta <> 0 -> dt <> 0 ->
  wilson_step N solve K M C beta gamma theta dt s f = Some s' ->
  velocity_relation gamma dt s s' /\ displacement_relation beta dt s s'
  /\ (beta = 1/2 \/ (forall i, ma_ s i = 0) -> in_motion N M C K f (extrapolated beta gamma theta dt s s')).
Proof. exact (c63_partial N solve K M C beta gamma theta dt s f s'). Qed.
Print Assumptions C63_partial.
Example C63_partial_example : exists s', wilson_step 1 divide (fun _ _ => 1) one zero_mat (1/4) (1/2) 1 1 pushed unit_force = Some s'.
Proof. apply wilson_pushed. Qed.

(** C63. The whole history: as many states as loads and times allow, labelled with the times, each step
    as in C63_partial under the load of the last step extrapolated to theta steps (in the first
    step the first load).  Missing: the equation of motion otherwise. *)
Theorem C63_history_partial N solve K M C beta gamma theta T0 T1 T F s0 out : exact_linear solve -> theta <> 0 -> beta <> 0 -> T0 <> T1 ->
  wilson N solve K M C beta gamma theta (T0 :: T1 :: T) F s0 = Some out ->
  List.length out = S (Nat.min (List.length (T0 :: T1 :: T)) (List.length F)) /\ nth_error out 0 = Some (0, s0)
  /\ forall i t s t' s', nth_error out i = Some (t, s) -> nth_error out (S i) = Some (t', s') ->
     nth_error (T0 :: T1 :: T) i = Some t' /\ velocity_relation gamma (T1 - T0) s s' /\ displacement_relation beta (T1 - T0) s s'
     /\ exists f, wilson_load theta F i f
        /\ (beta = 1/2 \/ (forall i, ma_ s i = 0) -> in_motion N M C K f (extrapolated beta gamma theta (T1 - T0) s s')).
Proof. exact (c63_history N solve K M C beta gamma theta T0 T1 T F s0 out). Qed.
Print Assumptions C63_history_partial.
Example C63_history_partial_example : exists s1 s2, wilson 1 divide (fun _ _ => 1) one zero_mat (1/2) (1/2) (7/5) [0; 1] [unit_force; fun _ => 3] pushed
    = Some [(0, pushed); (0, s1); (1, s2)]
  /\ exists f, f 0%nat = 1 + 7/5 * 2 /\ in_motion 1 one zero_mat (fun _ _ => 1) f (extrapolated (1/2) (1/2) (7/5) (1 - 0) s1 s2).
Proof.
  destruct wilson_two as (s1 & s2 & H). exists s1, s2. split; [exact H|].
  destruct (C63_history_partial 1 divide (fun _ _ => 1) one zero_mat (1/2) (1/2) (7/5) 0 1 [] [unit_force; fun _ => 3] pushed _ divide_exact ltac:(lra) ltac:(lra) ltac:(lra) H)
    as (_ & _ & A). destruct (A 1%nat 0 s1 1 s2 eq_refl eq_refl) as (_ & _ & _ & f & (f0 & f1 & E0 & E1 & F) & MO).
  cbn in E0, E1. injection E0 as <-. injection E1 as <-. exists f. split; [rewrite F; unfold unit_force; lra|]. apply MO. now left.
Qed.

(** C63. The equation of motion fails with the default beta and gamma. *)
Theorem C63_refuted : exists N solve K M C beta gamma theta dt s f s', exact_linear solve /\ 0 < beta /\ 0 < dt /\ 1 <= theta
  /\ in_motion N M C K f s /\ wilson_step N solve K M C beta gamma theta dt s f = Some s'
  /\ ~ in_motion N M C K f (extrapolated beta gamma theta dt s s').
Proof. exact c63_refuted. Qed.
Print Assumptions C63_refuted.


(** C64. The period at which the spectrum is read is the period of the mode only if the
    eigenvalue is 1. *)
Theorem C64_only_one lambda : 0 < lambda -> (true_period lambda (spectrum_period lambda) <-> lambda = 1).
Proof. exact (c64_iff lambda). Qed.
Print Assumptions C64_only_one.
Example C64_only_one_example : true_period 1 (spectrum_period 1).
Proof. apply C64_only_one; lra. Qed.

(** C64. So the property is refuted. *)
Theorem C64_refuted : exists lambda, 0 < lambda /\ ~ true_period lambda (spectrum_period lambda).
Proof. exact c64_refuted. Qed.
Print Assumptions C64_refuted.


(** C65. The damping ratio of the case has no effect. *)
Theorem C65_ignored ext a c dt d1 d2 : solve_direct ext a c (Direct dt d1) = solve_direct ext a c (Direct dt d2).
Proof. exact (c65_ignored ext a c dt d1 d2). Qed.
Print Assumptions C65_ignored.
Example C65_ignored_example : solve_direct mass_ext mass_asm "C" (Direct 1 (1/2)) = Some mass_rows.
Proof. rewrite (C65_ignored _ _ _ _ _ (5/100)). apply mass_history; reflexivity. Qed.

(** C65. A run in which the ratio asked for is not the ratio of the damping matrix at either
    of its frequencies. *)
Theorem C65_refuted : exists ext a c p s, exact_cg ext /\ 0 < dp_step p /\ 0 < dp_damping p /\ solve_direct ext a c p = Some s
  /\ dp_damping p <> damping_ratio (fst code_damping) (snd code_damping) (2 * PI / 2)
  /\ dp_damping p <> damping_ratio (fst code_damping) (snd code_damping) (2 * PI / 1).
Proof. exact c65_refuted. Qed.
Print Assumptions C65_refuted.


(** C66. The time answered with a state is the time integrated to it only if the list of times
    starts with one step. *)
Theorem C66_only_offset N solve K M C beta gamma T F s0 out T0 dt i t s : newmark N solve K M C beta gamma T F s0 = Some out ->
  (forall k x, nth_error T k = Some x -> x = T0 + INR k * dt) ->
  nth_error out (S i) = Some (t, s) -> (t = INR (S i) * dt <-> T0 = dt).
Proof. exact (c66_label N solve K M C beta gamma T F s0 out T0 dt i t s). Qed.
Print Assumptions C66_only_offset.
Example C66_only_offset_example : exists s1 s2, newmark 1 divide zero_mat one zero_mat (1/4) (1/2) [0;1] [unit_force; unit_force] pushed
    = Some [(0, pushed); (0, s1); (1, s2)].
Proof. destruct newmark_pushed as (s1 & s2 & H & _). eauto. Qed.

(** C66. With times from 0 on the first two states both carry time 0. *)
Theorem C66_refuted : exists N solve K M C T F s0 out t s, newmark N solve K M C (1/4) (1/2) T F s0 = Some out
  /\ (forall k x, nth_error T k = Some x -> x = 0 + INR k * 1) /\ nth_error out 1 = Some (t, s) /\ t <> INR 1 * 1.
Proof. exact c66_refuted. Qed.
Print Assumptions C66_refuted.

