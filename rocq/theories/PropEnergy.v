(** Energy of computed motions.
    Only statements, each closed by a lemma proved elsewhere, with the assumptions it
    rests on and an instance of its hypotheses. *)
From Coq Require Import Reals Lra Lia List String Arith Bool ZArith Sorting.Permutation Sorting.Sorted.
From Verif Require Import Base Csys Sections Element Load FeModel Assembly Solver Post Api SpecApi SpecGeom SpecBeam SpecAsm SpecElim SpecLoad SpecSolve StaticsDemo StaticsDemo2 StaticsDemo3 Dynamic SpecDyn BaseFacts DynProofs DynDemo SpecEnergy EnergyProofs EnergyProofs2 EnergyDemo EnergyDemo2.
Import ListNotations.
Local Open Scope string_scope.
Local Open Scope list_scope.
Local Open Scope R_scope.

(** C122. The energy balance of every step with gamma = 1/2, for all matrices, loads, step sizes and beta: kinetic energy,
    strain energy and dt^2/8 a.Ma together change by the work of the load and of the damping, and by
    (1 - 2 beta) dt^2 times the form of the mean acceleration, which nothing in the structure supplies. *)
Theorem C122_balance N solve K M C beta T0 T1 T F s0 out i t s t' s' f : exact_linear solve -> beta <> 0 -> T0 <> T1 ->
  symmetric_upto N M -> symmetric_upto N K ->
  newmark N solve K M C beta (1/2) (T0 :: T1 :: T) F s0 = Some out ->
  nth_error out i = Some (t, s) -> nth_error out (S i) = Some (t', s') -> in_motion N M C K f s ->
  exists f', nth_error F i = Some f' /\ in_motion N M C K f' s'
    /\ let dt := T1 - T0 in
       let E s := mechanical N M K s + dt^2/8 * energy_form N M (ma_ s) (ma_ s) in
       let du := change_of (mu_ s) (mu_ s') in
       let am := midway (ma_ s) (ma_ s') in
       E s' - E s = rsum N (fun q => du q * midway f f' q) - energy_form N C du (midway (mv_ s) (mv_ s'))
                    + (1 - 2 * beta) * dt^2 * energy_form N M am am.
Proof. exact (c122_balance N solve K M C beta T0 T1 T F s0 out i t s t' s' f). Qed.
Print Assumptions C122_balance.
Example C122_balance_example : exists out t s t' s', newmark 1 divide one one zero_mat (1/4) (1/2) [0;1] (quiet 2) let_go = Some out
  /\ nth_error out 0 = Some (t, s) /\ nth_error out 1 = Some (t', s') /\ in_motion 1 one zero_mat one no_force s
  /\ let E s := mechanical 1 one one s + (1 - 0)^2/8 * energy_form 1 one (ma_ s) (ma_ s) in
     E s' - E s = (1 - 2 * (1/4)) * (1 - 0)^2 * energy_form 1 one (midway (ma_ s) (ma_ s')) (midway (ma_ s) (ma_ s')).
Proof.
  destruct (spring_run (1/4) 0 ltac:(lra)) as (out & E & L). change (ticking 0) with (@nil R) in E.
  destruct (nth_error out 0) as [[t s]|] eqn:E0; [|apply nth_error_None in E0; lia].
  destruct (nth_error out 1) as [[t' s']|] eqn:E1; [|apply nth_error_None in E1; lia].
  assert (HM : in_motion 1 one zero_mat one no_force s).
  { rewrite (newmark_start _ _ _ _ _ _ _ _ _ _ _ E) in E0. injection E0 as _ <-. exact let_go_motion. }
  exists out, t, s, t', s'. split; [exact E|]. split; [exact E0|]. split; [exact E1|]. split; [exact HM|].
  destruct (C122_balance 1 divide one one zero_mat (1/4) 0 1 [] (quiet 2) let_go out 0 t s t' s' no_force divide_exact ltac:(lra) ltac:(lra) one_symmetric one_symmetric E E0 E1 HM) as (f' & F & _ & B).
  cbn [quiet repeat nth_error] in F. injection F as <-. refine (eq_trans B _). cbv zeta.
  rewrite (rsum_0 1) by (intros; unfold midway, no_force; field). rewrite (ef_none 1 zero_mat) by reflexivity. ring.
Qed.

(** C122. With beta at least 1/2 and gamma = 1/2 an undamped structure without load never has more energy than at the start
    and dt^2/8 a.Ma; with beta = 1/2 the sum is the same at all steps.  Missing: beta below 1/2, also the default 1/4
    (see C122_grows), and damping. *)
Theorem C122_partial N solve K M C beta T0 T1 T F s0 out : exact_linear solve -> 1/2 <= beta -> T0 <> T1 ->
  symmetric_upto N M -> psd_upto N M -> symmetric_upto N K -> (forall i j, (i < N)%nat -> (j < N)%nat -> C i j = 0) ->
  unloaded N F -> in_motion N M C K no_force s0 -> newmark N solve K M C beta (1/2) (T0 :: T1 :: T) F s0 = Some out ->
  let stored s := (T1 - T0)^2/8 * energy_form N M (ma_ s) (ma_ s) in
  forall i t s, nth_error out i = Some (t, s) ->
    mechanical N M K s <= mechanical N M K s0 + stored s0
    /\ (beta = 1/2 -> mechanical N M K s + stored s = mechanical N M K s0 + stored s0).
Proof. exact (c122_partial N solve K M C beta T0 T1 T F s0 out). Qed.
Print Assumptions C122_partial.
Example C122_partial_example n : exists out, newmark 1 divide one one zero_mat (1/2) (1/2) (0 :: 1 :: ticking n) (quiet (S (S n))) let_go = Some out
  /\ forall i t s, nth_error out i = Some (t, s) -> mechanical 1 one one s <= 1/2 + 1/8.
Proof.
  destruct (spring_run (1/2) n ltac:(lra)) as (out & E & L). exists out. split; [exact E|]. intros i t s H.
  destruct (C122_partial 1 divide one one zero_mat (1/2) 0 1 (ticking n) (quiet (S (S n))) let_go out divide_exact ltac:(lra) ltac:(lra) one_symmetric one_psd one_symmetric ltac:(reflexivity) (quiet_unloaded 1 _) let_go_motion E i t s H) as (Q & _).
  unfold mechanical at 2 in Q. unfold energy_form in Q. cbn [rsum let_go mu_ mv_ ma_] in Q. unfold one in Q at 3 4 5. unfold one in *. lra.
Qed.

(** C122. With beta below 1/2, also with the default 1/4, and gamma = 1/2 every undamped structure without load, started with
    a share in any mode, exceeds every energy and stays above it, whatever the step size. *)
Theorem C122_grows N solve K M C beta T0 T1 w x s0 : exact_linear solve -> 0 < beta < 1/2 -> T0 <> T1 ->
  symmetric_upto N M -> psd_upto N M -> symmetric_upto N K -> psd_upto N K -> (forall i j, (i < N)%nat -> (j < N)%nat -> C i j = 0) ->
  mode_of N K M w x -> w <> 0 -> in_motion N M C K no_force s0 ->
  energy_form N M x (mu_ s0) <> 0 \/ energy_form N M x (mv_ s0) <> 0 ->
  forall B, exists n0, forall T F out i t s, unloaded N F ->
    newmark N solve K M C beta (1/2) (T0 :: T1 :: T) F s0 = Some out -> (n0 <= i)%nat -> nth_error out i = Some (t, s) ->
    B < mechanical N M K s.
Proof. exact (c122_grows N solve K M C beta T0 T1 w x s0). Qed.
Print Assumptions C122_grows.
Example C122_grows_example : exists n0, forall T F out i t s, unloaded 1 F ->
  newmark 1 divide one one zero_mat (1/4) (1/2) (0 :: 1/1000 :: T) F let_go = Some out -> (n0 <= i)%nat -> nth_error out i = Some (t, s) ->
  1000000 < mechanical 1 one one s.
Proof.
  apply (C122_grows 1 divide one one zero_mat (1/4) 0 (1/1000) 1 (fun _ => 1) let_go divide_exact ltac:(lra) ltac:(lra) one_symmetric one_psd one_symmetric one_psd ltac:(reflexivity) one_mode ltac:(lra) let_go_motion).
  left. unfold energy_form, one, let_go. cbn [rsum mu_]. lra.
Qed.

(** C122. A mass on a spring that is let go: with the default parameters its energy passes every bound. *)
Theorem C122_refuted : exists N solve K M C s0, exact_linear solve /\ symmetric_upto N M /\ psd_upto N M /\ symmetric_upto N K /\ psd_upto N K
  /\ (forall i j, C i j = 0) /\ in_motion N M C K no_force s0
  /\ forall B, exists T F out t s, unloaded N F /\ newmark N solve K M C (1/4) (1/2) (0 :: 1 :: T) F s0 = Some out /\ In (t, s) out
       /\ mechanical N M K s0 + B < mechanical N M K s.
Proof. exact c122_refuted. Qed.
Print Assumptions C122_refuted.


(** C123. After a push at the first step, whatever exact solver is used, the stored history of every structure passes every
    bound in the share of any mode that was pushed, if the step is small: modal damping times step and
    (w dt)^2 together below 2.  Only the number of steps has to be large; the smaller the step, the closer the growth per step is to 1.618. *)
Theorem C123_grows w dt p : dt <> 0 -> p <> 0 -> -1 < modal_damping w * dt / 2 -> modal_damping w * dt + (w*dt)^2 < 2 ->
  forall B, exists n0, forall ext a c damp s N K_ M_ C_ lc steps x f0, exact_cg ext -> solve_direct ext a c (Direct dt damp) = Some s ->
    free_system ext a c N K_ M_ C_ -> symmetric_upto N (coo_get M_) -> symmetric_upto N (coo_get K_) -> mode_of N (coo_get K_) (coo_get M_) w x ->
    dget c (a_cases a) = Some lc -> snd (case_max_min_step lc) = Some steps -> (n0 <= steps)%nat ->
    free_load a c 0 f0 -> rsum N (fun i => x i * nth i f0 0) = p ->
    (forall t f, (0 < t < steps)%nat -> free_load a c t f -> forall i, (i < N)%nat -> nth i f 0 = 0) ->
    exists r, In r s /\ B < Rabs (mode_share N (coo_get M_) x r).
Proof. exact (c123_grows w dt p). Qed.
Print Assumptions C123_grows.
Example C123_grows_example n : exists M_ C_ s, free_system uncoupled (push_asm n) "C" 6 [] M_ C_ /\ exact_cg uncoupled
  /\ solve_direct uncoupled (push_asm n) "C" (Direct 1 (5/100)) = Some s /\ mode_of 6 (coo_get []) (coo_get M_) 0 toward_x
  /\ -1 < modal_damping 0 * 1 / 2 /\ modal_damping 0 * 1 + (0 * 1)^2 < 2
  /\ snd (case_max_min_step (push_case n)) = Some (S n) /\ free_load (push_asm n) "C" 0 [1;0;0;0;0;0]
  /\ forall t f, (0 < t < S n)%nat -> free_load (push_asm n) "C" t f -> forall i, (i < 6)%nat -> nth i f 0 = 0.
Proof.
  destruct (push_matrices n) as (M_ & C_ & FS & _ & SO). destruct (SO 1 (5/100) eq_refl) as (s & HS). destruct (push_loads n) as (L0 & _ & LZ).
  destruct still_damping as (D1 & D2). exists M_, C_, s. split; [exact FS|]. split; [exact uncoupled_exact|]. split; [exact HS|]. split; [apply push_mode|].
  split; [lra|]. split; [lra|]. split; [exact (proj2 (push_steps n))|]. split; [exact L0|exact LZ].
Qed.

(** C123. A mass of 1 that is pushed once with the force 1: the stored displacements pass every bound. *)
Theorem C123_refuted : exists ext dt, exact_cg ext /\ 0 < dt
  /\ forall B, exists a c damp s steps lc r f0 i, solve_direct ext a c (Direct dt damp) = Some s
       /\ dget c (a_cases a) = Some lc /\ snd (case_max_min_step lc) = Some steps
       /\ free_load a c 0 f0 /\ (forall q, (q < 6)%nat -> nth q f0 0 = if Nat.eqb q 0 then 1 else 0)
       /\ (forall t f, (0 < t < steps)%nat -> free_load a c t f -> forall q, (q < 6)%nat -> nth q f 0 = 0)
       /\ In r s /\ B < Rabs (nth i r 0).
Proof. exact c123_refuted. Qed.
Print Assumptions C123_refuted.
(** The structure, its mass and its load history are what the constructors build. *)
Example C123_refuted_built n : exists m0 m1, model_add_node "A" 0 0 0 false (Fem [] [] [] [] [] [] [] [] [] []) = Some (O, m0)
  /\ model_set_mass "A" [1;1;1;1;1;1] m0 = Some m1
  /\ mk_asm m1 [case_add_pattern "P" 0 1 (Some (map INR (seq 0 (S n)), 1 :: repeat 0 n)) (new_case KStatic "C")] [mass_pat] = Some (push_asm n).
Proof. exact (push_asm_built n). Qed.

(** C123. The discretised equation of motion itself (which the rows solve only at the first step, C51) would not do so:
    at a step without load, and with damping that takes out energy, the energy of its solutions never rises. *)
Theorem C123_scheme N M C K dt steps load s : 0 < dt -> symmetric_upto N M -> symmetric_upto N K -> psd_upto N C ->
  integrates N M C K dt steps load s ->
  forall t, (t < steps)%nat -> (forall f i, load t f -> (i < N)%nat -> nth i f 0 = 0) ->
    pair_energy N M K dt (row_at s (Z.of_nat t)) (row_at s (Z.of_nat t + 1)) <= pair_energy N M K dt (row_at s (Z.of_nat t - 1)) (row_at s (Z.of_nat t)).
Proof. exact (c123_scheme N M C K dt steps load s). Qed.
Print Assumptions C123_scheme.
Example C123_scheme_example : let s := [[0]; [1]; [1]; [0]] in
  integrates 1 one zero_mat one 1 4 (fun t f => f = match t with O => [1] | 3%nat => [1] | _ => [0] end) s
  /\ pair_energy 1 one one 1 (row_at s 2) (row_at s 3) <= pair_energy 1 one one 1 (row_at s 1) (row_at s 2).
Proof.
  intros s.
  assert (H : integrates 1 one zero_mat one 1 4 (fun t f => f = match t with O => [1] | 3%nat => [1] | _ => [0] end) s).
  { intros t Ht. exists (match t with O => [1] | 3%nat => [1] | _ => [0] end). split; [reflexivity|].
    destruct t as [|[|[|[|t]]]]; try (exfalso; lia);
      [change (central_difference 1 one zero_mat one 1 [1] [] [0] [1])|change (central_difference 1 one zero_mat one 1 [0] [0] [1] [1])
      |change (central_difference 1 one zero_mat one 1 [0] [1] [1] [0])|change (central_difference 1 one zero_mat one 1 [1] [1] [0] [])];
      intros i Hi; assert (i = O) by lia; subst i; unfold one, zero_mat; cbn [rsum nth]; field. }
  split; [exact H|]. apply (C123_scheme 1 one zero_mat one 1 4 _ s ltac:(lra) one_symmetric one_symmetric) with (t := 2%nat) (2 := H).
  - intros x. apply Req_le. symmetry. apply rsum_0. intros i Hi. rewrite rsum_0; [ring|intros; unfold zero_mat; ring].
  - lia.
  - intros f i -> Hi. destruct i as [|[|i]]; reflexivity.
Qed.

(** C124. The damping matrix of the free equations takes energy out of every mode of period 1/2 or more, for all structures.
    Missing: shorter periods (see C124_drives). *)
Theorem C124_partial ext a c N K_ M_ C_ w x : free_system ext a c N K_ M_ C_ -> symmetric_upto N (coo_get M_) -> psd_upto N (coo_get M_) -> symmetric_upto N (coo_get K_) ->
  mode_of N (coo_get K_) (coo_get M_) w x -> 0 <= w <= 2 * PI / (1/2) -> 0 <= energy_form N (coo_get C_) x x.
Proof. exact (c124_partial ext a c N K_ M_ C_ w x). Qed.
Print Assumptions C124_partial.
Example C124_partial_example : exists a K_ M_ C_, read_asb (bar_world (1/2)) = Some a /\ free_system bench a "C" 6 K_ M_ C_
  /\ mode_of 6 (coo_get K_) (coo_get M_) 1 pulled /\ 0 <= energy_form 6 (coo_get C_) pulled pulled.
Proof.
  destruct (bar_free (1/2)) as (a & K_ & M_ & C_ & Ha & FS & GK & GM).
  destruct (bar_shaking (1/2) 1 K_ M_ ltac:(lra) GK GM) as (SM & PM & SK & HX & EX).
  exists a, K_, M_, C_. split; [exact Ha|]. split; [exact FS|]. split; [exact HX|].
  apply (C124_partial bench a "C" 6 K_ M_ C_ 1 pulled FS SM PM SK HX). pose proof PI_RGT_0. pose proof PI2_3_2. lra.
Qed.

(** C124. It feeds energy into every mode of a period below 1/2, for all structures. *)
Theorem C124_drives ext a c N K_ M_ C_ w x : free_system ext a c N K_ M_ C_ -> symmetric_upto N (coo_get M_) -> symmetric_upto N (coo_get K_) ->
  mode_of N (coo_get K_) (coo_get M_) w x -> 2 * PI / (1/2) < w -> 0 < energy_form N (coo_get M_) x x -> energy_form N (coo_get C_) x x < 0.
Proof. exact (c124_drives ext a c N K_ M_ C_ w x). Qed.
Print Assumptions C124_drives.
Example C124_drives_example : exists a K_ M_ C_, read_asb (bar_world 200) = Some a /\ free_system bench a "C" 6 K_ M_ C_
  /\ mode_of 6 (coo_get K_) (coo_get M_) 20 pulled /\ energy_form 6 (coo_get C_) pulled pulled < 0.
Proof.
  destruct (bar_free 200) as (a & K_ & M_ & C_ & Ha & FS & GK & GM).
  destruct (bar_shaking 200 20 K_ M_ ltac:(lra) GK GM) as (SM & PM & SK & HX & EX).
  exists a, K_, M_, C_. split; [exact Ha|]. split; [exact FS|]. split; [exact HX|].
  apply (C124_drives bench a "C" 6 K_ M_ C_ 20 pulled FS SM SK HX); [pose proof PI_4; lra|lra].
Qed.

(** C124. A clamped bar told by calls of the interface. *)
Theorem C124_refuted : exists ops a c N K_ M_ C_ x, read_asb (final bench init (ops ++ [OpAssemble])) = Some a /\ free_system bench a c N K_ M_ C_
  /\ (exists w, 0 < w /\ mode_of N (coo_get K_) (coo_get M_) w x) /\ energy_form N (coo_get C_) x x < 0.
Proof. exact c124_refuted. Qed.
Print Assumptions C124_refuted.

