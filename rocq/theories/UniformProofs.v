(** Proofs: uniformly accelerated motions under Newmark's method. *)
From Coq Require Import Reals List Arith Lra Lia.
From Verif Require Import Base BaseFacts Load FeModel Assembly AsmProofs Solver Element Dynamic SpecDyn SpecAsm DynProofs DynDemo SpecSuper SuperProofs DelayProofs SpecUniform.
Import ListNotations.
Local Open Scope R_scope.

Lemma step_uniform N solve K M C beta gamma dt u v a t s g r : exact_linear solve -> 0 < beta -> 0 < dt ->
  regular N (fun i j => K i j + b4 (newmark_coef beta gamma dt) * C i j + b1 (newmark_coef beta gamma dt) * M i j) ->
  (forall i, (i < N)%nat -> (1 - 2 * beta) * a i = 0) ->
  moves_at N u v a t s ->
  (forall i, (i < N)%nat -> g i = rsum N (fun j => M i j * a j) + rsum N (fun j => C i j * (v j + a j * (t + dt)))
          + rsum N (fun j => K i j * (u j + v j * (t + dt) + a j * (t + dt)^2 / 2))) ->
  implicit_step N solve K M C (newmark_coef beta gamma dt) s g = Some r -> moves_at N u v a (t + dt) r.
Proof.
  intros EX B D RG BA MS G H. set (b := newmark_coef beta gamma dt) in *. set (w := fun j => u j + v j * (t + dt) + a j * (t + dt)^2 / 2) in *.
  assert (MU : forall j, (j < N)%nat -> mu_ s j = u j + v j * t + a j * t^2 / 2 /\ mv_ s j = v j + a j * t /\ ma_ s j = a j).
  { intros j Hj. pose proof (MS j Hj) as Q. unfold accelerated in Q. injection Q as Q1 Q2 Q3. repeat split; assumption. }
  assert (AC : forall j, (j < N)%nat -> b1 b * (w j - mu_ s j) + b2 b * mv_ s j + b3 b * ma_ s j = a j).
  { intros j Hj. destruct (MU j Hj) as (-> & -> & ->). unfold w, b, newmark_coef. cbn [b1 b2 b3].
    transitivity ((1 - 2 * beta) * a j / beta + a j); [field; lra|]. rewrite (BA j Hj). field. lra. }
  assert (VC : forall j, (j < N)%nat -> b4 b * (w j - mu_ s j) + b5 b * mv_ s j + b6 b * ma_ s j = v j + a j * (t + dt)).
  { intros j Hj. destruct (MU j Hj) as (-> & -> & ->). unfold w, b, newmark_coef. cbn [b4 b5 b6].
    transitivity (gamma * dt * ((1 - 2 * beta) * a j) / beta + v j + a j * (t + dt)); [field; lra|]. rewrite (BA j Hj). field. lra. }
  unfold implicit_step in H. destruct (solve _ _ _) as [ut|] eqn:E; [|discriminate].
  cbn [bindO] in H. apply some_inj in H. subst r. pose proof (EX _ _ _ _ E) as Q. cbv beta in Q.
  assert (Z : forall i, (i < N)%nat -> ut i - w i = 0).
  { apply (RG (fun i => ut i - w i)). intros i Hi. pose proof (Q i Hi) as Qi. rewrite (G i Hi) in Qi. unfold mulv in Qi.
    change (rsum N (fun j => K i j * (u j + v j * (t + dt) + a j * (t + dt)^2 / 2))) with (rsum N (fun j => K i j * w j)) in Qi.
    rewrite (rsum_ext N (fun j => M i j * (b1 b * mu_ s j - b2 b * mv_ s j - b3 b * ma_ s j)) (fun j => M i j * (b1 b * w j - a j))) in Qi
      by (intros j Hj; f_equal; pose proof (AC j Hj); lra).
    rewrite (rsum_ext N (fun j => C i j * (b4 b * mu_ s j - b5 b * mv_ s j - b6 b * ma_ s j)) (fun j => C i j * (b4 b * w j - (v j + a j * (t + dt))))) in Qi
      by (intros j Hj; f_equal; pose proof (VC j Hj); lra).
    assert (L : forall (k c m x y p q : nat -> R) c4 c1 n,
      rsum n (fun j => (k j + c4 * c j + c1 * m j) * (x j - y j))
      = rsum n (fun j => (k j + c4 * c j + c1 * m j) * x j)
        - (rsum n (fun j => m j * p j) + rsum n (fun j => c j * q j) + rsum n (fun j => k j * y j)
           + rsum n (fun j => m j * (c1 * y j - p j)) + rsum n (fun j => c j * (c4 * y j - q j)))).
    { clear. intros k c m x y p q c4 c1 n. induction n as [|n IH]; cbn [rsum]; [ring|]. rewrite IH. ring. }
    rewrite (L (K i) (C i) (M i) ut w a (fun j => v j + a j * (t + dt))). cbv beta. lra. }
  intros i Hi. cbn [mu_ mv_ ma_]. assert (ut i = w i) as -> by (pose proof (Z i Hi); lra). rewrite (AC i Hi), (VC i Hi). reflexivity.
Qed.

Lemma c142_newmark : forall N solve K M C beta gamma T0 T1 T F u v a s out, exact_linear solve ->
  0 < beta -> 0 <= gamma -> T0 < T1 -> inertial N M -> psd_upto N K -> psd_upto N C ->
  (forall i, (i < N)%nat -> (1 - 2 * beta) * a i = 0) ->
  newmark N solve K M C beta gamma (T0 :: T1 :: T) F s = Some out -> moves_at N u v a 0 s -> drives N M C K u v a (T1 - T0) F ->
  forall n t r, nth_error out n = Some (t, r) -> moves_at N u v a (INR n * (T1 - T0)) r.
Proof.
  intros N solve K M C beta gamma T0 T1 T F u v a s out EX B G D HM HK HC BA H MS DR.
  pose proof (newmark_regular N K M C beta gamma (T1 - T0) B G ltac:(lra) HM HK HC) as RG.
  induction n as [|n IH]; intros t r E.
  - rewrite (newmark_first _ _ _ _ _ _ _ _ _ _ _ H) in E. apply some_inj in E. assert (r = s) by congruence. subst r. cbn [INR]. rewrite Rmult_0_l. exact MS.
  - destruct (before _ _ _ E) as ((t0 & r0) & E0). pose proof (IH t0 r0 E0) as S0.
    destruct (newmark_pair _ _ _ _ _ _ _ _ _ _ _ _ _ _ _ _ H E0 E) as (g & d & _ & Q & (x & y & z & W & DD) & S).
    assert (d = T1 - T0) as X by (injection W as <- <- _; exact DD). rewrite X in S.
    assert (TE : INR (Datatypes.S n) * (T1 - T0) = INR n * (T1 - T0) + (T1 - T0)) by (rewrite S_INR; ring).
    rewrite TE. refine (step_uniform N solve K M C beta gamma (T1 - T0) u v a _ r0 g r EX B ltac:(lra) RG BA S0 _ S).
    intros i Hi. rewrite <- TE. exact (DR n g Q i Hi).
Qed.

Definition fall_load : nat -> R := fun _ => 3/2.
Definition start : motion := Motion (fun _ => 0) (fun _ => 0) (fun _ => 1).
Lemma c142_refuted : exists N solve K M C gamma T F u v a s out t r, exact_linear solve
  /\ 0 <= gamma /\ inertial N M /\ psd_upto N K /\ psd_upto N C
  /\ newmark N solve K M C (1/4) gamma (0 :: 1 :: T) F s = Some out /\ moves_at N u v a 0 s /\ drives N M C K u v a (1 - 0) F
  /\ nth_error out 1 = Some (t, r) /\ ~ moves_at N u v a (INR 1 * (1 - 0)) r.
Proof.
  set (b := newmark_coef (1/4) (1/2) (1 - 0)).
  assert (B1 : b1 b = 4) by (unfold b, newmark_coef; cbn [b1]; field).
  assert (B3 : b3 b = 1) by (unfold b, newmark_coef; cbn [b3]; field).
  destruct (implicit_divide 1 b start fall_load ltac:(lra)) as (t1 & E1 & X). change (fun _ _ : nat => 1) with one in E1.
  exists 1%nat, divide, one, one, zero_mat, (1/2), [], [fall_load], (fun _ => 0), (fun _ => 0), (fun _ => 1), start, [(0, start); (0, t1)], 0, t1.
  split; [exact divide_exact|]. split; [lra|].
  split. { intros x (i & Hi & Y). assert (i = O) by lia. subst i. cbn [rsum]. unfold one. assert (0 < x O * x O) by (destruct (Rtotal_order (x O) 0) as [Q|[Q|Q]]; [|contradiction|]; nra). lra. }
  split. { intros x. cbn [rsum]. unfold one. pose proof (pow2_ge_0 (x 0%nat)). lra. }
  split. { intros x. cbn [rsum]. unfold zero_mat. lra. }
  split. { unfold newmark. cbn [List.length Nat.min firstn newmark_loop]. fold b. rewrite E1. reflexivity. }
  split. { intros i _. unfold accelerated, start. cbn [mu_ mv_ ma_]. apply f_equal2; [apply f_equal2|reflexivity]; field. }
  split. { intros k f Q i Hi. destruct k as [|k]; [|destruct k; discriminate]. cbn [nth_error] in Q. apply some_inj in Q. subst f.
    cbn [rsum INR]. unfold fall_load, one, zero_mat. field. }
  split; [reflexivity|]. intro Z. pose proof (Z 0%nat ltac:(lia)) as Q. unfold accelerated in Q. injection Q as Q _ _.
  revert Q. subst t1. cbn [mu_ mv_ ma_ start INR]. unfold fall_load. rewrite ?B1, ?B3. intro Q. lra.
Qed.
