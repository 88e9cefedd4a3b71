(** Proofs: a structure in balance with a constant load stays as it is. *)
From Coq Require Import Reals List Arith Lra Lia.
From Verif Require Import Base BaseFacts AsmProofs Dynamic SpecDyn SpecAsm DynProofs SpecSuper SuperProofs DelayProofs SpecStand.
Import ListNotations.
Local Open Scope R_scope.

Lemma same_balance N K f s r : same_motion N r s -> in_balance N K f s -> in_balance N K f r.
Proof.
  intros S (B & V & A). split; [|split].
  - intros i Hi. rewrite <- (B i Hi). apply rsum_ext. intros j Hj. rewrite (proj1 (S j Hj)). reflexivity.
  - intros i Hi. rewrite (proj1 (proj2 (S i Hi))). exact (V i Hi).
  - intros i Hi. rewrite (proj2 (proj2 (S i Hi))). exact (A i Hi).
Qed.
Lemma implicit_stands N solve K M C b f s g r : exact_linear solve ->
  regular N (fun i j => K i j + b4 b * C i j + b1 b * M i j) -> in_balance N K f s -> (forall i, (i < N)%nat -> g i = f i) ->
  implicit_step N solve K M C b s g = Some r -> same_motion N r s.
Proof.
  intros EX RG (B & V & A) G H. unfold implicit_step in H. destruct (solve _ _ _) as [ut|] eqn:E; [|discriminate].
  cbn [bindO] in H. apply some_inj in H. subst r. pose proof (EX _ _ _ _ E) as Q. cbv beta in Q.
  assert (Z : forall i, (i < N)%nat -> ut i - mu_ s i = 0).
  { apply (RG (fun i => ut i - mu_ s i)). intros i Hi. pose proof (Q i Hi) as Qi. rewrite (G i Hi), <- (B i Hi) in Qi. unfold mulv in Qi.
    rewrite (rsum_ext N (fun j => M i j * (b1 b * mu_ s j - b2 b * mv_ s j - b3 b * ma_ s j)) (fun j => M i j * (b1 b * mu_ s j))) in Qi
      by (intros j Hj; rewrite (V j Hj), (A j Hj); ring).
    rewrite (rsum_ext N (fun j => C i j * (b4 b * mu_ s j - b5 b * mv_ s j - b6 b * ma_ s j)) (fun j => C i j * (b4 b * mu_ s j))) in Qi
      by (intros j Hj; rewrite (V j Hj), (A j Hj); ring).
    assert (L : forall (k c m u w : nat -> R) p q n,
      rsum n (fun j => (k j + p * c j + q * m j) * (u j - w j))
      = rsum n (fun j => (k j + p * c j + q * m j) * u j) - (rsum n (fun j => k j * w j) + rsum n (fun j => m j * (q * w j)) + rsum n (fun j => c j * (p * w j)))).
    { clear. intros k c m u w p q n. induction n as [|n IH]; cbn [rsum]; [ring|]. rewrite IH. ring. }
    rewrite (L (K i) (C i) (M i) ut (mu_ s)). lra. }
  intros i Hi. cbn [mu_ mv_ ma_]. pose proof (Z i Hi) as Zi. rewrite Zi, (V i Hi), (A i Hi). repeat split; lra.
Qed.
Lemma wilson_stands N solve K M C beta gamma theta dt f s g r : exact_linear solve ->
  0 < beta -> 0 <= gamma -> 0 < theta -> 0 < dt -> inertial N M -> psd_upto N K -> psd_upto N C ->
  in_balance N K f s -> (forall i, (i < N)%nat -> g i = f i) ->
  wilson_step N solve K M C beta gamma theta dt s g = Some r -> same_motion N r s.
Proof.
  intros EX B G TH D HM HK HC IB GF H. unfold wilson_step in H. destruct (implicit_step _ _ _ _ _ _ _ _) as [y|] eqn:I; [|discriminate].
  cbn [bindO] in H. apply some_inj in H. subst r.
  assert (Y : same_motion N y s).
  { refine (implicit_stands N solve K M C _ f s g y EX _ IB GF I).
    unfold wilson_coef. cbn [b1 b4]. assert (PT : 0 < theta * dt) by (apply Rmult_lt_0_compat; lra).
    assert (P : 0 < 1 / (beta * (theta * dt)^2)).
    { apply Rdiv_lt_0_compat; [lra|]. apply Rmult_lt_0_compat; [lra|]. apply pow_lt. exact PT. }
    apply step_regular; try assumption. repeat apply Rmult_le_pos; lra. }
  destruct IB as (_ & V & A). intros i Hi. cbn [mu_ mv_ ma_]. rewrite (proj2 (proj2 (Y i Hi))), (V i Hi), (A i Hi). repeat split; ring.
Qed.
Lemma same_trans N a b c : same_motion N a b -> same_motion N b c -> same_motion N a c.
Proof. intros P Q i Hi. destruct (P i Hi) as (-> & -> & ->). exact (Q i Hi). Qed.

Lemma c141_newmark : forall N solve K M C beta gamma T0 T1 T F f s out, exact_linear solve ->
  0 < beta -> 0 <= gamma -> T0 < T1 -> inertial N M -> psd_upto N K -> psd_upto N C ->
  newmark N solve K M C beta gamma (T0 :: T1 :: T) F s = Some out -> in_balance N K f s -> constant_load N f F ->
  forall n t r, nth_error out n = Some (t, r) -> same_motion N r s.
Proof.
  intros N solve K M C beta gamma T0 T1 T F f s out EX B G D HM HK HC H IB CL.
  pose proof (newmark_regular N K M C beta gamma (T1 - T0) B G ltac:(lra) HM HK HC) as RG.
  induction n as [|n IH]; intros t r E.
  - rewrite (newmark_first _ _ _ _ _ _ _ _ _ _ _ H) in E. apply some_inj in E. assert (r = s) by congruence. subst r. intros i _. repeat split.
  - destruct (before _ _ _ E) as ((t0 & r0) & E0). pose proof (IH t0 r0 E0) as S0.
    destruct (newmark_pair _ _ _ _ _ _ _ _ _ _ _ _ _ _ _ _ H E0 E) as (g & d & _ & Q & (a & b & c & W & DD) & S).
    assert (d = T1 - T0) as X by (injection W as <- <- _; exact DD). rewrite X in S.
    exact (same_trans N _ _ _ (implicit_stands N solve K M C _ f r0 g r EX RG (same_balance _ _ _ _ _ S0 IB) (CL n g Q) S) S0).
Qed.
Lemma c141_wilson : forall N solve K M C beta gamma theta T0 T1 T F f s out, exact_linear solve ->
  0 < beta -> 0 <= gamma -> 0 < theta -> T0 < T1 -> inertial N M -> psd_upto N K -> psd_upto N C ->
  wilson N solve K M C beta gamma theta (T0 :: T1 :: T) F s = Some out -> in_balance N K f s -> constant_load N f F ->
  forall n t r, nth_error out n = Some (t, r) -> same_motion N r s.
Proof.
  intros N solve K M C beta gamma theta T0 T1 T F f s out EX B G TH D HM HK HC H IB CL.
  induction n as [|n IH]; intros t r E.
  - rewrite (wilson_first _ _ _ _ _ _ _ _ _ _ _ _ H) in E. apply some_inj in E. assert (r = s) by congruence. subst r. intros i _. repeat split.
  - destruct (before _ _ _ E) as ((t0 & r0) & E0). pose proof (IH t0 r0 E0) as S0.
    destruct (wilson_pair _ _ _ _ _ _ _ _ _ _ _ _ _ _ _ _ _ _ _ H E0 E) as (g & _ & Q & S).
    refine (same_trans N _ _ _ (wilson_stands N solve K M C beta gamma theta (T1 - T0) f r0 g r EX B G TH ltac:(lra) HM HK HC (same_balance _ _ _ _ _ S0 IB) _ S) S0).
    intros i Hi. destruct n as [|n]; cbn [wilson_load] in Q.
    + exact (CL 0%nat g Q i Hi).
    + destruct Q as (g0 & g1 & Q0 & Q1 & Q). rewrite Q, (CL n g0 Q0 i Hi), (CL (Datatypes.S n) g1 Q1 i Hi). ring.
Qed.
