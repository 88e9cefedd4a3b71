(** Proofs: a delayed load gives the delayed motion. *)
From Coq Require Import Reals List String Arith Bool ZArith Lra Lia.
From Verif Require Import Base BaseFacts Load FeModel Assembly AsmProofs Solver Element Dynamic SpecDyn SpecAsm DynProofs DynDemo SpecSuper SuperProofs.
Import ListNotations.
Local Open Scope R_scope.

Lemma rest_combines N s x : at_rest N s <-> motions_combine N 0 0 x x s.
Proof.
  unfold at_rest, motions_combine, zero_upto, combines. split; intros (U & V & A); repeat split; intros i Hi;
    rewrite ?(U i Hi), ?(V i Hi), ?(A i Hi); ring.
Qed.
Lemma rest_same N s s' : at_rest N s -> at_rest N s' -> same_motion N s s'.
Proof. intros (U & V & A) (U' & V' & A') i Hi. rewrite (U i Hi), (V i Hi), (A i Hi), (U' i Hi), (V' i Hi), (A' i Hi). repeat split; reflexivity. Qed.
Lemma newmark_regular N K M C beta gamma dt : 0 < beta -> 0 <= gamma -> 0 < dt -> inertial N M -> psd_upto N K -> psd_upto N C ->
  regular N (fun i j => K i j + b4 (newmark_coef beta gamma dt) * C i j + b1 (newmark_coef beta gamma dt) * M i j).
Proof.
  intros B G D HM HK HC. unfold newmark_coef. cbn [b1 b4]. assert (P : 0 < 1 / (beta * dt * dt)).
  { apply Rdiv_lt_0_compat; [lra|]. repeat apply Rmult_lt_0_compat; lra. }
  apply step_regular; try assumption. repeat apply Rmult_le_pos; lra.
Qed.
Lemma c138_newmark : forall N solve K M C beta gamma T0 T1 T T0' T1' T' F F' s s' out out' m, exact_linear solve ->
  0 < beta -> 0 <= gamma -> T0 < T1 -> T1' - T0' = T1 - T0 -> inertial N M -> psd_upto N K -> psd_upto N C ->
  newmark N solve K M C beta gamma (T0 :: T1 :: T) F s = Some out -> newmark N solve K M C beta gamma (T0' :: T1' :: T') F' s' = Some out' ->
  at_rest N s -> at_rest N s' -> delayed N m F F' ->
  forall n t r t' r', nth_error out n = Some (t, r) -> nth_error out' (m + n) = Some (t', r') -> same_motion N r r'.
Proof.
  intros N solve K M C beta gamma T0 T1 T T0' T1' T' F F' s s' out out' m EX B G D DT HM HK HC H H' RS RS' (DZ & DS).
  pose proof (newmark_regular N K M C beta gamma (T1 - T0) B G ltac:(lra) HM HK HC) as RG.
  assert (STILL : forall k, (k <= m)%nat -> forall t r, nth_error out' k = Some (t, r) -> at_rest N r).
  { induction k as [|k IH]; intros Hk t r E.
    - rewrite (newmark_first _ _ _ _ _ _ _ _ _ _ _ H') in E. apply some_inj in E. assert (r = s') by congruence. subst r. exact RS'.
    - destruct (before _ _ _ E) as ((t0 & r0) & E0). pose proof (IH ltac:(lia) t0 r0 E0) as R0.
      destruct (newmark_pair _ _ _ _ _ _ _ _ _ _ _ _ _ _ _ _ H' E0 E) as (f & d & _ & Q & (a & b & c & W & DD) & S).
      assert (d = T1 - T0) by (injection W as <- <- _; lra). subst d. rewrite H0 in S.
      apply (rest_combines N r r). refine (implicit_combines N solve K M C _ 0 0 _ _ _ _ _ _ _ _ _ EX RG (proj1 (rest_combines N r0 r0) R0) _ S S S).
      intros i Hi. rewrite (DZ k f ltac:(lia) Q i Hi). ring. }
  induction n as [|n IH]; intros t r t' r' E E'.
  - rewrite (newmark_first _ _ _ _ _ _ _ _ _ _ _ H) in E. apply some_inj in E. assert (r = s) by congruence. subst r.
    apply rest_same; [exact RS|]. apply (STILL (m + 0)%nat ltac:(lia) t' r' E').
  - rewrite Nat.add_succ_r in E'. destruct (before _ _ _ E) as ((t0 & r0) & E0). destruct (before _ _ _ E') as ((t0' & r0') & E0').
    pose proof (IH t0 r0 t0' r0' E0 E0') as SM.
    destruct (newmark_pair _ _ _ _ _ _ _ _ _ _ _ _ _ _ _ _ H E0 E) as (f & d & _ & Q & (a & b & c & W & DD) & S).
    destruct (newmark_pair _ _ _ _ _ _ _ _ _ _ _ _ _ _ _ _ H' E0' E') as (f' & d' & _ & Q' & (a' & b' & c' & W' & DD') & S').
    assert (d = T1 - T0) by (injection W as <- <- _; exact DD). assert (d' = T1 - T0) by (injection W' as <- <- _; lra). subst d d'.
    rewrite H0 in S. rewrite H1 in S'.
    apply motions_same. refine (implicit_combines N solve K M C _ 1 0 _ _ _ _ _ _ _ _ _ EX RG (proj2 (motions_same _ _ _) SM) _ S S S').
    intros i Hi. rewrite (DS n f f' Q Q' i Hi). ring.
Qed.

Lemma c138_direct : forall ext a a' c c' dt d d' o o' N K_ M_ C_ m, exact_cg ext -> dt <> 0 ->
  solve_direct ext a c (Direct dt d) = Some o -> solve_direct ext a' c' (Direct dt d') = Some o' ->
  free_system ext a c N K_ M_ C_ -> free_system ext a' c' N K_ M_ C_ ->
  regular N (fun i j => coo_get M_ i j / dt^2 + coo_get C_ i j / (2 * dt)) ->
  (forall t f', (t < m)%nat -> free_load a' c' t f' -> forall i, (i < N)%nat -> nth i f' 0 = 0) ->
  (forall t f f', free_load a c t f -> free_load a' c' (m + t) f' -> forall i, (i < N)%nat -> nth i f 0 = nth i f' 0) ->
  forall n r r', nth_error o n = Some r -> nth_error o' (m + n) = Some r' -> forall i, (i < N)%nat -> nth i r 0 = nth i r' 0.
Proof.
  intros ext a a' c c' dt d d' o o' N K_ M_ C_ m EX D H H' S S' RG LZ LS.
  destruct (c51_actual ext a c (Direct dt d) o EX D H) as (N1 & K1 & M1 & C1 & l1 & k1 & F1 & _ & _ & L1 & Z1 & _ & A1).
  destruct (c51_actual ext a' c' (Direct dt d') o' EX D H') as (N2 & K2 & M2 & C2 & l2 & k2 & F2 & _ & _ & L2 & Z2 & _ & A2).
  destruct (free_system_fun _ _ _ _ _ _ _ _ _ _ _ S F1) as (<- & <- & <- & <-).
  destruct (free_system_fun _ _ _ _ _ _ _ _ _ _ _ S' F2) as (<- & <- & <- & <-).
  cbn [dp_step] in *.
  assert (STILL : forall k, (k <= m)%nat -> (k <= k2)%nat -> forall i, (i < N)%nat -> nth i (nth k o' []) 0 = 0).
  { intros k Hk K2 i Hi. destruct (nth_error o' k) as [r|] eqn:E; [|apply nth_error_None in E; lia].
    rewrite (nth_error_nth o' k [] E).
    assert (Q : rows_combine N 0 0 r r r); [|rewrite (Q i Hi); ring].
    apply (c135_direct ext a' a' a' c' c' c' dt d' d' d' o' o' o' N K_ M_ C_ 0 0 EX D H' H' H' S' S' S' RG k r r r); [|assumption..].
    intros t f1 f2 f3 Ht _ _ G3 q Hq. rewrite (LZ t f3 ltac:(lia) G3 q Hq). ring. }
  assert (MAIN : forall n, (n <= k1)%nat -> (m + n <= k2)%nat -> forall i, (i < N)%nat -> nth i (nth n o []) 0 = nth i (nth (m + n) o' []) 0).
  { induction n as [n IH] using lt_wf_ind. intros B1 B2. destruct n as [|t].
    - intros i Hi. rewrite Z1, STILL by lia. reflexivity.
    - assert (EARLY : forall z, (-2 <= z)%Z -> (z < Z.of_nat t + 1)%Z -> forall i, (i < N)%nat -> nth i (row_at o z) 0 = nth i (row_at o' (Z.of_nat m + z)) 0).
      { intros z Hz1 Hz i Hi. unfold row_at. destruct (Z.ltb_spec z 0).
        - destruct (Z.ltb_spec (Z.of_nat m + z) 0); [destruct i; reflexivity|]. rewrite STILL by lia. destruct i; reflexivity.
        - destruct (Z.ltb_spec (Z.of_nat m + z) 0); [lia|]. rewrite (IH (Z.to_nat z) ltac:(lia) ltac:(lia) ltac:(lia) i Hi). do 2 f_equal. lia. }
      destruct (A1 t ltac:(lia)) as (f & G1 & E1). destruct (A2 (m + t)%nat ltac:(lia)) as (f' & G2 & E2).
      pose proof (LS t f f' G1 G2) as FC.
      pose proof (EARLY (Z.of_nat t - 2)%Z ltac:(lia) ltac:(lia)) as PP. pose proof (EARLY (Z.of_nat t - 1)%Z ltac:(lia) ltac:(lia)) as PQ.
      replace (Z.of_nat (m + t) - 2)%Z with (Z.of_nat m + (Z.of_nat t - 2))%Z in E2 by lia.
      replace (Z.of_nat (m + t) - 1)%Z with (Z.of_nat m + (Z.of_nat t - 1))%Z in E2 by lia.
      assert (R1 : row_at o (Z.of_nat t + 1) = nth (Datatypes.S t) o []).
      { unfold row_at. destruct (Z.ltb_spec (Z.of_nat t + 1) 0); [lia|]. f_equal. lia. }
      assert (R2 : row_at o' (Z.of_nat (m + t) + 1) = nth (m + Datatypes.S t) o' []).
      { unfold row_at. destruct (Z.ltb_spec (Z.of_nat (m + t) + 1) 0); [lia|]. f_equal. lia. }
      rewrite R1 in E1. rewrite R2 in E2. clear R1 R2 EARLY IH.
      set (x := nth (Datatypes.S t) o []) in *. set (y := nth (m + Datatypes.S t) o' []) in *.
      assert (Z : forall i, (i < N)%nat -> nth i x 0 - nth i y 0 = 0).
      { apply (RG (fun i => nth i x 0 - nth i y 0)). intros i Hi.
        pose proof (E1 i Hi) as Q1. pose proof (E2 i Hi) as Q2. rewrite (FC i Hi), <- Q2 in Q1.
        set (P := row_at o (Z.of_nat t - 2)) in *. set (P' := row_at o' (Z.of_nat m + (Z.of_nat t - 2))) in *.
        set (V := row_at o (Z.of_nat t - 1)) in *. set (V' := row_at o' (Z.of_nat m + (Z.of_nat t - 1))) in *.
        rewrite (rsum_ext N (fun j => coo_get K_ i j * nth j V 0) (fun j => coo_get K_ i j * nth j V' 0)) in Q1 by (intros j Hj; rewrite (PQ j Hj); reflexivity).
        rewrite (rsum_ext N (fun j => coo_get M_ i j * ((nth j x 0 - 2 * nth j V 0 + nth j P 0) / dt^2)) (fun j => coo_get M_ i j * ((nth j x 0 - 2 * nth j V' 0 + nth j P' 0) / dt^2))) in Q1
          by (intros j Hj; rewrite (PQ j Hj), (PP j Hj); reflexivity).
        rewrite (rsum_ext N (fun j => coo_get C_ i j * ((nth j x 0 - nth j P 0) / (2 * dt))) (fun j => coo_get C_ i j * ((nth j x 0 - nth j P' 0) / (2 * dt)))) in Q1
          by (intros j Hj; rewrite (PP j Hj); reflexivity).
        assert (L : forall (mm cc u w v e : nat -> R) n,
          rsum n (fun j => (mm j / dt^2 + cc j / (2*dt)) * (u j - w j))
          = (rsum n (fun j => mm j * ((u j - 2 * v j + e j) / dt^2)) + rsum n (fun j => cc j * ((u j - e j) / (2*dt))))
            - (rsum n (fun j => mm j * ((w j - 2 * v j + e j) / dt^2)) + rsum n (fun j => cc j * ((w j - e j) / (2*dt))))).
        { clear - D. intros mm cc u w v e n. induction n as [|n IH]; cbn [rsum]; [ring|]. rewrite IH. field. exact D. }
        rewrite (L (coo_get M_ i) (coo_get C_ i) (fun j => nth j x 0) (fun j => nth j y 0) (fun j => nth j V' 0) (fun j => nth j P' 0) N). lra. }
      intros i Hi. pose proof (Z i Hi). lra. }
  intros n r r' E E' i Hi.
  assert (B1 : (n < List.length o)%nat) by (apply nth_error_Some; congruence).
  assert (B2 : (m + n < List.length o')%nat) by (apply nth_error_Some; congruence).
  rewrite <- (nth_error_nth o n [] E), <- (nth_error_nth o' (m + n) [] E'). apply MAIN; [lia|lia|exact Hi].
Qed.

(** ** Wilson: the first load is not extrapolated, all others are. *)
Definition still : motion := Motion (fun _ => 0) (fun _ => 0) (fun _ => 0).
Definition none : nat -> R := fun _ => 0.
Lemma wilson_delay : exists t1 r1 t2 r2 u1 q1 u2 q2,
  wilson 1 divide one one zero_mat (1/6) (1/2) (7/5) [0;1] [unit_force; none] still = Some [(0, still); (t1, r1); (t2, r2)]
  /\ wilson 1 divide one one zero_mat (1/6) (1/2) (7/5) [0;1] [none; unit_force] still = Some [(0, still); (u1, q1); (u2, q2)]
  /\ ma_ r1 0%nat <> ma_ q2 0%nat.
Proof.
  set (b := wilson_coef (1/6) (1/2) (7/5) (1 - 0)).
  assert (B1 : 0 < b1 b) by (unfold b, wilson_coef; cbn [b1]; apply Rdiv_lt_0_compat; [lra|]; apply Rmult_lt_0_compat; [lra|]; apply pow_lt; lra).
  unfold wilson. cbn [List.length Nat.min wilson_loads wilson_tail firstn wilson_loop]. unfold wilson_step. fold b.
  destruct (implicit_divide 1 b still unit_force ltac:(lra)) as (t1 & E1 & T1). change (fun _ _ : nat => 1) with one in E1. rewrite E1. cbn [bindO].
  match goal with |- context [implicit_step _ _ _ _ _ _ ?s ?f] => lazymatch s with still => fail | _ => destruct (implicit_divide 1 b s f ltac:(lra)) as (t2 & E2 & _) end end.
  change (fun _ _ : nat => 1) with one in E2. rewrite E2. cbn [bindO].
  destruct (implicit_divide 1 b still none ltac:(lra)) as (t3 & E3 & T3). change (fun _ _ : nat => 1) with one in E3. rewrite E3. cbn [bindO].
  match goal with |- context [implicit_step _ _ _ _ _ _ ?s ?f] => destruct (implicit_divide 1 b s f ltac:(lra)) as (t4 & E4 & T4) end.
  change (fun _ _ : nat => 1) with one in E4. rewrite E4. cbn [bindO firstn combine].
  do 8 eexists. split; [reflexivity|]. split; [reflexivity|]. cbn [ma_]. subst t4 t3 t1. cbn [ma_ mu_ mv_ still]. unfold unit_force, none.
  assert (P : 0 < b1 b / (1 + b1 b)) by (apply Rdiv_lt_0_compat; lra).
  match goal with |- ?x <> ?y => assert (Q1 : x = 5/7 * (b1 b / (1 + b1 b))) by (field; lra); assert (Q2 : y = b1 b / (1 + b1 b)) by (field; lra); rewrite Q1, Q2 end.
  lra.
Qed.
Lemma c138_wilson_refuted : exists N solve K M C beta gamma theta T F F' s out out' t r t' r', exact_linear solve
  /\ 0 < beta /\ 0 <= gamma /\ 1 <= theta /\ inertial N M /\ psd_upto N K /\ psd_upto N C
  /\ wilson N solve K M C beta gamma theta (0 :: 1 :: T) F s = Some out /\ wilson N solve K M C beta gamma theta (0 :: 1 :: T) F' s = Some out'
  /\ at_rest N s /\ delayed N 1 F F' /\ nth_error out 1 = Some (t, r) /\ nth_error out' (1 + 1) = Some (t', r') /\ ~ same_motion N r r'.
Proof.
  destruct wilson_delay as (t1 & r1 & t2 & r2 & u1 & q1 & u2 & q2 & E & E' & NE).
  exists 1%nat, divide, one, one, zero_mat, (1/6), (1/2), (7/5), [], [unit_force; none], [none; unit_force], still. do 2 eexists. exists t1, r1, u2, q2.
  split; [exact divide_exact|]. split; [lra|]. split; [lra|]. split; [lra|].
  split. { intros x (i & Hi & X). assert (i = O) by lia. subst i. cbn [rsum]. unfold one. assert (0 < x O * x O) by (destruct (Rtotal_order (x O) 0) as [Q|[Q|Q]]; [|contradiction|]; nra). lra. }
  split. { intros x. cbn [rsum]. unfold one. pose proof (pow2_ge_0 (x 0%nat)). lra. }
  split. { intros x. cbn [rsum]. unfold zero_mat. lra. }
  split; [exact E|]. split; [exact E'|]. split; [repeat split; intros i _; reflexivity|].
  split. { split.
    - intros k f' Hk Q. assert (k = O) by lia. subst k. cbn [nth_error] in Q. apply some_inj in Q. subst f'. intros i _. reflexivity.
    - intros k f f' Q Q'. destruct k as [|[|k]]; cbn [nth_error Nat.add] in Q, Q'; [|discriminate|destruct k; discriminate].
      apply some_inj in Q, Q'. subst f f'. reflexivity. }
  split; [reflexivity|]. split; [reflexivity|]. intro S. apply NE. exact (proj2 (proj2 (S 0%nat ltac:(lia)))).
Qed.

(** Wilson, if the load starts from zero *)
Lemma wilson_step_combines N solve K M C beta gamma theta dt p q s1 s2 s3 f1 f2 f3 r1 r2 r3 : exact_linear solve ->
  0 < beta -> 0 <= gamma -> 0 < theta -> 0 < dt -> inertial N M -> psd_upto N K -> psd_upto N C ->
  motions_combine N p q s1 s2 s3 -> combines N p q f1 f2 f3 ->
  wilson_step N solve K M C beta gamma theta dt s1 f1 = Some r1 -> wilson_step N solve K M C beta gamma theta dt s2 f2 = Some r2 ->
  wilson_step N solve K M C beta gamma theta dt s3 f3 = Some r3 -> motions_combine N p q r1 r2 r3.
Proof.
  intros EX B G TH D HM HK HC MC FC S1 S2 S3. unfold wilson_step in S1, S2, S3.
  destruct (implicit_step _ _ _ _ _ _ s1 f1) as [y1|] eqn:I1; [|discriminate]. destruct (implicit_step _ _ _ _ _ _ s2 f2) as [y2|] eqn:I2; [|discriminate].
  destruct (implicit_step _ _ _ _ _ _ s3 f3) as [y3|] eqn:I3; [|discriminate]. cbn [bindO] in S1, S2, S3. apply some_inj in S1, S2, S3. subst r1 r2 r3.
  assert (Y : motions_combine N p q y1 y2 y3).
  { refine (implicit_combines N solve K M C _ p q _ _ _ _ _ _ _ _ _ EX _ MC FC I1 I2 I3).
    unfold wilson_coef. cbn [b1 b4]. assert (PT : 0 < theta * dt) by (apply Rmult_lt_0_compat; lra).
    assert (P : 0 < 1 / (beta * (theta * dt)^2)).
    { apply Rdiv_lt_0_compat; [lra|]. apply Rmult_lt_0_compat; [lra|]. apply pow_lt. exact PT. }
    apply step_regular; try assumption. repeat apply Rmult_le_pos; lra. }
  destruct MC as (U & V & A), Y as (_ & _ & YA).
  repeat split; cbn [mu_ mv_ ma_]; intros i Hi; rewrite ?(U i Hi), ?(V i Hi), ?(A i Hi), ?(YA i Hi); ring.
Qed.
Lemma c138_wilson : forall N solve K M C beta gamma theta T0 T1 T T0' T1' T' F F' s s' out out' m, exact_linear solve ->
  0 < beta -> 0 <= gamma -> 0 < theta -> T0 < T1 -> T1' - T0' = T1 - T0 -> inertial N M -> psd_upto N K -> psd_upto N C ->
  wilson N solve K M C beta gamma theta (T0 :: T1 :: T) F s = Some out -> wilson N solve K M C beta gamma theta (T0' :: T1' :: T') F' s' = Some out' ->
  at_rest N s -> at_rest N s' -> delayed N m F F' -> (forall f, nth_error F 0 = Some f -> zero_upto N f) ->
  forall n t r t' r', nth_error out n = Some (t, r) -> nth_error out' (m + n) = Some (t', r') -> same_motion N r r'.
Proof.
  intros N solve K M C beta gamma theta T0 T1 T T0' T1' T' F F' s s' out out' m EX B G TH D DT HM HK HC H H' RS RS' (DZ & DS) FZ.
  assert (STILL : forall k, (k <= m)%nat -> forall t r, nth_error out' k = Some (t, r) -> at_rest N r).
  { induction k as [|k IH]; intros Hk t r E.
    - rewrite (wilson_first _ _ _ _ _ _ _ _ _ _ _ _ H') in E. apply some_inj in E. assert (r = s') by congruence. subst r. exact RS'.
    - destruct (before _ _ _ E) as ((t0 & r0) & E0). pose proof (IH ltac:(lia) t0 r0 E0) as R0.
      destruct (wilson_pair _ _ _ _ _ _ _ _ _ _ _ _ _ _ _ _ _ _ _ H' E0 E) as (f & _ & Q & S). rewrite DT in S.
      apply (rest_combines N r r). refine (wilson_step_combines N solve K M C beta gamma theta (T1 - T0) 0 0 _ _ _ _ _ _ _ _ _ EX B G TH ltac:(lra) HM HK HC (proj1 (rest_combines N r0 r0) R0) _ S S S).
      intros i Hi. destruct k as [|k]; cbn [wilson_load] in Q.
      + rewrite (DZ 0%nat f ltac:(lia) Q i Hi). ring.
      + destruct Q as (g0 & g1 & Q0 & Q1 & Q). rewrite Q, (DZ k g0 ltac:(lia) Q0 i Hi), (DZ (Datatypes.S k) g1 ltac:(lia) Q1 i Hi). ring. }
  induction n as [|n IH]; intros t r t' r' E E'.
  - rewrite (wilson_first _ _ _ _ _ _ _ _ _ _ _ _ H) in E. apply some_inj in E. assert (r = s) by congruence. subst r.
    apply rest_same; [exact RS|]. apply (STILL (m + 0)%nat ltac:(lia) t' r' E').
  - rewrite Nat.add_succ_r in E'. destruct (before _ _ _ E) as ((t0 & r0) & E0). destruct (before _ _ _ E') as ((t0' & r0') & E0').
    pose proof (IH t0 r0 t0' r0' E0 E0') as SM.
    destruct (wilson_pair _ _ _ _ _ _ _ _ _ _ _ _ _ _ _ _ _ _ _ H E0 E) as (f & _ & Q & S).
    destruct (wilson_pair _ _ _ _ _ _ _ _ _ _ _ _ _ _ _ _ _ _ _ H' E0' E') as (f' & _ & Q' & S'). rewrite DT in S'.
    apply motions_same. refine (wilson_step_combines N solve K M C beta gamma theta (T1 - T0) 1 0 _ _ _ _ _ _ _ _ _ EX B G TH ltac:(lra) HM HK HC (proj2 (motions_same _ _ _) SM) _ S S S').
    intros i Hi. enough (f' i = f i) by lra. destruct n as [|k]; cbn [wilson_load] in Q.
    + rewrite (FZ f Q i Hi). rewrite Nat.add_0_r in Q'. destruct m as [|m]; cbn [wilson_load] in Q'.
      * rewrite <- (DS 0%nat f f' Q Q' i Hi). exact (FZ f Q i Hi).
      * destruct Q' as (g0 & g1 & Q0 & Q1 & Q2). rewrite Q2, (DZ m g0 ltac:(lia) Q0 i Hi).
        rewrite <- (DS 0%nat f g1 Q ltac:(rewrite Nat.add_0_r; exact Q1) i Hi), (FZ f Q i Hi). ring.
    + rewrite Nat.add_succ_r in Q'. cbn [wilson_load] in Q'. destruct Q as (g0 & g1 & Q0 & Q1 & Q2), Q' as (h0 & h1 & W0 & W1 & W2).
      rewrite Q2, W2, (DS k g0 h0 Q0 W0 i Hi), (DS (Datatypes.S k) g1 h1 Q1 ltac:(rewrite Nat.add_succ_r; exact W1) i Hi). reflexivity.
Qed.
