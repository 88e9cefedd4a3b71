(** Proofs: computed motions superpose, and do not depend on later loads. *)
From Coq Require Import Reals List String Arith Bool ZArith Lra Lia.
From Verif Require Import Base BaseFacts Load FeModel Assembly AsmProofs Solver Dynamic SpecDyn SpecAsm DynProofs SpecSuper.
Import ListNotations.
Local Open Scope R_scope.

Lemma rsum_combines N a b : forall A x y z, (forall j, (j < N)%nat -> z j = a * x j + b * y j) ->
  rsum N (fun j => A j * z j) = a * rsum N (fun j => A j * x j) + b * rsum N (fun j => A j * y j).
Proof.
  intros A x y z. induction N as [|N IH]; intros H; cbn [rsum]; [ring|].
  rewrite IH by (intros; apply H; lia). rewrite (H N) by lia. ring.
Qed.
Lemma regular_of N A : (forall x, (exists i, (i < N)%nat /\ x i <> 0) -> 0 < rsum N (fun i => rsum N (fun j => x i * A i j * x j))) -> regular N A.
Proof.
  intros P x H i Hi. destruct (Req_dec (x i) 0) as [E|E]; [exact E|]. exfalso.
  pose proof (P x (ex_intro _ i (conj Hi E))) as Q.
  assert (Z : rsum N (fun i => rsum N (fun j => x i * A i j * x j)) = 0).
  { transitivity (rsum N (fun _ => 0)).
    - apply rsum_ext. intros k Hk. transitivity (x k * rsum N (fun j => A k j * x j)).
      + clear. induction N as [|N IH]; cbn [rsum]; [ring|]. rewrite IH. ring.
      + rewrite (H k Hk). ring.
    - clear. induction N as [|N IH]; cbn [rsum]; [reflexivity|]. rewrite IH. ring. }
  lra.
Qed.
Lemma form3 N (K C M : mat) c m x : rsum N (fun i => rsum N (fun j => x i * (K i j + c * C i j + m * M i j) * x j))
  = rsum N (fun i => rsum N (fun j => x i * K i j * x j)) + c * rsum N (fun i => rsum N (fun j => x i * C i j * x j))
    + m * rsum N (fun i => rsum N (fun j => x i * M i j * x j)).
Proof.
  assert (R3 : forall n f g h, rsum n (fun i => f i + c * g i + m * h i) = rsum n f + c * rsum n g + m * rsum n h).
  { intros n f g h. induction n as [|n IH]; cbn [rsum]; [ring|]. rewrite IH. ring. }
  rewrite <- R3. apply rsum_ext. intros i _. rewrite <- R3. apply rsum_ext. intros j _. ring.
Qed.
Lemma step_regular N K M C c m : inertial N M -> psd_upto N K -> psd_upto N C -> 0 <= c -> 0 < m ->
  regular N (fun i j => K i j + c * C i j + m * M i j).
Proof.
  intros HM HK HC Hc Hm. apply regular_of. intros x E. rewrite form3.
  pose proof (HM x E) as P1. pose proof (HK x) as P2. pose proof (HC x) as P3.
  pose proof (Rmult_lt_0_compat _ _ Hm P1). pose proof (Rmult_le_pos _ _ Hc P3). lra.
Qed.

Lemma implicit_combines N solve K M C b p q s1 s2 s3 f1 f2 f3 r1 r2 r3 : exact_linear solve ->
  regular N (fun i j => K i j + b4 b * C i j + b1 b * M i j) -> motions_combine N p q s1 s2 s3 -> combines N p q f1 f2 f3 ->
  implicit_step N solve K M C b s1 f1 = Some r1 -> implicit_step N solve K M C b s2 f2 = Some r2 -> implicit_step N solve K M C b s3 f3 = Some r3 ->
  motions_combine N p q r1 r2 r3.
Proof.
  intros EX RG (U & V & A) F H1 H2 H3. unfold implicit_step in H1, H2, H3.
  destruct (solve N _ _) as [u1|] eqn:E1 in H1; [|discriminate]. destruct (solve N _ _) as [u2|] eqn:E2 in H2; [|discriminate].
  destruct (solve N _ _) as [u3|] eqn:E3 in H3; [|discriminate]. cbn [bindO] in H1, H2, H3. apply some_inj in H1, H2, H3. subst r1 r2 r3.
  pose proof (EX _ _ _ _ E1) as X1. pose proof (EX _ _ _ _ E2) as X2. pose proof (EX _ _ _ _ E3) as X3. cbv beta in X1, X2, X3.
  assert (UU : combines N p q u1 u2 u3).
  { assert (Z : forall i, (i < N)%nat -> u3 i - (p * u1 i + q * u2 i) = 0).
    { apply (RG (fun i => u3 i - (p * u1 i + q * u2 i))). intros i Hi.
      assert (L : rsum N (fun j => (K i j + b4 b * C i j + b1 b * M i j) * (u3 j - (p * u1 j + q * u2 j)))
        = rsum N (fun j => (K i j + b4 b * C i j + b1 b * M i j) * u3 j)
          - (p * rsum N (fun j => (K i j + b4 b * C i j + b1 b * M i j) * u1 j) + q * rsum N (fun j => (K i j + b4 b * C i j + b1 b * M i j) * u2 j))).
      { generalize (fun j => K i j + b4 b * C i j + b1 b * M i j). intro B. clear. induction N as [|N IH]; cbn [rsum]; [ring|]. rewrite IH. ring. }
      rewrite L, (X1 i Hi), (X2 i Hi), (X3 i Hi), (F i Hi). unfold mulv.
      rewrite (rsum_combines N p q (M i) (fun j => b1 b * mu_ s1 j - b2 b * mv_ s1 j - b3 b * ma_ s1 j) (fun j => b1 b * mu_ s2 j - b2 b * mv_ s2 j - b3 b * ma_ s2 j)
        (fun j => b1 b * mu_ s3 j - b2 b * mv_ s3 j - b3 b * ma_ s3 j)) by (intros j Hj; rewrite (U j Hj), (V j Hj), (A j Hj); ring).
      rewrite (rsum_combines N p q (C i) (fun j => b4 b * mu_ s1 j - b5 b * mv_ s1 j - b6 b * ma_ s1 j) (fun j => b4 b * mu_ s2 j - b5 b * mv_ s2 j - b6 b * ma_ s2 j)
        (fun j => b4 b * mu_ s3 j - b5 b * mv_ s3 j - b6 b * ma_ s3 j)) by (intros j Hj; rewrite (U j Hj), (V j Hj), (A j Hj); ring).
      ring. }
    intros i Hi. pose proof (Z i Hi). lra. }
  repeat split; cbn [mu_ mv_ ma_]; intros i Hi; rewrite ?(UU i Hi), ?(U i Hi), ?(V i Hi), ?(A i Hi); try ring; apply UU; exact Hi.
Qed.

(** ** Newmark *)
Lemma newmark_first N solve K M C beta gamma T F s0 out : newmark N solve K M C beta gamma T F s0 = Some out -> nth_error out 0 = Some (0, s0).
Proof.
  unfold newmark. destruct T as [|T0 [|T1 T]]; try discriminate. destruct (newmark_loop _ _ _ _ _ _ _ _); [|discriminate].
  cbn [bindO]. intro H. apply some_inj in H. subst out. reflexivity.
Qed.
Lemma before {A} (l : list A) n x : nth_error l (S n) = Some x -> exists y, nth_error l n = Some y.
Proof.
  intro H. destruct (nth_error l n) eqn:E; [eexists; reflexivity|]. apply nth_error_None in E.
  assert (nth_error l (S n) = None) by (apply nth_error_None; lia). congruence.
Qed.
Lemma c135_newmark : forall N solve K M C beta gamma T0 T1 T F1 F2 F3 s1 s2 s3 out1 out2 out3 p q, exact_linear solve ->
  0 < beta -> 0 <= gamma -> T0 < T1 -> inertial N M -> psd_upto N K -> psd_upto N C ->
  newmark N solve K M C beta gamma (T0 :: T1 :: T) F1 s1 = Some out1 ->
  newmark N solve K M C beta gamma (T0 :: T1 :: T) F2 s2 = Some out2 ->
  newmark N solve K M C beta gamma (T0 :: T1 :: T) F3 s3 = Some out3 ->
  motions_combine N p q s1 s2 s3 ->
  forall n t1 r1 t2 r2 t3 r3, loads_combine N p q n F1 F2 F3 ->
    nth_error out1 n = Some (t1, r1) -> nth_error out2 n = Some (t2, r2) -> nth_error out3 n = Some (t3, r3) ->
    t1 = t2 /\ t2 = t3 /\ motions_combine N p q r1 r2 r3.
Proof.
  intros N solve K M C beta gamma T0 T1 T F1 F2 F3 s1 s2 s3 out1 out2 out3 p q EX B G D HM HK HC H1 H2 H3 ST n.
  induction n as [|n IH]; intros t1 r1 t2 r2 t3 r3 LC E1 E2 E3.
  - rewrite (newmark_first _ _ _ _ _ _ _ _ _ _ _ H1) in E1. rewrite (newmark_first _ _ _ _ _ _ _ _ _ _ _ H2) in E2.
    rewrite (newmark_first _ _ _ _ _ _ _ _ _ _ _ H3) in E3. apply some_inj in E1, E2, E3.
    assert (r1 = s1 /\ r2 = s2 /\ r3 = s3 /\ t1 = 0 /\ t2 = 0 /\ t3 = 0) as (-> & -> & -> & -> & -> & ->) by (repeat split; congruence).
    split; [reflexivity|]. split; [reflexivity|exact ST].
  - destruct (before _ _ _ E1) as ((u1 & x1) & P1). destruct (before _ _ _ E2) as ((u2 & x2) & P2). destruct (before _ _ _ E3) as ((u3 & x3) & P3).
    destruct (IH u1 x1 u2 x2 u3 x3 ltac:(intros k g1 g2 g3 Hk; apply LC; lia) P1 P2 P3) as (_ & _ & MC).
    destruct (newmark_pair _ _ _ _ _ _ _ _ _ _ _ _ _ _ _ _ H1 P1 E1) as (f1 & d1 & N1 & Q1 & (a1 & b1' & c1 & W1 & D1) & S1).
    destruct (newmark_pair _ _ _ _ _ _ _ _ _ _ _ _ _ _ _ _ H2 P2 E2) as (f2 & d2 & N2 & Q2 & (a2 & b2' & c2 & W2 & D2) & S2).
    destruct (newmark_pair _ _ _ _ _ _ _ _ _ _ _ _ _ _ _ _ H3 P3 E3) as (f3 & d3 & N3 & Q3 & (a3 & b3' & c3 & W3 & D3) & S3).
    assert (d1 = T1 - T0) by congruence. assert (d2 = T1 - T0) by congruence. assert (d3 = T1 - T0) by congruence.
    clear D1 D2 D3. subst d1 d2 d3. split; [congruence|]. split; [congruence|].
    refine (implicit_combines N solve K M C _ p q _ _ _ _ _ _ _ _ _ EX _ MC (LC n f1 f2 f3 ltac:(lia) Q1 Q2 Q3) S1 S2 S3).
    unfold newmark_coef. cbn [b1 b4]. assert (P : 0 < 1 / (beta * (T1 - T0) * (T1 - T0))).
    { apply Rdiv_lt_0_compat; [lra|]. repeat apply Rmult_lt_0_compat; lra. }
    apply step_regular; try assumption. repeat apply Rmult_le_pos; lra.
Qed.

(** ** Wilson *)
Lemma wilson_pair N solve K M C beta gamma theta T0 T1 T F s0 out i t s t' s' : wilson N solve K M C beta gamma theta (T0 :: T1 :: T) F s0 = Some out ->
  nth_error out i = Some (t, s) -> nth_error out (S i) = Some (t', s') ->
  exists f, nth_error (T0 :: T1 :: T) i = Some t' /\ wilson_load theta F i f /\ wilson_step N solve K M C beta gamma theta (T1 - T0) s f = Some s'.
Proof.
  intros H H1 H2. unfold wilson in H. destruct F as [|f0 F]; [discriminate|]. set (TT := T0 :: T1 :: T) in *. set (FF := f0 :: F) in *.
  set (m := Nat.min _ _) in *. destruct (wilson_loop _ _ _ _ _ _ _ _ _ _ _) as [r|] eqn:E; [|discriminate]. cbn [bindO] in H. apply some_inj in H. subst out.
  destruct (wilson_loop_some _ _ _ _ _ _ _ _ _ _ _ _ E) as (L & I).
  apply nth_error_combine_some in H1 as (A1 & A2). apply nth_error_combine_some in H2 as (B1 & B2).
  destruct (I i s s' A2 B2) as (f & HF & HS). exists f.
  split; [cbn [nth_error] in B1; apply nth_error_firstn_some in B1; exact B1|].
  split; [apply wilson_loads_nth; apply nth_error_firstn_some in HF; exact HF|exact HS].
Qed.
Lemma wilson_first N solve K M C beta gamma theta T F s0 out : wilson N solve K M C beta gamma theta T F s0 = Some out -> nth_error out 0 = Some (0, s0).
Proof.
  unfold wilson. destruct T as [|T0 [|T1 T]]; try discriminate. destruct F as [|f F]; [discriminate|]. destruct (wilson_loop _ _ _ _ _ _ _ _ _ _ _); [|discriminate].
  cbn [bindO]. intro H. apply some_inj in H. subst out. reflexivity.
Qed.
Lemma wilson_load_combines N theta p q n F1 F2 F3 i f1 f2 f3 : loads_combine N p q n F1 F2 F3 -> (i < n)%nat ->
  wilson_load theta F1 i f1 -> wilson_load theta F2 i f2 -> wilson_load theta F3 i f3 -> combines N p q f1 f2 f3.
Proof.
  intros LC Hi W1 W2 W3. destruct i as [|i]; cbn [wilson_load] in *; [exact (LC O _ _ _ Hi W1 W2 W3)|].
  destruct W1 as (g1 & h1 & A1 & B1 & E1), W2 as (g2 & h2 & A2 & B2 & E2), W3 as (g3 & h3 & A3 & B3 & E3).
  intros k Hk. rewrite E1, E2, E3, (LC i _ _ _ ltac:(lia) A1 A2 A3 k Hk), (LC (S i) _ _ _ Hi B1 B2 B3 k Hk). ring.
Qed.
Lemma c135_wilson : forall N solve K M C beta gamma theta T0 T1 T F1 F2 F3 s1 s2 s3 out1 out2 out3 p q, exact_linear solve ->
  0 < beta -> 0 <= gamma -> 0 < theta -> T0 < T1 -> inertial N M -> psd_upto N K -> psd_upto N C ->
  wilson N solve K M C beta gamma theta (T0 :: T1 :: T) F1 s1 = Some out1 ->
  wilson N solve K M C beta gamma theta (T0 :: T1 :: T) F2 s2 = Some out2 ->
  wilson N solve K M C beta gamma theta (T0 :: T1 :: T) F3 s3 = Some out3 ->
  motions_combine N p q s1 s2 s3 ->
  forall n t1 r1 t2 r2 t3 r3, loads_combine N p q n F1 F2 F3 ->
    nth_error out1 n = Some (t1, r1) -> nth_error out2 n = Some (t2, r2) -> nth_error out3 n = Some (t3, r3) ->
    t1 = t2 /\ t2 = t3 /\ motions_combine N p q r1 r2 r3.
Proof.
  intros N solve K M C beta gamma theta T0 T1 T F1 F2 F3 s1 s2 s3 out1 out2 out3 p q EX B G TH D HM HK HC H1 H2 H3 ST n.
  induction n as [|n IH]; intros t1 r1 t2 r2 t3 r3 LC E1 E2 E3.
  - rewrite (wilson_first _ _ _ _ _ _ _ _ _ _ _ _ H1) in E1. rewrite (wilson_first _ _ _ _ _ _ _ _ _ _ _ _ H2) in E2.
    rewrite (wilson_first _ _ _ _ _ _ _ _ _ _ _ _ H3) in E3. apply some_inj in E1, E2, E3.
    assert (r1 = s1 /\ r2 = s2 /\ r3 = s3 /\ t1 = 0 /\ t2 = 0 /\ t3 = 0) as (-> & -> & -> & -> & -> & ->) by (repeat split; congruence).
    split; [reflexivity|]. split; [reflexivity|exact ST].
  - destruct (before _ _ _ E1) as ((u1 & x1) & P1). destruct (before _ _ _ E2) as ((u2 & x2) & P2). destruct (before _ _ _ E3) as ((u3 & x3) & P3).
    destruct (IH u1 x1 u2 x2 u3 x3 ltac:(intros k g1 g2 g3 Hk; apply LC; lia) P1 P2 P3) as (_ & _ & MC).
    destruct (wilson_pair _ _ _ _ _ _ _ _ _ _ _ _ _ _ _ _ _ _ _ H1 P1 E1) as (f1 & N1 & Q1 & S1).
    destruct (wilson_pair _ _ _ _ _ _ _ _ _ _ _ _ _ _ _ _ _ _ _ H2 P2 E2) as (f2 & N2 & Q2 & S2).
    destruct (wilson_pair _ _ _ _ _ _ _ _ _ _ _ _ _ _ _ _ _ _ _ H3 P3 E3) as (f3 & N3 & Q3 & S3).
    split; [congruence|]. split; [congruence|]. unfold wilson_step in S1, S2, S3.
    destruct (implicit_step _ _ _ _ _ _ x1 f1) as [y1|] eqn:I1; [|discriminate]. destruct (implicit_step _ _ _ _ _ _ x2 f2) as [y2|] eqn:I2; [|discriminate].
    destruct (implicit_step _ _ _ _ _ _ x3 f3) as [y3|] eqn:I3; [|discriminate]. cbn [bindO] in S1, S2, S3. apply some_inj in S1, S2, S3. subst r1 r2 r3.
    assert (Y : motions_combine N p q y1 y2 y3).
    { refine (implicit_combines N solve K M C _ p q _ _ _ _ _ _ _ _ _ EX _ MC (wilson_load_combines N theta p q (S n) _ _ _ n _ _ _ LC ltac:(lia) Q1 Q2 Q3) I1 I2 I3).
      unfold wilson_coef. cbn [b1 b4]. assert (PT : 0 < theta * (T1 - T0)) by (apply Rmult_lt_0_compat; lra).
      assert (P : 0 < 1 / (beta * (theta * (T1 - T0))^2)).
      { apply Rdiv_lt_0_compat; [lra|]. apply Rmult_lt_0_compat; [lra|]. apply pow_lt. exact PT. }
      apply step_regular; try assumption. repeat apply Rmult_le_pos; lra. }
    destruct MC as (U & V & A), Y as (_ & _ & YA).
    repeat split; cbn [mu_ mv_ ma_]; intros i Hi; rewrite ?(U i Hi), ?(V i Hi), ?(A i Hi), ?(YA i Hi); ring.
Qed.

(** ** Direct integration *)
Lemma free_system_fun ext a c N K_ M_ C_ N' K_' M_' C_' : free_system ext a c N K_ M_ C_ -> free_system ext a c N' K_' M_' C_' ->
  N = N' /\ K_ = K_' /\ M_ = M_' /\ C_ = C_'.
Proof.
  intros (K & M & fx & A1 & A2 & A3 & A4 & (n1 & A5) & (n2 & A6)) (K' & M' & fx' & B1 & B2 & B3 & B4 & (m1 & B5) & (m2 & B6)).
  assert (K = K') by congruence. assert (M = M') by congruence. assert (fx = fx') by congruence. subst. repeat split; congruence.
Qed.
Lemma c135_direct : forall ext a1 a2 a3 c1 c2 c3 dt d1 d2 d3 o1 o2 o3 N K_ M_ C_ p q, exact_cg ext -> dt <> 0 ->
  solve_direct ext a1 c1 (Direct dt d1) = Some o1 -> solve_direct ext a2 c2 (Direct dt d2) = Some o2 -> solve_direct ext a3 c3 (Direct dt d3) = Some o3 ->
  free_system ext a1 c1 N K_ M_ C_ -> free_system ext a2 c2 N K_ M_ C_ -> free_system ext a3 c3 N K_ M_ C_ ->
  regular N (fun i j => coo_get M_ i j / dt^2 + coo_get C_ i j / (2 * dt)) ->
  forall n r1 r2 r3,
    (forall t f1 f2 f3, (t < n)%nat -> free_load a1 c1 t f1 -> free_load a2 c2 t f2 -> free_load a3 c3 t f3 -> rows_combine N p q f1 f2 f3) ->
    nth_error o1 n = Some r1 -> nth_error o2 n = Some r2 -> nth_error o3 n = Some r3 -> rows_combine N p q r1 r2 r3.
Proof.
  intros ext a1 a2 a3 c1 c2 c3 dt d1 d2 d3 o1 o2 o3 N K_ M_ C_ p q EX D H1 H2 H3 S1 S2 S3 RG.
  destruct (c51_actual ext a1 c1 (Direct dt d1) o1 EX D H1) as (N1 & K1 & M1 & C1 & l1 & k1 & F1 & _ & _ & L1 & Z1 & _ & A1).
  destruct (c51_actual ext a2 c2 (Direct dt d2) o2 EX D H2) as (N2 & K2 & M2 & C2 & l2 & k2 & F2 & _ & _ & L2 & Z2 & _ & A2).
  destruct (c51_actual ext a3 c3 (Direct dt d3) o3 EX D H3) as (N3 & K3 & M3 & C3 & l3 & k3 & F3 & _ & _ & L3 & Z3 & _ & A3).
  destruct (free_system_fun _ _ _ _ _ _ _ _ _ _ _ S1 F1) as (<- & <- & <- & <-).
  destruct (free_system_fun _ _ _ _ _ _ _ _ _ _ _ S2 F2) as (<- & <- & <- & <-).
  destruct (free_system_fun _ _ _ _ _ _ _ _ _ _ _ S3 F3) as (<- & <- & <- & <-).
  cbn [dp_step] in *.
  assert (MAIN : forall n, (n <= k1)%nat -> (n <= k2)%nat -> (n <= k3)%nat ->
    (forall t f1 f2 f3, (t < n)%nat -> free_load a1 c1 t f1 -> free_load a2 c2 t f2 -> free_load a3 c3 t f3 -> rows_combine N p q f1 f2 f3) ->
    rows_combine N p q (nth n o1 []) (nth n o2 []) (nth n o3 [])).
  { induction n as [n IH] using lt_wf_ind. intros B1 B2 B3 LC. destruct n as [|t].
    - intros i _. rewrite Z1, Z2, Z3. ring.
    - assert (EARLY : forall z, (z < Z.of_nat t + 1)%Z -> rows_combine N p q (row_at o1 z) (row_at o2 z) (row_at o3 z)).
      { intros z Hz. unfold row_at. destruct (Z.ltb_spec z 0); [intros [|i] _; cbn [nth]; ring|].
        apply IH; [lia|lia|lia|lia|]. intros k g1 g2 g3 Hk. apply LC. lia. }
      destruct (A1 t ltac:(lia)) as (f1 & G1 & E1). destruct (A2 t ltac:(lia)) as (f2 & G2 & E2). destruct (A3 t ltac:(lia)) as (f3 & G3 & E3).
      pose proof (LC t f1 f2 f3 ltac:(lia) G1 G2 G3) as FC.
      pose proof (EARLY (Z.of_nat t - 2)%Z ltac:(lia)) as PP. pose proof (EARLY (Z.of_nat t - 1)%Z ltac:(lia)) as PQ.
      assert (RR : forall o : list (list R), row_at o (Z.of_nat t + 1) = nth (S t) o []).
      { intro o. unfold row_at. destruct (Z.ltb_spec (Z.of_nat t + 1) 0); [lia|]. f_equal. lia. }
      rewrite RR in E1, E2, E3. clear RR EARLY IH.
      set (x1 := nth (S t) o1 []) in *. set (x2 := nth (S t) o2 []) in *. set (x3 := nth (S t) o3 []) in *.
      assert (Z : forall i, (i < N)%nat -> nth i x3 0 - (p * nth i x1 0 + q * nth i x2 0) = 0).
      { apply (RG (fun i => nth i x3 0 - (p * nth i x1 0 + q * nth i x2 0))). intros i Hi.
        pose proof (E1 i Hi) as Q1. pose proof (E2 i Hi) as Q2. pose proof (E3 i Hi) as Q3. pose proof (FC i Hi) as Qf.
        rewrite <- Q1, <- Q2, <- Q3 in Qf.
        rewrite (rsum_combines N p q (coo_get K_ i) (fun j => nth j (row_at o1 (Z.of_nat t - 1)) 0) (fun j => nth j (row_at o2 (Z.of_nat t - 1)) 0)
           (fun j => nth j (row_at o3 (Z.of_nat t - 1)) 0) PQ) in Qf.
        assert (S : forall (m c : nat -> R) (u v w e f g h k l : nat -> R), (forall j, (j < N)%nat -> l j = p * g j + q * h j) -> (forall j, (j < N)%nat -> k j = p * e j + q * f j) ->
          rsum N (fun j => (m j / dt^2 + c j / (2*dt)) * (w j - (p * u j + q * v j)))
          = (rsum N (fun j => m j * ((w j - 2 * k j + l j) / dt^2)) + rsum N (fun j => c j * ((w j - l j) / (2*dt))))
            - p * (rsum N (fun j => m j * ((u j - 2 * e j + g j) / dt^2)) + rsum N (fun j => c j * ((u j - g j) / (2*dt))))
            - q * (rsum N (fun j => m j * ((v j - 2 * f j + h j) / dt^2)) + rsum N (fun j => c j * ((v j - h j) / (2*dt))))).
        { clear - D. intros m c u v w e f g h k l. induction N as [|n IH]; intros HL HE; cbn [rsum]; [ring|].
          rewrite IH by (intros; (apply HL || apply HE); lia). rewrite (HL n), (HE n) by lia. field. exact D. }
        rewrite (S (coo_get M_ i) (coo_get C_ i) (fun j => nth j x1 0) (fun j => nth j x2 0) (fun j => nth j x3 0)
          (fun j => nth j (row_at o1 (Z.of_nat t - 1)) 0) (fun j => nth j (row_at o2 (Z.of_nat t - 1)) 0)
          (fun j => nth j (row_at o1 (Z.of_nat t - 2)) 0) (fun j => nth j (row_at o2 (Z.of_nat t - 2)) 0)
          (fun j => nth j (row_at o3 (Z.of_nat t - 1)) 0) (fun j => nth j (row_at o3 (Z.of_nat t - 2)) 0) PP PQ).
        lra. }
      intros i Hi. pose proof (Z i Hi). lra. }
  intros n r1 r2 r3 LC E1 E2 E3.
  assert (B1 : (n < List.length o1)%nat) by (apply nth_error_Some; congruence).
  assert (B2 : (n < List.length o2)%nat) by (apply nth_error_Some; congruence).
  assert (B3 : (n < List.length o3)%nat) by (apply nth_error_Some; congruence).
  rewrite <- (nth_error_nth o1 n [] E1), <- (nth_error_nth o2 n [] E2), <- (nth_error_nth o3 n [] E3). apply MAIN; [lia|lia|lia|exact LC].
Qed.

(** ** Later loads *)
Lemma combines_same N x y : combines N 1 0 x x y <-> forall i, (i < N)%nat -> y i = x i.
Proof. unfold combines. split; intros H i Hi; rewrite (H i Hi); ring. Qed.
Lemma motions_same N s s' : motions_combine N 1 0 s s s' <-> same_motion N s s'.
Proof.
  unfold motions_combine, same_motion. rewrite !combines_same. split.
  - intros (U & V & A) i Hi. repeat split; symmetry; auto.
  - intros H. repeat split; intros i Hi; symmetry; apply (H i Hi).
Qed.
Lemma loads_same N n F F' : same_loads N n F F' -> loads_combine N 1 0 n F F F'.
Proof. intros H k f1 f2 f3 Hk E1 E2 E3. assert (f1 = f2) by congruence. subst f2. apply combines_same. intros i Hi. symmetry. exact (H k f1 f3 Hk E1 E3 i Hi). Qed.
Lemma c136_newmark : forall N solve K M C beta gamma T0 T1 T F F' s s' out out', exact_linear solve ->
  0 < beta -> 0 <= gamma -> T0 < T1 -> inertial N M -> psd_upto N K -> psd_upto N C ->
  newmark N solve K M C beta gamma (T0 :: T1 :: T) F s = Some out -> newmark N solve K M C beta gamma (T0 :: T1 :: T) F' s' = Some out' ->
  same_motion N s s' -> forall n t r t' r', same_loads N n F F' -> nth_error out n = Some (t, r) -> nth_error out' n = Some (t', r') ->
  t = t' /\ same_motion N r r'.
Proof.
  intros N solve K M C beta gamma T0 T1 T F F' s s' out out' EX B G D HM HK HC H H' ST n t r t' r' LC E E'.
  destruct (c135_newmark N solve K M C beta gamma T0 T1 T F F F' s s s' out out out' 1 0 EX B G D HM HK HC H H H' (proj2 (motions_same _ _ _) ST) n t r t r t' r' (loads_same _ _ _ _ LC) E E E') as (_ & Q & MC).
  split; [exact Q|]. apply motions_same. exact MC.
Qed.
Lemma c136_wilson : forall N solve K M C beta gamma theta T0 T1 T F F' s s' out out', exact_linear solve ->
  0 < beta -> 0 <= gamma -> 0 < theta -> T0 < T1 -> inertial N M -> psd_upto N K -> psd_upto N C ->
  wilson N solve K M C beta gamma theta (T0 :: T1 :: T) F s = Some out -> wilson N solve K M C beta gamma theta (T0 :: T1 :: T) F' s' = Some out' ->
  same_motion N s s' -> forall n t r t' r', same_loads N n F F' -> nth_error out n = Some (t, r) -> nth_error out' n = Some (t', r') ->
  t = t' /\ same_motion N r r'.
Proof.
  intros N solve K M C beta gamma theta T0 T1 T F F' s s' out out' EX B G TH D HM HK HC H H' ST n t r t' r' LC E E'.
  destruct (c135_wilson N solve K M C beta gamma theta T0 T1 T F F F' s s s' out out out' 1 0 EX B G TH D HM HK HC H H H' (proj2 (motions_same _ _ _) ST) n t r t r t' r' (loads_same _ _ _ _ LC) E E E') as (_ & Q & MC).
  split; [exact Q|]. apply motions_same. exact MC.
Qed.
Lemma c136_direct : forall ext a a' c c' dt d d' o o' N K_ M_ C_, exact_cg ext -> dt <> 0 ->
  solve_direct ext a c (Direct dt d) = Some o -> solve_direct ext a' c' (Direct dt d') = Some o' ->
  free_system ext a c N K_ M_ C_ -> free_system ext a' c' N K_ M_ C_ ->
  regular N (fun i j => coo_get M_ i j / dt^2 + coo_get C_ i j / (2 * dt)) ->
  forall n r r', (forall t f f', (t < n)%nat -> free_load a c t f -> free_load a' c' t f' -> forall i, (i < N)%nat -> nth i f 0 = nth i f' 0) ->
    nth_error o n = Some r -> nth_error o' n = Some r' -> forall i, (i < N)%nat -> nth i r 0 = nth i r' 0.
Proof.
  intros ext a a' c c' dt d d' o o' N K_ M_ C_ EX D H H' S S' RG n r r' LC E E' i Hi.
  assert (Q : rows_combine N 1 0 r r r').
  { apply (c135_direct ext a a a' c c c' dt d d d' o o o' N K_ M_ C_ 1 0 EX D H H H' S S S' RG n r r r'); [|assumption..].
    intros t f1 f2 f3 Ht G1 G2 G3 k Hk. rewrite <- (LC t f1 f3 Ht G1 G3 k Hk).
    assert (f1 = f2) by (destruct G1 as (x1 & y1 & P1 & P2 & ->), G2 as (x2 & y2 & R1 & R2 & ->); congruence). subst f2. ring. }
  rewrite (Q i Hi). ring.
Qed.
