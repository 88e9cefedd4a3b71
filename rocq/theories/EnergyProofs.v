(** Energy balance of the implicit time integration, and its growth. *)
From Coq Require Import Reals List String Arith Bool ZArith Lra Lia.
From Verif Require Import Base BaseFacts Dynamic SpecDyn SpecAsm SpecEnergy AsmProofs DynProofs.
Import ListNotations.
Local Open Scope R_scope.

(** ** Bilinear forms *)
Lemma ef_plus_r N A x y z : energy_form N A x (fun i => y i + z i) = energy_form N A x y + energy_form N A x z.
Proof.
  unfold energy_form. rewrite <- rsum_plus. apply rsum_ext. intros i _.
  rewrite (rsum_ext N (fun j => A i j * (y j + z j)) (fun j => A i j * y j + A i j * z j)) by (intros; ring). rewrite rsum_plus. ring.
Qed.
Lemma ef_scal_r N A x k y : energy_form N A x (fun i => k * y i) = k * energy_form N A x y.
Proof.
  unfold energy_form. rewrite <- rsum_scal. apply rsum_ext. intros i _.
  rewrite (rsum_ext N (fun j => A i j * (k * y j)) (fun j => k * (A i j * y j))) by (intros; ring). rewrite rsum_scal. ring.
Qed.
Lemma ef_plus_l N A x y z : energy_form N A (fun i => x i + y i) z = energy_form N A x z + energy_form N A y z.
Proof. unfold energy_form. rewrite <- rsum_plus. apply rsum_ext. intros i _. ring. Qed.
Lemma ef_scal_l N A k x y : energy_form N A (fun i => k * x i) y = k * energy_form N A x y.
Proof. unfold energy_form. rewrite <- rsum_scal. apply rsum_ext. intros i _. ring. Qed.
Lemma ef_sym N A x y : symmetric_upto N A -> energy_form N A x y = energy_form N A y x.
Proof.
  intros S. unfold energy_form.
  rewrite (rsum_ext N (fun i => x i * rsum N (fun j => A i j * y j)) (fun i => rsum N (fun j => x i * A i j * y j))).
  2:{ intros i _. rewrite <- rsum_scal. apply rsum_ext. intros; ring. }
  rewrite rsum_swap. apply rsum_ext. intros j Hj. rewrite <- rsum_scal. apply rsum_ext. intros i Hi. rewrite (S i j Hi Hj). ring.
Qed.
Lemma ef_ext N A x x' y y' : (forall i, (i < N)%nat -> x i = x' i) -> (forall i, (i < N)%nat -> y i = y' i) ->
  energy_form N A x y = energy_form N A x' y'.
Proof.
  intros H H'. unfold energy_form. apply rsum_ext. intros i Hi. rewrite (H i Hi). f_equal. apply rsum_ext. intros j Hj. rewrite (H' j Hj). reflexivity.
Qed.
Lemma ef_quad N A x : energy_form N A x x = rsum N (fun i => rsum N (fun j => x i * A i j * x j)).
Proof. unfold energy_form. apply rsum_ext. intros i _. rewrite <- rsum_scal. apply rsum_ext. intros; ring. Qed.
Lemma ef_zero N x y : energy_form N (fun _ _ => 0) x y = 0.
Proof. unfold energy_form. apply rsum_0. intros i _. rewrite rsum_0 by (intros; ring). ring. Qed.
Lemma ef_mid N A x y : symmetric_upto N A ->
  energy_form N A (change_of x y) (midway x y) = 1/2 * energy_form N A y y - 1/2 * energy_form N A x x.
Proof.
  intros S.
  rewrite (ef_ext N A (change_of x y) (fun i => y i + (-1) * x i) (midway x y) (fun i => 1/2 * x i + 1/2 * y i)); [|unfold change_of; intros; ring|unfold midway; intros; field].
  rewrite ef_plus_l, !ef_plus_r, !ef_scal_l, !ef_scal_r. rewrite (ef_sym N A y x S). field.
Qed.
Lemma ef_mid' N A x y : symmetric_upto N A ->
  energy_form N A (midway x y) (change_of x y) = 1/2 * energy_form N A y y - 1/2 * energy_form N A x x.
Proof. intros S. rewrite (ef_sym N A _ _ S). apply ef_mid. exact S. Qed.

(** ** One step *)
Lemma motion_work N M C K f s y : in_motion N M C K f s ->
  energy_form N M y (ma_ s) + energy_form N C y (mv_ s) + energy_form N K y (mu_ s) = rsum N (fun i => y i * f i).
Proof.
  intros H. unfold energy_form. rewrite <- !rsum_plus. apply rsum_ext. intros i Hi. rewrite <- (H i Hi). ring.
Qed.
(** the displacement relation that the code keeps *)
Definition kept_relation (beta dt : R) (s s' : motion) : Prop :=
  forall i, mu_ s' i = mu_ s i + dt * mv_ s i + dt^2 * (- (1/2 - beta) * ma_ s i + beta * ma_ s' i).

Lemma step_balance N M C K beta dt f f' s s' : symmetric_upto N M -> symmetric_upto N K ->
  in_motion N M C K f s -> in_motion N M C K f' s' -> velocity_relation (1/2) dt s s' -> kept_relation beta dt s s' ->
  let E s := mechanical N M K s + dt^2/8 * energy_form N M (ma_ s) (ma_ s) in
  let am := midway (ma_ s) (ma_ s') in let vm := midway (mv_ s) (mv_ s') in let du := change_of (mu_ s) (mu_ s') in
  E s' - E s = rsum N (fun i => du i * midway f f' i) - energy_form N C du vm + (1 - 2 * beta) * dt^2 * energy_form N M am am.
Proof.
  intros SM SK H H' HV HU E am vm du. unfold E, mechanical.
  pose proof (motion_work N M C K f s du H) as W. pose proof (motion_work N M C K f' s' du H') as W'.
  assert (F1 : rsum N (fun i => du i * midway f f' i) = 1/2 * rsum N (fun i => du i * f i) + 1/2 * rsum N (fun i => du i * f' i)).
  { rewrite <- !rsum_scal, <- rsum_plus. apply rsum_ext. intros i _. unfold midway. field. }
  assert (MID : forall A (p q : nat -> R) x, energy_form N A x (midway p q) = 1/2 * energy_form N A x p + 1/2 * energy_form N A x q).
  { intros A p q x. rewrite (ef_ext N A x x (midway p q) (fun i => 1/2 * p i + 1/2 * q i)); [|reflexivity|unfold midway; intros; field].
    rewrite ef_plus_r, !ef_scal_r. reflexivity. }
  pose proof (ef_mid N K (mu_ s) (mu_ s') SK) as EK. fold du in EK. rewrite MID in EK.
  assert (A1 : energy_form N M du am = dt * energy_form N M vm am + dt^2 * (2 * beta - 1) * energy_form N M am am
                 + dt^2 / 4 * energy_form N M (change_of (ma_ s) (ma_ s')) am).
  { rewrite <- !ef_scal_l, <- !ef_plus_l. apply ef_ext; [|reflexivity]. intros i _. unfold du, am, vm, change_of, midway. rewrite (HU i), (HV i). field. }
  assert (A2 : dt * energy_form N M vm am = energy_form N M vm (change_of (mv_ s) (mv_ s'))).
  { rewrite <- ef_scal_r. apply ef_ext; [reflexivity|]. intros i _. unfold am, change_of, midway. rewrite (HV i). field. }
  pose proof (ef_mid' N M (mv_ s) (mv_ s') SM) as EV. fold vm in EV.
  pose proof (ef_mid N M (ma_ s) (ma_ s') SM) as EA. fold am in EA.
  pose proof (MID M (ma_ s) (ma_ s') du) as EM. fold am in EM.
  rewrite EA, A2, EV, EM in A1.
  assert (CC : energy_form N C du vm = 1/2 * energy_form N C du (mv_ s) + 1/2 * energy_form N C du (mv_ s')) by (unfold vm; apply MID).
  rewrite F1, CC. lra.
Qed.

(** ** Whole runs *)
Lemma newmark_step N solve K M C beta gamma T0 T1 T F s0 out i t s t' s' : exact_linear solve -> beta <> 0 -> T0 <> T1 ->
  newmark N solve K M C beta gamma (T0 :: T1 :: T) F s0 = Some out -> nth_error out i = Some (t, s) -> nth_error out (S i) = Some (t', s') ->
  exists f, nth_error F i = Some f /\ in_motion N M C K f s' /\ velocity_relation gamma (T1 - T0) s s' /\ kept_relation beta (T1 - T0) s s'.
Proof.
  intros EX B D H H1 H2. destruct (newmark_pair _ _ _ _ _ _ _ _ _ _ _ _ _ _ _ _ H H1 H2) as (f & dt & HT & HF & (T0' & T1' & r & E & ->) & HS).
  injection E as <- <- <-. exists f. split; [exact HF|]. split; [exact (implicit_motion _ _ _ _ _ _ _ _ _ EX HS)|].
  split; [exact (implicit_velocity _ _ _ _ _ _ _ _ _ _ _ _ _ HS)|].
  refine (implicit_displacement N solve K M C beta gamma (T1 - T0) s f s' B _ HS). lra.
Qed.
Lemma newmark_start N solve K M C beta gamma T F s0 out : newmark N solve K M C beta gamma T F s0 = Some out -> nth_error out 0 = Some (0, s0).
Proof.
  intros H. unfold newmark in H. destruct T as [|T0 [|T1 T]]; try discriminate.
  destruct (newmark_loop _ _ _ _ _ _ _ _) as [r|]; [|discriminate]. cbn [bindO] in H. apply some_inj in H. subst out. reflexivity.
Qed.
Lemma nth_error_pred {A} (l : list A) i x : nth_error l (S i) = Some x -> exists y, nth_error l i = Some y.
Proof.
  intros H. destruct (nth_error l i) as [y|] eqn:E; [eauto|]. apply nth_error_None in E.
  assert (nth_error l (S i) = None) by (apply nth_error_None; lia). congruence.
Qed.

Lemma c122_balance N solve K M C beta T0 T1 T F s0 out i t s t' s' f : exact_linear solve -> beta <> 0 -> T0 <> T1 ->
  symmetric_upto N M -> symmetric_upto N K ->
  newmark N solve K M C beta (1/2) (T0 :: T1 :: T) F s0 = Some out ->
  nth_error out i = Some (t, s) -> nth_error out (S i) = Some (t', s') -> in_motion N M C K f s ->
  exists f', nth_error F i = Some f' /\ in_motion N M C K f' s'
    /\ let dt := T1 - T0 in
       let E s := mechanical N M K s + dt^2/8 * energy_form N M (ma_ s) (ma_ s) in
       let du := change_of (mu_ s) (mu_ s') in
       let am := midway (ma_ s) (ma_ s') in
       E s' - E s = rsum N (fun q => du q * midway f f' q) - energy_form N C du (midway (mv_ s) (mv_ s'))
                    + (1 - 2 * beta) * dt^2 * energy_form N M am am.
Proof.
  intros EX B D SM SK H H1 H2 HM. destruct (newmark_step _ _ _ _ _ _ _ _ _ _ _ _ _ _ _ _ _ _ EX B D H H1 H2) as (f' & HF & HM' & HV & HU).
  exists f'. split; [exact HF|]. split; [exact HM'|]. exact (step_balance N M C K beta (T1 - T0) f f' s s' SM SK HM HM' HV HU).
Qed.

(** In a run without loads every state satisfies the equation of motion without load. *)
Lemma unloaded_motion N solve K M C beta gamma T0 T1 T F s0 out : exact_linear solve -> beta <> 0 -> T0 <> T1 ->
  unloaded N F -> in_motion N M C K no_force s0 -> newmark N solve K M C beta gamma (T0 :: T1 :: T) F s0 = Some out ->
  forall i t s, nth_error out i = Some (t, s) -> in_motion N M C K no_force s.
Proof.
  intros EX B D U H0 H i t s HI. destruct i as [|i].
  - rewrite (newmark_start _ _ _ _ _ _ _ _ _ _ _ H) in HI. apply some_inj in HI. injection HI as <- <-. exact H0.
  - destruct (nth_error_pred _ _ _ HI) as ([t0 sp] & HP). destruct (newmark_step _ _ _ _ _ _ _ _ _ _ _ _ _ _ _ _ _ _ EX B D H HP HI) as (f & HF & HM & _).
    intros q Hq. rewrite (HM q Hq). apply (U f q); [|exact Hq]. apply nth_error_In in HF. exact HF.
Qed.
Lemma ef_none N C x y : (forall i j, (i < N)%nat -> (j < N)%nat -> C i j = 0) -> energy_form N C x y = 0.
Proof. intros Z. unfold energy_form. apply rsum_0. intros i Hi. rewrite rsum_0; [ring|]. intros j Hj. rewrite (Z i j Hi Hj). ring. Qed.

Lemma c122_partial N solve K M C beta T0 T1 T F s0 out : exact_linear solve -> 1/2 <= beta -> T0 <> T1 ->
  symmetric_upto N M -> psd_upto N M -> symmetric_upto N K -> (forall i j, (i < N)%nat -> (j < N)%nat -> C i j = 0) ->
  unloaded N F -> in_motion N M C K no_force s0 -> newmark N solve K M C beta (1/2) (T0 :: T1 :: T) F s0 = Some out ->
  let stored s := (T1 - T0)^2/8 * energy_form N M (ma_ s) (ma_ s) in
  forall i t s, nth_error out i = Some (t, s) ->
    mechanical N M K s <= mechanical N M K s0 + stored s0
    /\ (beta = 1/2 -> mechanical N M K s + stored s = mechanical N M K s0 + stored s0).
Proof.
  intros EX B D SM PM SK Z U H0 H stored.
  assert (B0 : beta <> 0) by lra.
  assert (I : forall i t s, nth_error out i = Some (t, s) ->
     mechanical N M K s + stored s <= mechanical N M K s0 + stored s0
     /\ (beta = 1/2 -> mechanical N M K s + stored s = mechanical N M K s0 + stored s0)).
  { induction i as [|i IH]; intros t s HI.
    - rewrite (newmark_start _ _ _ _ _ _ _ _ _ _ _ H) in HI. apply some_inj in HI. injection HI as <- <-. split; [lra|reflexivity].
    - destruct (nth_error_pred _ _ _ HI) as ([t0 sp] & HP). destruct (IH t0 sp HP) as (L & Q).
      pose proof (unloaded_motion N solve K M C beta (1/2) T0 T1 T F s0 out EX B0 D U H0 H i t0 sp HP) as HM.
      pose proof (unloaded_motion N solve K M C beta (1/2) T0 T1 T F s0 out EX B0 D U H0 H (S i) t s HI) as HM'.
      destruct (newmark_step _ _ _ _ _ _ _ _ _ _ _ _ _ _ _ _ _ _ EX B0 D H HP HI) as (f & _ & _ & HV & HU).
      pose proof (step_balance N M C K beta (T1 - T0) no_force no_force sp s SM SK HM HM' HV HU) as BAL. cbv zeta in BAL.
      rewrite (ef_none N C _ _ Z) in BAL.
      rewrite (rsum_0 N (fun q => change_of (mu_ sp) (mu_ s) q * midway no_force no_force q)) in BAL by (intros; unfold midway, no_force; field).
      set (am := midway (ma_ sp) (ma_ s)) in *.
      assert (P : 0 <= energy_form N M am am) by (rewrite ef_quad; apply PM).
      fold (stored s) in BAL. fold (stored sp) in BAL.
      assert (P2 : 0 <= (T1 - T0)^2 * energy_form N M am am) by (apply Rmult_le_pos; [apply pow2_ge_0|exact P]).
      split.
      + assert (P3 : 0 <= (2 * beta - 1) * ((T1 - T0)^2 * energy_form N M am am)) by (apply Rmult_le_pos; [lra|exact P2]). lra.
      + intros ->. specialize (Q eq_refl). lra. }
  intros i t s HI. destruct (I i t s HI) as (L & Q). split; [|exact Q].
  assert (0 <= stored s). { unfold stored. apply Rmult_le_pos; [pose proof (pow2_ge_0 (T1 - T0)); lra|rewrite ef_quad; apply PM]. }
  lra.
Qed.

(** ** Growth *)
(** Cauchy-Schwarz *)
Lemma schwarz N A x y : symmetric_upto N A -> psd_upto N A -> energy_form N A x y ^ 2 <= energy_form N A x x * energy_form N A y y.
Proof.
  intros S P.
  assert (Q : forall k, 0 <= energy_form N A y y * k^2 + 2 * energy_form N A x y * k + energy_form N A x x).
  { intros k. pose proof (P (fun i => x i + k * y i)) as H. rewrite <- ef_quad in H.
    rewrite ef_plus_l, !ef_plus_r, !ef_scal_l, !ef_scal_r in H. rewrite (ef_sym N A y x S) in H. lra. }
  set (a := energy_form N A x x) in *. set (b := energy_form N A x y) in *. set (c := energy_form N A y y) in *.
  assert (C0 : 0 <= c) by (unfold c; rewrite ef_quad; apply P).
  destruct (Req_dec c 0) as [E|E].
  - assert (b = 0).
    { destruct (Req_dec b 0) as [Z|Z]; [exact Z|exfalso]. specialize (Q (- (a + 1) / (2 * b))). rewrite E in Q.
      replace (0 * (- (a + 1) / (2 * b))^2 + 2 * b * (- (a + 1) / (2 * b)) + a) with (-1) in Q by (field; exact Z). lra. }
    rewrite E. subst b. rewrite H. lra.
  - specialize (Q (- b / c)).
    assert (R : 0 <= (c * (- b / c)^2 + 2 * b * (- b / c) + a) * c) by (apply Rmult_le_pos; [exact Q|exact C0]).
    replace ((c * (- b / c)^2 + 2 * b * (- b / c) + a) * c) with (a * c - b^2) in R by (field; exact E). lra.
Qed.

(** a single oscillator of circular frequency [w] *)
Definition swing (beta w dt y v : R) : R :=
  (w*dt)^2 * (1 + (w*dt)^2/4) * y^2 + (1 - 2*beta) * (w*dt)^2 * y * (dt*v) + (dt*v)^2.
Definition growth (beta w dt : R) : R := 1 + (1 - 2*beta) * (w*dt)^2 / (1 + beta*(w*dt)^2).
Lemma swing_step beta w dt y v y' v' : 0 < beta ->
  y' = y + dt * v + dt^2 * (- (1/2 - beta) * (- w^2 * y) + beta * (- w^2 * y')) ->
  v' = v + dt * ((1 - 1/2) * (- w^2 * y) + 1/2 * (- w^2 * y')) ->
  swing beta w dt y' v' = growth beta w dt * swing beta w dt y v.
Proof.
  intros B HY HV. set (q := 1 + beta * (w*dt)^2).
  assert (Q : 0 < q). { unfold q. assert (0 <= beta * (w*dt)^2) by (apply Rmult_le_pos; [lra|apply pow2_ge_0]). lra. }
  assert (Y : y' = (y * (1 + (1/2 - beta) * (w*dt)^2) + dt * v) / q).
  { assert (E : y' * q = y * (1 + (1/2 - beta) * (w*dt)^2) + dt * v) by (unfold q; lra). rewrite <- E. field. lra. }
  rewrite Y in HV. rewrite HV, Y. unfold swing, growth. fold q. unfold q in *. field. lra.
Qed.
Lemma swing_pos beta w dt y v : 0 < beta < 1/2 -> w <> 0 -> dt <> 0 -> y <> 0 \/ v <> 0 -> 0 < swing beta w dt y v.
Proof.
  intros B W D H. set (z := (w*dt)^2).
  assert (Z : 0 < z). { unfold z. rewrite <- Rsqr_pow2. apply Rsqr_pos_lt. apply Rmult_integral_contrapositive_currified; assumption. }
  assert (E : swing beta w dt y v = (dt*v + (1 - 2*beta) * z * y / 2)^2 + y^2 * z * (1 + z * (beta * (1 - beta)))).
  { unfold swing. fold z. field. }
  assert (P : 0 < 1 + z * (beta * (1 - beta))).
  { assert (0 <= z * (beta * (1 - beta))) by (apply Rmult_le_pos; [lra|apply Rmult_le_pos; lra]). lra. }
  rewrite E. destruct (Req_dec y 0) as [Y|Y].
  - destruct H as [H|H]; [contradiction|]. subst y. replace (dt*v + (1 - 2*beta) * z * 0 / 2) with (dt * v) by field.
    assert (0 < (dt*v)^2). { rewrite <- Rsqr_pow2. apply Rsqr_pos_lt. apply Rmult_integral_contrapositive_currified; assumption. }
    replace (0^2 * z * (1 + z * (beta * (1 - beta)))) with 0 by ring. lra.
  - assert (0 < y^2) by (rewrite <- Rsqr_pow2; apply Rsqr_pos_lt; exact Y).
    assert (0 < y^2 * z * (1 + z * (beta * (1 - beta)))) by (apply Rmult_lt_0_compat; [apply Rmult_lt_0_compat; assumption|exact P]).
    pose proof (pow2_ge_0 (dt*v + (1 - 2*beta) * z * y / 2)). lra.
Qed.
Lemma swing_bound beta w dt y v : 0 < beta < 1/2 -> swing beta w dt y v <= dt^2 * (2 + (w*dt)^2) * (w^2 * y^2 + v^2).
Proof.
  intros B. unfold swing.
  assert (K1 : 0 <= dt^2 * (1 - 2*beta) * ((w*y) - (w*dt)*v)^2) by (apply Rmult_le_pos; [apply Rmult_le_pos; [apply pow2_ge_0|lra]|apply pow2_ge_0]).
  assert (K2 : 0 <= dt^2 * (2*beta) * ((w*y)^2 + ((w*dt)*v)^2)).
  { apply Rmult_le_pos; [apply Rmult_le_pos; [apply pow2_ge_0|lra]|]. pose proof (pow2_ge_0 (w*y)). pose proof (pow2_ge_0 (w*dt*v)). lra. }
  assert (K3 : 0 <= dt^2 * (w*y)^2) by (apply Rmult_le_pos; apply pow2_ge_0).
  assert (K4 : 0 <= dt^2 * (w*dt)^2 * (w*y)^2) by (apply Rmult_le_pos; [apply Rmult_le_pos|]; apply pow2_ge_0).
  assert (K5 : 0 <= dt^2 * v^2) by (apply Rmult_le_pos; apply pow2_ge_0).
  assert (K6 : 0 <= dt^2 * (w*dt)^2 * v^2) by (apply Rmult_le_pos; [apply Rmult_le_pos|]; apply pow2_ge_0).
  enough (dt^2 * (2 + (w*dt)^2) * (w^2 * y^2 + v^2) - ((w*dt)^2 * (1 + (w*dt)^2/4) * y^2 + (1 - 2*beta) * (w*dt)^2 * y * (dt*v) + (dt*v)^2)
     = 1/2 * (dt^2 * (1 - 2*beta) * ((w*y) - (w*dt)*v)^2) + 1/2 * (dt^2 * (2*beta) * ((w*y)^2 + ((w*dt)*v)^2))
       + 1/2 * (dt^2 * (w*y)^2) + 3/4 * (dt^2 * (w*dt)^2 * (w*y)^2) + dt^2 * v^2 + 1/2 * (dt^2 * (w*dt)^2 * v^2)) by lra.
  field.
Qed.

Lemma mode_form N K M w x u : symmetric_upto N M -> symmetric_upto N K -> mode_of N K M w x -> energy_form N K x u = w^2 * energy_form N M x u.
Proof.
  intros SM SK H. rewrite (ef_sym N K x u SK), (ef_sym N M x u SM). unfold energy_form. rewrite <- rsum_scal. apply rsum_ext. intros i Hi.
  rewrite (H i Hi). ring.
Qed.
Lemma ef_lin4 N A x p q r s k1 k2 k3 z : (forall i, z i = p i + k1 * q i + k2 * r i + k3 * s i) ->
  energy_form N A x z = energy_form N A x p + k1 * energy_form N A x q + k2 * energy_form N A x r + k3 * energy_form N A x s.
Proof.
  intros H. rewrite (ef_ext N A x x z (fun i => ((p i + k1 * q i) + k2 * r i) + k3 * s i)); [|reflexivity|intros; apply H].
  rewrite !ef_plus_r, !ef_scal_r. reflexivity.
Qed.

Lemma c122_grows N solve K M C beta T0 T1 w x s0 : exact_linear solve -> 0 < beta < 1/2 -> T0 <> T1 ->
  symmetric_upto N M -> psd_upto N M -> symmetric_upto N K -> psd_upto N K -> (forall i j, (i < N)%nat -> (j < N)%nat -> C i j = 0) ->
  mode_of N K M w x -> w <> 0 -> in_motion N M C K no_force s0 ->
  energy_form N M x (mu_ s0) <> 0 \/ energy_form N M x (mv_ s0) <> 0 ->
  forall B, exists n0, forall T F out i t s, unloaded N F ->
    newmark N solve K M C beta (1/2) (T0 :: T1 :: T) F s0 = Some out -> (n0 <= i)%nat -> nth_error out i = Some (t, s) ->
    B < mechanical N M K s.
Proof.
  intros EX B D SM PM SK PK Z HX W H0 SH B'.
  assert (B0 : beta <> 0) by lra. set (dt := T1 - T0). assert (DT : dt <> 0) by (unfold dt; lra).
  set (sw := fun s => swing beta w dt (energy_form N M x (mu_ s)) (energy_form N M x (mv_ s))).
  assert (G : 1 < growth beta w dt).
  { unfold growth. assert (0 < (w*dt)^2). { rewrite <- Rsqr_pow2. apply Rsqr_pos_lt. apply Rmult_integral_contrapositive_currified; assumption. }
    assert (0 < 1 + beta * (w*dt)^2). { assert (0 < beta * (w*dt)^2) by (apply Rmult_lt_0_compat; lra). lra. }
    assert (0 < (1 - 2*beta) * (w*dt)^2 / (1 + beta*(w*dt)^2)). { apply Rdiv_lt_0_compat; [apply Rmult_lt_0_compat; lra|lra]. } lra. }
  assert (ST : forall T F out, unloaded N F -> newmark N solve K M C beta (1/2) (T0 :: T1 :: T) F s0 = Some out ->
     forall i t s, nth_error out i = Some (t, s) -> sw s = growth beta w dt ^ i * sw s0).
  { intros T F out U H. induction i as [|i IH]; intros t s HI.
    - rewrite (newmark_start _ _ _ _ _ _ _ _ _ _ _ H) in HI. apply some_inj in HI. injection HI as <- <-. cbn [pow]. ring.
    - destruct (nth_error_pred _ _ _ HI) as ([t0 sp] & HP). specialize (IH t0 sp HP).
      pose proof (unloaded_motion N solve K M C beta (1/2) T0 T1 T F s0 out EX B0 D U H0 H i t0 sp HP) as HM.
      pose proof (unloaded_motion N solve K M C beta (1/2) T0 T1 T F s0 out EX B0 D U H0 H (S i) t s HI) as HM'.
      destruct (newmark_step _ _ _ _ _ _ _ _ _ _ _ _ _ _ _ _ _ _ EX B0 D H HP HI) as (f & _ & _ & HV & HU).
      assert (AC : forall q, in_motion N M C K no_force q -> energy_form N M x (ma_ q) = - w^2 * energy_form N M x (mu_ q)).
      { intros q Hq. pose proof (motion_work N M C K no_force q x Hq) as E. rewrite (ef_none N C _ _ Z), (mode_form N K M w x (mu_ q) SM SK HX) in E.
        rewrite (rsum_0 N (fun i0 => x i0 * no_force i0)) in E by (intros; unfold no_force; ring). lra. }
      cbn [pow]. rewrite Rmult_assoc, <- IH. unfold sw. apply swing_step; [lra| |].
      + rewrite <- (AC sp HM), <- (AC s HM').
        rewrite (ef_lin4 N M x (mu_ sp) (mv_ sp) (ma_ sp) (ma_ s) dt (dt^2 * - (1/2 - beta)) (dt^2 * beta) (mu_ s)); [ring|].
        intros q. rewrite (HU q). fold dt. ring.
      + rewrite <- (AC sp HM), <- (AC s HM').
        rewrite (ef_lin4 N M x (mv_ sp) (ma_ sp) (ma_ s) (ma_ s) (dt * (1 - 1/2)) (dt * (1/2)) 0 (mv_ s)); [ring|].
        intros q. rewrite (HV q). fold dt. ring. }
  assert (P0 : 0 < sw s0) by (apply swing_pos; assumption).
  set (m := energy_form N M x x).
  assert (MX : 0 < m).
  { assert (M0 : 0 <= m) by (unfold m; rewrite ef_quad; apply PM). destruct (Req_dec m 0) as [E|E]; [exfalso|lra].
    assert (V : forall y, energy_form N M x y = 0).
    { intros y. pose proof (schwarz N M x y SM PM) as S. fold m in S. rewrite E, Rmult_0_l in S.
      pose proof (pow2_ge_0 (energy_form N M x y)). apply Rsqr_0_uniq. rewrite Rsqr_pow2. lra. }
    destruct SH as [SH|SH]; apply SH, V. }
  set (c := dt^2 * (2 + (w*dt)^2) * (2 * m)).
  assert (CP : 0 < c).
  { unfold c. assert (0 < dt^2) by (rewrite <- Rsqr_pow2; apply Rsqr_pos_lt; exact DT). pose proof (pow2_ge_0 (w*dt)).
    apply Rmult_lt_0_compat; [apply Rmult_lt_0_compat; lra|lra]. }
  assert (EN : forall s, sw s <= c * mechanical N M K s).
  { intros s. apply Rle_trans with (dt^2 * (2 + (w*dt)^2) * (w^2 * energy_form N M x (mu_ s)^2 + energy_form N M x (mv_ s)^2)).
    - apply swing_bound. exact B.
    - unfold c. rewrite Rmult_assoc.
      replace (dt^2 * (2 + (w*dt)^2) * (2 * m) * mechanical N M K s) with (dt^2 * ((2 + (w*dt)^2) * (2 * m * mechanical N M K s))) by ring.
      apply Rmult_le_compat_l; [apply pow2_ge_0|]. apply Rmult_le_compat_l; [pose proof (pow2_ge_0 (w*dt)); lra|].
      unfold mechanical. pose proof (schwarz N M x (mv_ s) SM PM) as S1. fold m in S1.
      pose proof (schwarz N K x (mu_ s) SK PK) as S2. rewrite !(mode_form N K M w x _ SM SK HX) in S2. fold m in S2.
      assert (S3 : w^2 * energy_form N M x (mu_ s)^2 <= m * energy_form N K (mu_ s) (mu_ s)).
      { assert (W2 : 0 < w^2) by (rewrite <- Rsqr_pow2; apply Rsqr_pos_lt; exact W). apply Rmult_le_reg_l with (w^2); [exact W2|]. lra. }
      lra. }
  destruct (Pow_x_infinity (growth beta w dt)) with (b := (Rabs B' + 1) * c / sw s0) as (n0 & HN).
  { rewrite Rabs_right; lra. }
  exists n0. intros T F out i t s U H HI HS. specialize (HN i HI). rewrite Rabs_right in HN by (apply Rle_ge, pow_le; lra).
  pose proof (ST T F out U H i t s HS) as E. pose proof (EN s) as L.
  assert (Q : (Rabs B' + 1) * c <= growth beta w dt ^ i * sw s0).
  { apply Rmult_le_reg_r with (/ sw s0); [apply Rinv_0_lt_compat; exact P0|]. rewrite (Rmult_assoc (growth beta w dt ^ i)), Rinv_r, Rmult_1_r by lra.
    apply Rge_le. exact HN. }
  pose proof (RRle_abs B') as AB.
  assert (R2 : (Rabs B' + 1) * c <= mechanical N M K s * c) by lra.
  apply Rmult_le_reg_r in R2; [lra|exact CP].
Qed.
