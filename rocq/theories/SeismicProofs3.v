(** The spectrum by Fourier transform, continued. *)
From Coq Require Import Reals List Arith Lia Lra ZArith String Bool.
From Verif Require Import Base BaseFacts Spectrum Seismic SpecSeismic SeismicProofs SeismicProofs2.
Import ListNotations.
Local Open Scope R_scope.

Lemma fft_plus N a b c k : (forall m, (m < N)%nat -> vnth c m = vnth a m + vnth b m) ->
  fst (fft_at N c k) = fst (fft_at N a k) + fst (fft_at N b k) /\
  snd (fft_at N c k) = snd (fft_at N a k) + snd (fft_at N b k).
Proof.
  intros H. unfold fft_at. cbn [fst snd]. split.
  - rewrite <- rsum_plus. apply rsum_ext. intros m Hm. rewrite H by exact Hm. ring.
  - rewrite <- Ropp_plus_distr, <- rsum_plus. f_equal. apply rsum_ext. intros m Hm. rewrite H by exact Hm. ring.
Qed.

Lemma response_plus N a b c dt xi wd n : (0 < N)%nat -> (forall m, (m < N)%nat -> vnth c m = vnth a m + vnth b m) ->
  fft_response N c dt xi wd n = fft_response N a dt xi wd n + fft_response N b dt xi wd n.
Proof.
  intros HN H. assert (0 < INR N) by (apply lt_0_INR; lia). unfold fft_response, ifft_real_at.
  rewrite <- Rmult_plus_distr_r, <- Rmult_plus_distr_l, <- rsum_plus. do 2 f_equal.
  apply rsum_ext. intros k _. unfold cmul. cbn [fst snd]. destruct (fft_plus N a b c k H) as [-> ->].
  field. lra.
Qed.

Lemma response_zero N a dt xi wd n : (forall m, (m < N)%nat -> vnth a m = 0) -> fft_response N a dt xi wd n = 0.
Proof.
  intros H. unfold fft_response, ifft_real_at.
  assert (F : forall k, fft_at N a k = (0, - 0)).
  { intros k. unfold fft_at. f_equal; [|f_equal]; apply rsum_0; intros m Hm; rewrite H by exact Hm; ring. }
  replace (rsum N _) with 0; [ring|]. symmetry. apply rsum_0. intros k _. unfold cmul. cbn [fst snd]. rewrite F.
  cbn [fst snd]. unfold Rdiv. ring.
Qed.

Lemma response_ext N a b dt xi wd n : (forall m, (m < N)%nat -> vnth a m = vnth b m) ->
  fft_response N a dt xi wd n = fft_response N b dt xi wd n.
Proof.
  intros H. unfold fft_response, ifft_real_at. do 2 f_equal. apply rsum_ext. intros k _.
  assert (E : fft_at N a k = fft_at N b k).
  { unfold fft_at. f_equal; [|f_equal]; apply rsum_ext; intros m Hm; now rewrite H. }
  unfold cmul. now rewrite E.
Qed.

Definition no_pole (N : nat) (dt wd xi : R) : Prop :=
  forall k, (k < N)%nat -> h_den (2 * PI * fftfreq_at N dt k) wd xi <> (0, 0).

Lemma response_sum N hs c dt xi wd n : (0 < N)%nat -> 0 < dt -> wd <> 0 -> cycles_below N hs -> no_pole N dt wd xi ->
  forall a, (forall m, (m < N)%nat -> vnth a m = c * harmonics N hs m) ->
  fft_response N a dt xi wd n = steady_sum wd xi c dt N hs n.
Proof.
  intros HN Dt Wd. induction hs as [|[[A j] phi] hs IH]; intros Hc Np a H.
  - apply response_zero. intros m Hm. rewrite H by exact Hm. unfold harmonics. cbn. ring.
  - inversion Hc as [|? ? Hj Hc']; subst. unfold steady_sum, harmonics in *. cbn [map lsum] in *.
    rewrite (response_plus N (map (fun m => c * A * cos (turn N j m + phi)) (seq 0 N))
      (map (fun m => c * harmonics N hs m) (seq 0 N)) a) by (try exact HN; intros m Hm; rewrite H by exact Hm;
        unfold vnth; rewrite !nth_map_seq by exact Hm; unfold harmonics, turn; ring).
    f_equal.
    + apply response_harmonic; auto.
      * intros m Hm. unfold vnth. now rewrite nth_map_seq.
      * apply Np. lia.
    + apply IH; auto. intros m Hm. unfold vnth. rewrite nth_map_seq by exact Hm. reflexivity.
Qed.

Lemma period_count_pos dt : 0 < dt -> (0 < period_count dt)%nat.
Proof.
  intros D. unfold period_count. pose proof (base_Int_part (- (6 / dt))) as [B1 B2].
  assert (0 < 6 / dt) by (apply Rdiv_lt_0_compat; lra).
  assert (Int_part (- (6 / dt)) < 0)%Z by (apply lt_IZR; lra). lia.
Qed.
Lemma periods_length dt : List.length (periods dt) = period_count dt.
Proof. unfold periods. now rewrite map_length, seq_length. Qed.
Lemma periods_nth dt i : (i < period_count dt)%nat -> nth i (periods dt) 0 = dt + INR i * dt.
Proof. intros H. exact (nth_map_seq (fun k => dt + INR k * dt) _ _ 0 H). Qed.
Lemma periods_pos dt T : 0 < dt -> In T (periods dt) -> 0 < T.
Proof.
  intros D H. apply in_map_iff in H as (k & <- & _). pose proof (pos_INR k). nra.
Qed.

Lemma pole_test N dt wd xi :
  existsb (fun k => let d := h_den (2 * PI * fftfreq_at N dt k) wd xi in andb (Reqb (fst d) 0) (Reqb (snd d) 0)) (seq 0 N) = false
  <-> no_pole N dt wd xi.
Proof.
  split.
  - intros H k Hk E. assert (X : existsb (fun k => let d := h_den (2 * PI * fftfreq_at N dt k) wd xi in andb (Reqb (fst d) 0) (Reqb (snd d) 0)) (seq 0 N) = true); [|congruence].
    apply existsb_exists. exists k. split; [apply in_seq; lia|]. cbv zeta. rewrite E. cbn [fst snd].
    rewrite (proj2 (Reqb_t 0 0) eq_refl). reflexivity.
  - intros H. apply not_true_is_false. intros X. apply existsb_exists in X as (k & Hk & X). apply in_seq in Hk.
    cbv zeta in X. apply andb_true_iff in X as [X Y]. apply Reqb_t in X, Y. apply (H k); [lia|].
    rewrite (surjective_pairing (h_den _ _ _)). now rewrite X, Y.
Qed.

Lemma damped_no_pole N dt wd xi : xi <> 0 -> no_pole N dt wd xi.
Proof.
  intros X k _ E. unfold h_den in E. set (r := 2 * PI * fftfreq_at N dt k / wd) in E.
  assert (E1 := f_equal fst E). assert (E2 := f_equal snd E). cbn [fst snd] in E1, E2.
  apply Rmult_integral in E2 as [E2|E2]; [lra|]. rewrite E2 in E1. lra.
Qed.

(** What the spectrum of a record is, period by period *)
Lemma fft2spec_spec N file dt xi a_max Ts Sa : fft2spec_n N file dt xi a_max = Some (Ts, Sa) ->
  0 < dt /\ xi < 1 /\ exists ag m, top file m /\ m <> 0 /\ ag = map (fun x => a_max / 100 / m * x) file /\
  Ts = periods dt /\ List.length Sa = period_count dt /\
  forall i, (i < period_count dt)%nat -> let wd := sqrt (1 - xi) * (2 * PI / nth i Ts 0) in
    no_pole N dt wd xi /\ top (map (fft_response N ag dt xi wd) (seq 0 N)) (98/10 * nth i Sa 0).
Proof.
  unfold fft2spec_n. destruct (Rltb 0 dt) eqn:D; [|discriminate].
  unfold Rltb in D. destruct (Rlt_dec 0 dt) as [D'|]; [|discriminate].
  destruct (scale_record file a_max) as [ag|] eqn:S; [|discriminate]. cbn [bindO].
  destruct (mapM (max_response N ag dt xi) (periods dt)) as [s|] eqn:M; [|discriminate]. cbn [bindO].
  intros [= <- <-]. split; [exact D'|].
  assert (R : forall i, (i < period_count dt)%nat -> max_response N ag dt xi (nth i (periods dt) 0) = Some (nth i s 0)).
  { intros i Hi. pose proof (mapM_some_length _ _ _ M) as L. apply mapM_inv in M.
    rewrite periods_length in L. clear S D. rewrite <- periods_length in Hi. revert i Hi. clear L. induction M; intros i Hi; [cbn in Hi; lia|].
    destruct i; [exact H|]. cbn in *. apply IHM. lia. }
  split.
  { specialize (R 0%nat (period_count_pos dt D')). unfold max_response in R.
    unfold Rltb in R. destruct (Rlt_dec xi 1); [assumption|discriminate]. }
  apply c83_shape_record in S as (m & T & Z & ->). eexists. exists m.
  split; [exact T|]. split; [exact Z|]. split; [reflexivity|]. split; [reflexivity|].
  split; [apply mapM_some_length in M; now rewrite M, periods_length|].
  intros i Hi. cbv zeta. specialize (R i Hi). unfold max_response in R.
  destruct (Rltb xi 1); [|discriminate]. cbv zeta in R.
  destruct (existsb _ _) eqn:P; [discriminate|]. apply pole_test in P. split; [exact P|].
  unfold bindO in R. destruct (max_of _) as [u|] eqn:U; [|discriminate]. apply max_of_top in U.
  injection R as R. rewrite <- R. replace (98 / 10 * (u / (98 / 10))) with u by field. exact U.
Qed.

Lemma top_ext l l' m : l = l' -> top l m -> top l' m.
Proof. now intros ->. Qed.

(** The ordinates of a sum of harmonics *)
Lemma c85_harmonics_n N hs dt xi a_max Ts Sa : (0 < N)%nat -> cycles_below N hs ->
  fft2spec_n N (map (harmonics N hs) (seq 0 N)) dt xi a_max = Some (Ts, Sa) ->
  exists m, top (map (harmonics N hs) (seq 0 N)) m /\
  forall i, (i < List.length Ts)%nat ->
    top (map (steady_sum (sqrt (1 - xi) * (2 * PI / nth i Ts 0)) xi (a_max / 100 / m) dt N hs) (seq 0 N)) (98/10 * nth i Sa 0).
Proof.
  intros HN Hc H. apply fft2spec_spec in H as (D & X & ag & m & T & Z & Eag & -> & L & R).
  exists m. split; [exact T|]. intros i Hi. rewrite periods_length in Hi. destruct (R i Hi) as [Np Tp].
  eapply top_ext; [|exact Tp]. apply map_ext_in. intros n Hn. apply in_seq in Hn.
  apply response_sum; auto.
  - apply Rmult_integral_contrapositive. assert (P := PI_RGT_0). split.
    + apply Rgt_not_eq. apply sqrt_lt_R0. lra.
    + apply Rgt_not_eq. apply Rdiv_lt_0_compat; [lra|]. apply (periods_pos dt); [exact D|].
      apply nth_In. now rewrite periods_length.
  - intros k Hk. rewrite Eag. unfold vnth. set (g := fun x => a_max / 100 / m * x).
    rewrite nth_indep with (d' := g 0) by (now rewrite !map_length, seq_length).
    rewrite map_nth. rewrite nth_map_seq by exact Hk. reflexivity.
Qed.

Lemma nfft_pos : (0 < nfft)%nat.
Proof. unfold nfft. lia. Qed.

Lemma c85_harmonics hs dt xi a_max Ts Sa : cycles_below nfft hs ->
  fft2spec (map (harmonics nfft hs) (seq 0 nfft)) dt xi a_max = Some (Ts, Sa) ->
  exists m, top (map (harmonics nfft hs) (seq 0 nfft)) m /\
  forall i, (i < List.length Ts)%nat ->
    top (map (steady_sum (sqrt (1 - xi) * (2 * PI / nth i Ts 0)) xi (a_max / 100 / m) dt nfft hs) (seq 0 nfft)) (98/10 * nth i Sa 0).
Proof. exact (c85_harmonics_n nfft hs dt xi a_max Ts Sa nfft_pos). Qed.

Lemma c85_steady w z A f phi : w <> 0 -> ~ (f * f = w * w /\ z * f = 0) ->
  oscillates w z (fun t => w * w * A * cos (f * t + phi)) (steady w z A f phi).
Proof.
  intros W N. set (r := f / w).
  set (D := (1 - r * r) * (1 - r * r) + 2 * z * r * (2 * z * r)).
  assert (Fr : f = r * w) by (unfold r; field; exact W).
  assert (D0 : D <> 0).
  { intros E. apply N. unfold D in E.
    assert (G1 := Rle_0_sqr (1 - r * r)). assert (G2 := Rle_0_sqr (2 * z * r)). unfold Rsqr in *.
    assert (E1 : (1 - r * r) * (1 - r * r) = 0) by lra. assert (E2 : 2 * z * r * (2 * z * r) = 0) by lra.
    assert (E1' : 1 - r * r = 0) by (apply Rmult_integral in E1; tauto).
    assert (E2' : 2 * z * r = 0) by (apply Rmult_integral in E2; tauto).
    split; rewrite Fr.
    - replace (r * w * (r * w)) with (r * r * (w * w)) by ring. replace (r * r) with 1 by lra. ring.
    - replace (z * (r * w)) with (2 * z * r * (w / 2)) by field. rewrite E2'. ring. }
  set (B := A * (1 - r * r) / D). set (C := A * (2 * z * r) / D).
  assert (F : forall t, B * cos (f * t + phi) + C * sin (f * t + phi) = steady w z A f phi t).
  { intros t. unfold steady. cbv zeta. fold r D. unfold B, C. field. exact D0. }
  assert (L : forall b c t, derivable_pt_lim (fun s => b * cos (f * s + phi) + c * sin (f * s + phi)) t
     (c * f * cos (f * t + phi) + (- b * f) * sin (f * t + phi))).
  { intros b c t.
    replace (c * f * cos (f * t + phi) + (- b * f) * sin (f * t + phi))
      with (b * (- f * sin (f * t + phi)) + c * (f * cos (f * t + phi))) by ring.
    apply (derivable_pt_lim_plus (fun s => b * cos (f * s + phi)) (fun s => c * sin (f * s + phi))).
    - apply (derivable_pt_lim_scal (fun s => cos (f * s + phi)) b). apply lim_cos.
    - apply (derivable_pt_lim_scal (fun s => sin (f * s + phi)) c). apply lim_sin. }
  exists (fun t => C * f * cos (f * t + phi) + (- B * f) * sin (f * t + phi)).
  exists (fun t => (- B * f) * f * cos (f * t + phi) + (- (C * f) * f) * sin (f * t + phi)).
  split; [|split].
  - intros t. apply (lim_ext _ _ _ _ F). apply L.
  - intros t. apply L.
  - intros t. rewrite <- F.
    assert (E1 : B * (1 - r * r) + C * (2 * z * r) = A).
    { transitivity (A * (D / D)); [unfold B, C; unfold D at 3; field; exact D0|field; exact D0]. }
    assert (E2 : C * (1 - r * r) - B * (2 * z * r) = 0) by (unfold B, C; field; exact D0).
    replace (w * w * A * cos (f * t + phi)) with
      (w * w * ((B * (1 - r * r) + C * (2 * z * r)) * cos (f * t + phi) + (C * (1 - r * r) - B * (2 * z * r)) * sin (f * t + phi)))
      by (rewrite E1, E2; ring).
    generalize (cos (f * t + phi)) (sin (f * t + phi)). intros c s. rewrite Fr. ring.
Qed.

Lemma c85_defined file dt xi a_max m : 0 < dt -> xi < 1 -> xi <> 0 -> top file m -> m <> 0 ->
  exists Sa, fft2spec file dt xi a_max = Some (periods dt, Sa).
Proof.
  intros D X X0 T Z. unfold fft2spec, fft2spec_n. unfold Rltb at 1. destruct (Rlt_dec 0 dt); [|lra].
  unfold scale_record. apply max_of_top in T. rewrite T. cbn [bindO]. apply Reqb_f in Z. rewrite Z. cbn [bindO].
  set (ag := map _ file).
  assert (M : exists s, mapM (max_response nfft ag dt xi) (periods dt) = Some s).
  { apply mapM_total. intros t _. unfold max_response. unfold Rltb. destruct (Rlt_dec xi 1); [|lra].
    pose proof (proj2 (pole_test nfft dt (sqrt (1 - xi) * (2 * PI / t)) xi) (damped_no_pole _ _ _ _ X0)) as PT.
    cbv zeta in PT |- *. rewrite PT. clear PT.
    destruct (max_of_some (map (fft_response nfft ag dt xi (sqrt (1 - xi) * (2 * PI / t))) (seq 0 nfft))) as (u & U).
    - intros E. apply (f_equal (@List.length R)) in E. rewrite map_length, seq_length in E. pose proof nfft_pos. cbn [List.length] in E. lia.
    - rewrite U. cbn [bindO]. now eexists. }
  destruct M as (s & ->). now exists s.
Qed.

(** The constant record: every ordinate is the design acceleration. *)
Lemma c85_static dt xi a_max c Ts Sa : 0 < c -> 0 <= a_max ->
  fft2spec (map (fun _ => c) (seq 0 nfft)) dt xi a_max = Some (Ts, Sa) ->
  forall i, (i < List.length Ts)%nat -> nth i Sa 0 = a_max / 100 / (98/10).
Proof.
  intros Hc Ha H i Hi.
  assert (E : map (fun _ => c) (seq 0 nfft) = map (harmonics nfft [(c, 0%nat, 0)]) (seq 0 nfft)).
  { apply map_ext. intros m. unfold harmonics. cbn [map lsum INR]. replace (2 * PI * 0 * INR m / INR nfft + 0) with 0.
    - rewrite cos_0. ring.
    - unfold Rdiv. ring. }
  rewrite E in H. apply c85_harmonics in H as (m & T & R); [|constructor; [pose proof nfft_pos; lia|constructor]].
  assert (Em : m = c).
  { destruct T as [T _]. rewrite <- E in T. apply in_map_iff in T as (? & <- & _). reflexivity. }
  specialize (R i Hi). destruct R as [R _]. apply in_map_iff in R as (n & R & _).
  unfold steady_sum, steady in R. cbn [map lsum INR] in R.
  replace (2 * PI * 0 / (INR nfft * dt)) with 0 in R by (unfold Rdiv; ring).
  replace (0 / (sqrt (1 - xi) * (2 * PI / nth i Ts 0))) with 0 in R by (unfold Rdiv; ring).
  replace (0 * (INR n * dt) + 0) with 0 in R by ring. rewrite cos_0, sin_0, Em in R.
  apply (Rmult_eq_reg_l (98/10)); [|lra]. rewrite <- R. field. lra.
Qed.

(** Samples beyond the first 4096 count only through the largest value. *)
Lemma c85_cut file more dt xi a_max m : List.length file = nfft -> top file m -> top (file ++ more) m ->
  fft2spec (file ++ more) dt xi a_max = fft2spec file dt xi a_max.
Proof.
  intros L T T'. unfold fft2spec, fft2spec_n. destruct (Rltb 0 dt); [|reflexivity].
  unfold scale_record. apply max_of_top in T, T'. rewrite T, T'. cbn [bindO].
  destruct (Reqb m 0); [reflexivity|]. cbn [bindO].
  erewrite mapM_ext; [reflexivity|]. intros t _. unfold max_response.
  destruct (Rltb xi 1); [|reflexivity]. cbv zeta. destruct (existsb _ _); [reflexivity|].
  f_equal. f_equal. apply map_ext. intros n. apply response_ext. intros k Hk. unfold vnth.
  rewrite map_app, app_nth1; [reflexivity|]. now rewrite map_length, L.
Qed.

Lemma c85_cut_refuted : exists file more dt xi a_max r, In 1 more /\ fft2spec file dt xi a_max = Some r /\
  fft2spec (file ++ more) dt xi a_max = Some r /\ fft2spec (file ++ map Ropp more) dt xi a_max = Some r.
Proof.
  assert (T : top (map (fun _ => 1) (seq 0 nfft)) 1).
  { pose proof nfft_pos. split.
    - apply in_map_iff. exists 0%nat. split; [reflexivity|apply in_seq; lia].
    - intros x Hx. apply in_map_iff in Hx as (? & <- & _). lra. }
  assert (Ta : forall y, y <= 1 -> top (map (fun _ => 1) (seq 0 nfft) ++ [y]) 1).
  { intros y Hy. split; [apply in_or_app; left; apply T|].
    intros x Hx. apply in_app_or in Hx as [Hx|[<-|[]]]; [now apply T|exact Hy]. }
  assert (L : List.length (map (fun _ => 1) (seq 0 nfft)) = nfft) by now rewrite map_length, seq_length.
  destruct (c85_defined (map (fun _ => 1) (seq 0 nfft)) (1/100) (5/100) 35 1) as (Sa & D); try lra; auto.
  exists (map (fun _ => 1) (seq 0 nfft)), [1], (1/100), (5/100), 35, (periods (1/100), Sa).
  split; [now left|]. split; [exact D|].
  split; (rewrite (c85_cut _ _ _ _ _ 1); [exact D|exact L|exact T|apply Ta; lra]).
Qed.

(** At the period of the shaking the ordinate is less than half of that of the oscillator of
    that period. *)
Lemma c85_refuted : exists hs dt xi a_max Ts Sa i, cycles_below nfft hs /\ 0 < xi < 1 /\
  fft2spec (map (harmonics nfft hs) (seq 0 nfft)) dt xi a_max = Some (Ts, Sa) /\ (i < List.length Ts)%nat /\
  forall m top_value, top (map (harmonics nfft hs) (seq 0 nfft)) m ->
    top (map (steady_sum (2 * PI / nth i Ts 0) xi (a_max / 100 / m) dt nfft hs) (seq 0 nfft)) top_value ->
    98/10 * nth i Sa 0 < top_value.
Proof.
  set (j := (64 * 16)%nat). assert (J : (4 * j = nfft)%nat) by (unfold j, nfft; lia).
  assert (Jp : (0 < j)%nat) by (unfold j; lia). assert (P := PI_RGT_0).
  assert (JR : 0 < INR j) by (apply lt_0_INR; exact Jp).
  assert (NR : INR nfft = 4 * INR j) by (rewrite <- J, mult_INR; f_equal; simpl; lra).
  clearbody j.
  set (hs := [(1, j, 0)]).
  assert (T : top (map (harmonics nfft hs) (seq 0 nfft)) 1).
  { pose proof nfft_pos. split.
    - apply in_map_iff. exists 0%nat. split; [|apply in_seq; lia]. unfold harmonics, hs. cbn [map lsum INR].
      replace (2 * PI * INR j * 0 / INR nfft + 0) with 0 by (unfold Rdiv; ring). rewrite cos_0. ring.
    - intros x Hx. apply in_map_iff in Hx as (k & <- & _). unfold harmonics, hs. cbn [map lsum].
      pose proof (COS_bound (2 * PI * INR j * INR k / INR nfft + 0)). lra. }
  assert (C : cycles_below nfft hs) by (constructor; [lia|constructor]).
  destruct (c85_defined (map (harmonics nfft hs) (seq 0 nfft)) (1/100) (3/4) 100 1) as (Sa & D); try lra; auto.
  exists hs, (1/100), (3/4), 100, (periods (1/100)), Sa, 3%nat.
  split; [exact C|]. split; [lra|]. split; [exact D|].
  assert (I : (3 < period_count (1/100))%nat).
  { unfold period_count. pose proof (base_Int_part (- (6 / (1/100)))) as [B1 B2].
    assert (E : 6 / (1/100) = 600) by field.
    assert (Int_part (- (6 / (1/100))) <= -600)%Z by (apply le_IZR; lra). lia. }
  split; [now rewrite periods_length|].
  intros m v Tm Tv. rewrite (top_unique _ _ _ Tm T) in *. clear Tm m.
  apply c85_harmonics in D as (m & Tm & R); [|exact C]. rewrite (top_unique _ _ _ Tm T) in *. clear Tm m.
  specialize (R 3%nat). rewrite periods_length in R. specialize (R I).
  rewrite periods_nth in R, Tv by exact I.
  replace (1 / 100 + INR 3 * (1 / 100)) with (4 / 100) in R, Tv by (simpl; field).
  replace (100 / 100 / 1) with 1 in R, Tv by field.
  assert (F : 2 * PI * INR j / (INR nfft * (1 / 100)) = 50 * PI) by (rewrite NR; field; lra).
  assert (S4 : sqrt (1 - 3/4) = 1/2).
  { replace (1 - 3/4) with (1/2 * (1/2)) by field. apply sqrt_square. lra. }
  rewrite S4 in R. unfold steady_sum, hs in R, Tv. cbn [map lsum] in R, Tv. rewrite F in R, Tv.
  assert (Up : 98/10 * nth 3 Sa 0 <= 1/3).
  { destruct R as [R _]. apply in_map_iff in R as (n & <- & _). unfold steady. cbv zeta.
    replace (50 * PI / (1 / 2 * (2 * PI / (4 / 100)))) with 2 by (field; lra).
    pose proof (COS_bound (50 * PI * (INR n * (1 / 100)) + 0)). pose proof (SIN_bound (50 * PI * (INR n * (1 / 100)) + 0)).
    lra. }
  assert (Lo : 2/3 <= v).
  { apply Tv. apply in_map_iff. exists 1%nat. split; [|apply in_seq; lia]. unfold steady. cbv zeta. cbn [INR].
    replace (50 * PI / (2 * PI / (4 / 100))) with 1 by (field; lra).
    replace (50 * PI * (1 * (1 / 100)) + 0) with (PI / 2) by field. rewrite sin_PI2, cos_PI2. field. }
  lra.
Qed.
