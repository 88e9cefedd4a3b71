(** The choice of records, continued; envelopes and power. *)
From Coq Require Import Reals List Arith Lia Lra ZArith String Bool Sorting.Permutation Sorting.Sorted.
From Verif Require Import Base BaseFacts Spectrum SpectrumProofs Seismic SpecSeismic SeismicProofs SeismicProofs2 SeismicProofs3 SeismicProofs4.
Import ListNotations.
Local Open Scope R_scope.

Lemma c86_chosen files amax Tg damp lo hi n chosen curves :
  select fft2spec files amax Tg damp lo hi n = Some (chosen, curves) ->
  List.length chosen = min n (List.length files) /\ StronglySorted (fun a b => snd a <= snd b) chosen /\
  exists rest, Permutation (map fst (chosen ++ rest)) files /\
    (forall a b, In a chosen -> In b rest -> snd a <= snd b) /\
    forall f e, In (f, e) (chosen ++ rest) -> exists Ts Sa,
      fft2spec (wf_samples f) (wf_dt f) damp (amax * 440) = Some (Ts, Sa) /\
      compared Sa (fun i => gb50011_at amax Tg damp (nth i Ts 0 - wf_dt f)) (wf_dt f) (List.length Ts) lo hi e.
Proof.
  intros H. destruct (c86_best _ _ _ _ _ _ _ _ _ _ H) as (A & B & rest & P & E & C).
  split; [exact A|]. split; [exact B|]. exists rest. split; [exact P|]. split; [exact C|].
  intros f e I. rewrite Forall_forall in E. destruct (E _ I) as (Ts & Sa & S & R). cbn [fst snd] in *.
  exists Ts, Sa. split; [exact S|]. apply fft2spec_spec in S as (D & _ & ag & m & _ & _ & _ & -> & L & _).
  rewrite periods_length. now apply c86_error.
Qed.

Lemma range_error_defined Sa alpha Tg xi dt lo hi : List.length Sa = period_count dt -> 0 < dt -> lo <= 0 <= hi ->
  exists e, range_error Sa (gb50011 alpha Tg xi dt) lo hi = Some e.
Proof.
  intros L D H. unfold range_error. rewrite gb50011_length.
  destruct (filter _ _) as [|d0 r] eqn:E.
  - exfalso. assert (I : In 0%nat []); [|destruct I]. rewrite <- E. apply filter_In.
    pose proof (period_count_pos dt D). split; [apply in_seq; lia|]. rewrite gb50011_nth by lia. cbn [fst INR].
    rewrite Rmult_0_l. unfold Rltb. destruct (Rlt_dec 0 lo); [lra|]. destruct (Rlt_dec hi 0); [lra|reflexivity].
  - match goal with |- context [Nat.eqb ?a ?b] => replace (Nat.eqb a b) with true; [now eexists|] end.
    symmetry. apply Nat.eqb_eq. rewrite !firstn_length, !skipn_length, map_length, gb50011_length. lia.
Qed.

(** A spectrum that meets the target at every period has an error. *)
Lemma c86_refuted : exists Sa alpha Tg xi dt lo hi e, 0 < alpha /\ 0 < dt /\
  List.length Sa = List.length (periods dt) /\
  (forall i, (i < List.length (periods dt))%nat -> nth i Sa 0 = gb50011_at alpha Tg xi (nth i (periods dt) 0)) /\
  range_error Sa (gb50011 alpha Tg xi dt) lo hi = Some e /\ 0 < e.
Proof.
  set (g := gb50011_at 1 1 (5/100)). set (Sa := map g (periods (1/2))).
  assert (L : List.length Sa = period_count (1/2)) by (unfold Sa; now rewrite map_length, periods_length).
  destruct (range_error_defined Sa 1 1 (5/100) (1/2) 0 6 L) as (e & E); [lra|lra|].
  exists Sa, 1, 1, (5/100), (1/2), 0, 6, e. split; [lra|]. split; [lra|]. split; [now rewrite periods_length|].
  assert (N : forall i, (i < period_count (1/2))%nat -> nth i Sa 0 = g (nth i (periods (1/2)) 0)).
  { intros i Hi. unfold Sa. rewrite nth_indep with (d' := g 0) by (now rewrite map_length, periods_length). apply map_nth. }
  split; [rewrite periods_length; exact N|]. split; [exact E|].
  apply c86_error in E as (i0 & i1 & I & R & ->); [|exact L|lra].
  assert (C : period_count (1/2) = 12%nat).
  { unfold period_count. replace (- (6 / (1/2))) with (IZR (-12)) by (field_simplify; lra).
    replace (Int_part (IZR (-12))) with (-12)%Z; [reflexivity|].
    unfold Int_part. rewrite <- (tech_up (IZR (-12)) (-11)%Z); [reflexivity|lra|lra]. }
  rewrite C in *.
  assert (i0 = 0)%nat by (apply Nat.le_0_r; apply (R 0%nat); [lia|cbn [INR]; lra]).
  assert (1 <= i1)%nat by (apply (R 1%nat); [lia|cbn [INR]; lra]). subst i0.
  assert (E2 : gb_eta2 (5/100) = 1).
  { unfold gb_eta2. cbv zeta. replace (1 + (5/100 - 5/100) / (8/100 + 16/10 * (5/100))) with 1 by (field; lra). rewrite rltb_t by lra. reflexivity. }
  unfold squared_sum. replace (i1 - 0)%nat with (1 + (i1 - 1))%nat by lia. rewrite rsum_split. cbn [rsum].
  rewrite N by lia. rewrite periods_nth by lia.
  match goal with |- 0 < _ + rsum ?n ?f => assert (NN : 0 <= rsum n f) by (apply rsum_nonneg; intros k Hk; apply Rle_0_sqr) end.
  assert (G1 : g (1/2 + INR (0 + 0) * (1/2)) = 1).
  { cbn [Nat.add INR]. replace (1/2 + 0 * (1/2)) with (1/2) by ring. unfold g, gb50011_at.
    rewrite rltb_f by lra. rewrite rltb_t by lra. rewrite E2. ring. }
  assert (G2 : gb50011_at 1 1 (5/100) (1/2 - 1/2) = 45/100).
  { replace (1/2 - 1/2) with 0 by ring. unfold gb50011_at. rewrite rltb_t by lra. ring. }
  replace (1 / 2 + INR (0 + 0) * (1 / 2) - 1 / 2) with (1/2 - 1/2) by (cbn [Nat.add INR]; ring).
  rewrite G1, G2. lra.
Qed.

Definition steady_file (name : string) (dt : R) : wavefile := WaveFile name dt (map (fun _ => 1) (seq 0 nfft)).

Lemma steady_defined dt : 0 < dt -> exists Sa,
  fft2spec (map (fun _ => 1) (seq 0 nfft)) dt (1/2) (1 * 440) = Some (periods dt, Sa)
  /\ exists e, range_error Sa (gb50011 1 1 (1/2) dt) 0 6 = Some e.
Proof.
  intros Hd. assert (T : top (map (fun _ => 1) (seq 0 nfft)) 1).
  { pose proof nfft_pos. split.
    - apply in_map_iff. exists 0%nat. split; [reflexivity|apply in_seq; lia].
    - intros x Hx. apply in_map_iff in Hx as (? & <- & _). lra. }
  destruct (c85_defined (map (fun _ => 1) (seq 0 nfft)) dt (1/2) (1 * 440) 1) as (Sa & E); try lra; auto.
  exists Sa. split; [exact E|]. apply range_error_defined; try lra.
  apply fft2spec_spec in E. now destruct E as (_ & _ & ag & m & _ & _ & _ & _ & L & _).
Qed.

(** Two files: the selection succeeds. *)
Lemma select_two d n : 0 < d ->
  exists r, select fft2spec [steady_file "a" (1/100); steady_file "b" d] 1 1 (1/2) 0 6 n = Some r.
Proof.
  intros Hd. destruct (steady_defined (1/100)) as (Sa1 & E1 & e1 & R1); [lra|].
  destruct (steady_defined d Hd) as (Sa2 & E2 & e2 & R2).
  unfold select. cbn [select_loop]. unfold select_one, steady_file. cbn [wf_dt wf_samples fst snd].
  rewrite (proj2 (Reqb_t (1/100) (1/100)) eq_refl). cbn [fst snd]. rewrite E1. cbn [bindO]. rewrite R1. cbn [bindO fst].
  assert (St : (if Reqb d (1/100) then (1/100, gb50011 1 1 (1/2) (1/100)) else (d, gb50011 1 1 (1/2) d)) = (d, gb50011 1 1 (1/2) d)).
  { destruct (Reqb d (1/100)) eqn:Q; [|reflexivity]. apply Reqb_t in Q. now rewrite Q. }
  rewrite St. cbn [fst snd]. rewrite E2. cbn [bindO]. rewrite R2. cbn [bindO fst].
  match goal with |- context [mapM ?f ?l] => destruct (mapM_total f l) as (r & Er) end.
  - intros c Hc. exists (periods d, Sa2). rewrite <- E2. f_equal.
    assert (Ic : In c (sort_err [(WaveFile "a" (1/100) (map (fun _ => 1) (seq 0 nfft)), e1); (WaveFile "b" d (map (fun _ => 1) (seq 0 nfft)), e2)])).
    { rewrite <- (firstn_skipn n). apply in_or_app. now left. }
    apply (Permutation_in _ (sort_perm _)) in Ic. destruct Ic as [<-|[<-|[]]]; reflexivity.
  - rewrite Er. cbn [bindO]. now eexists.
Qed.

Lemma c86_curves_fft files amax Tg damp lo hi n chosen curves :
  select fft2spec files amax Tg damp lo hi n = Some (chosen, curves) ->
  Forall2 (fun c curve => fft2spec (wf_samples (fst c)) (last (map wf_dt files) (1/100)) damp (amax * 440) = Some curve)
    chosen curves.
Proof. apply c86_curves. Qed.
Lemma c86_same_fft files amax Tg damp lo hi n chosen curves dt :
  select fft2spec files amax Tg damp lo hi n = Some (chosen, curves) ->
  (forall f, In f files -> wf_dt f = dt) ->
  Forall2 (fun c curve => fft2spec (wf_samples (fst c)) (wf_dt (fst c)) damp (amax * 440) = Some curve) chosen curves.
Proof. apply c86_same. Qed.

(** Records with different steps: the curves drawn are not those of the records. *)
Lemma c86_curves_refuted : exists files amax Tg damp lo hi n chosen curves,
  select fft2spec files amax Tg damp lo hi n = Some (chosen, curves) /\
  ~ Forall2 (fun c curve => fft2spec (wf_samples (fst c)) (wf_dt (fst c)) damp (amax * 440) = Some curve) chosen curves.
Proof.
  destruct (steady_defined (1/100)) as (Sa1 & E1 & _); [lra|]. destruct (steady_defined 1) as (Sa2 & E2 & _); [lra|].
  pose proof (select_two 1 2 ltac:(lra)) as S.
  destruct S as ([chosen curves] & S). exists [steady_file "a" (1/100); steady_file "b" 1], 1, 1, (1/2), 0, 6, 2%nat, chosen, curves.
  split; [exact S|]. intros F. pose proof (c86_curves _ _ _ _ _ _ _ _ _ _ S) as C. cbn [map last steady_file wf_dt] in C.
  destruct (c86_best _ _ _ _ _ _ _ _ _ _ S) as (Ln & _ & rest & P & _ & _). cbn in Ln.
  assert (R0 : rest = []).
  { apply Permutation_length in P. rewrite map_length, app_length, Ln in P. destruct rest; [reflexivity|cbn in P; lia]. }
  subst rest. rewrite app_nil_r in P.
  assert (I : In (steady_file "a" (1/100)) (map fst chosen)) by (apply (Permutation_in _ (Permutation_sym P)); now left).
  apply in_map_iff in I as (c & Ec & I).
  assert (X : exists curve, fft2spec (wf_samples (fst c)) (wf_dt (fst c)) (1/2) (1 * 440) = Some curve /\
     fft2spec (wf_samples (fst c)) 1 (1/2) (1 * 440) = Some curve).
  { clear - F C I. revert F C. generalize curves. induction chosen as [|x l IH]; intros cs F C; [destruct I|].
    inversion F; subst. inversion C; subst. destruct I as [->|I]; [eexists; split; eassumption|]. eapply IH; eauto. }
  destruct X as (curve & X1 & X2). rewrite Ec in X1, X2. cbn [steady_file wf_dt wf_samples] in X1, X2.
  rewrite E1 in X1. rewrite E2 in X2. injection X1 as X1. injection X2 as X2. rewrite <- X2 in X1.
  assert (Q : periods (1/100) = periods 1) by congruence. apply (f_equal (fun l => nth 0 l 0)) in Q.
  rewrite !periods_nth in Q by (apply period_count_pos; lra). cbn [INR] in Q. lra.
Qed.

(** * Envelopes *)
Lemma exp_le_1 x : x <= 0 -> exp x <= 1.
Proof. intros H. rewrite <- exp_0. destruct H as [H| ->]; [left; now apply exp_increasing|right; reflexivity]. Qed.

Lemma c87_range t : 0 <= t -> 0 <= envelope t <= 1.
Proof.
  intros H. unfold envelope. unfold Rltb. destruct (Rlt_dec t 4); [split; [nra|nra]|].
  destruct (Rlt_dec t 15); [lra|]. destruct (Rlt_dec t 40); [|lra].
  split; [left; apply exp_pos|]. apply exp_le_1. nra.
Qed.
Lemma c87_range2 t : 0 < t -> 0 < envelope2 t <= 1.
Proof.
  intros H. unfold envelope2. unfold Rltb. destruct (Rlt_dec 0 t); [|lra].
  destruct (Rlt_dec 10 t); cbn [andb negb].
  - destruct (Rlt_dec t 20); [lra|]. split; [apply exp_pos|]. apply exp_le_1. nra.
  - split; nra.
Qed.

Lemma square_cont c t : continuity_pt (fun x => x * x / c) t.
Proof. apply continuity_pt_mult; [apply continuity_pt_mult; apply derivable_continuous_pt, derivable_pt_id|apply const_cont]. Qed.
Lemma exp_cont a b t : continuity_pt (fun x => exp (a * (x - b))) t.
Proof.
  apply derivable_continuous_pt. exists (exp (a * (t - b)) * a).
  apply (derivable_pt_lim_comp (fun x => a * (x - b)) exp); [|apply derivable_pt_lim_exp].
  apply (lim_ext (fun x => a * x + - (a * b))); [intros; ring|]. apply lim_aff.
Qed.

Lemma c87_continuous : continuous_on (fun t => t < 40) envelope.
Proof.
  intros t H. apply (continuity_pt_locally_ext (glue 4 (fun x => x * x / (4 * 4)) (glue 15 (fun _ => 1) (fun x => exp (- (15/100) * (x - 15))))) _ (40 - t)); [lra| |].
  - intros y Hy. unfold R_dist in Hy. apply Rabs_def2 in Hy as [Hy _]. unfold glue, envelope.
    destruct (Rltb y 4); [reflexivity|]. destruct (Rltb y 15); [reflexivity|]. now rewrite rltb_t by lra.
  - apply glue_cont; [intros _; apply square_cont|intros _; apply glue_cont|].
    + intros _; apply const_cont.
    + intros _; apply exp_cont.
    + replace (- (15/100) * (15 - 15)) with 0 by ring. now rewrite exp_0.
    + unfold glue. rewrite rltb_t by lra. field.
Qed.

Lemma c87_continuous2 : continuous_on (fun t => 0 < t) envelope2.
Proof.
  intros t H. apply (continuity_pt_locally_ext (glue 10 (fun x => x * x / 100) (glue 20 (fun _ => 1) (fun x => exp (- (1/10) * (x - 20))))) _ t); [lra| |].
  - intros y Hy. unfold R_dist in Hy. apply Rabs_def2 in Hy as [_ Hy]. unfold glue, envelope2.
    rewrite (rltb_t 0 y) by lra. cbn [andb]. unfold Rltb.
    destruct (Rlt_dec y 10); destruct (Rlt_dec 10 y); cbn [andb negb]; try lra; try field; try (destruct (Rlt_dec y 20); reflexivity).
    assert (y = 10) by lra. subst y. destruct (Rlt_dec 10 20); [field|lra].
  - apply glue_cont; [intros _; apply square_cont|intros _; apply glue_cont|].
    + intros _; apply const_cont.
    + intros _; apply exp_cont.
    + replace (- (1/10) * (20 - 20)) with 0 by ring. now rewrite exp_0.
    + unfold glue. rewrite rltb_t by lra. field.
Qed.

Lemma c87_jump_refuted : ~ continuity_pt envelope 40.
Proof.
  intros H. assert (P : 0 < exp (- (15/100) * 25)) by apply exp_pos.
  destruct (H (exp (- (15/100) * 25)) P) as (d & Hd & HC). set (h := Rmin (d/2) 1).
  assert (Hh : 0 < h) by (apply Rmin_pos; lra). assert (h <= 1) by apply Rmin_r. assert (h <= d/2) by apply Rmin_l.
  specialize (HC (40 - h)). cbn in HC. unfold R_dist in HC.
  assert (Q : Rabs (envelope (40 - h) - envelope 40) < exp (- (15/100) * 25)).
  { apply HC. split; [split; [exact I|lra]|]. replace (40 - h - 40) with (- h) by ring. rewrite Rabs_Ropp, Rabs_right; lra. }
  unfold envelope in Q. rewrite (rltb_f (40 - h) 4), (rltb_f (40 - h) 15), (rltb_t (40 - h) 40), (rltb_f 40 4), (rltb_f 40 15), (rltb_f 40 40) in Q by lra.
  rewrite Rminus_0_r, Rabs_right in Q by (left; apply exp_pos). 
  apply exp_lt_inv in Q. nra.
Qed.

(** The power spectrum is positive over the frequencies of the script. *)
Lemma c87_power zeta r td st wk : 0 < zeta -> 0 <= r < 1 -> st <> 0 -> 0 < wk -> 3 <= wk * td ->
  0 < power zeta r td st wk.
Proof.
  intros Z R S W T. assert (P := PI_RGT_0). unfold power.
  assert (Td : 0 < wk * td) by lra.
  assert (L : ln ((1 - r) / (wk * td)) <= -1).
  { assert (Q : (1 - r) / (wk * td) <= exp (-1)).
    { apply (Rmult_le_reg_r (wk * td)); [lra|]. unfold Rdiv. rewrite Rmult_assoc, Rinv_l, Rmult_1_r by lra.
      assert (E3 : 1/3 <= exp (-1)).
      { replace (-1) with (- (1)) by ring. rewrite exp_Ropp. replace (1/3) with (/ 3) by field. apply Rinv_le_contravar; [apply exp_pos|apply exp_le_3]. }
      nra. }
    rewrite <- (ln_exp (-1)). destruct Q as [Q|Q]; [left; apply ln_increasing; [apply Rdiv_lt_0_compat; lra|exact Q]|rewrite Q; right; reflexivity]. }
  assert (P1 : 1 < PI) by (pose proof PI2_3_2; unfold PI2 in *; lra).
  assert (N : 0 < ln (- PI * ln ((1 - r) / (wk * td)))).
  { rewrite <- ln_1. apply ln_increasing; nra. }
  apply Rdiv_lt_0_compat; [|exact N]. apply Rmult_lt_0_compat; [apply Rdiv_lt_0_compat; nra|].
  assert (0 < st * st) by (destruct (Rdichotomy _ _ S); nra). assumption.
Qed.
