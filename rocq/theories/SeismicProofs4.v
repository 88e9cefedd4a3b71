(** Proofs for the choice of records and for the envelopes. *)
From Coq Require Import Reals List Arith Lia Lra ZArith String Bool Sorting.Permutation Sorting.Sorted.
From Verif Require Import Base BaseFacts Spectrum SpectrumProofs Seismic SpecSeismic SeismicProofs SeismicProofs2 SeismicProofs3.
Import ListNotations.
Local Open Scope R_scope.

(** * Sorting *)
Definition err_le (a b : wavefile * R) : Prop := snd a <= snd b.

Lemma insert_perm x l : Permutation (insert_err x l) (x :: l).
Proof.
  induction l as [|y l IH]; [reflexivity|]. cbn. destruct (Rltb (snd y) (snd x)); [|reflexivity].
  rewrite IH. apply perm_swap.
Qed.
Lemma sort_perm l : Permutation (sort_err l) l.
Proof. induction l; [reflexivity|]. cbn. rewrite insert_perm. now constructor. Qed.
Lemma insert_sorted x l : StronglySorted err_le l -> StronglySorted err_le (insert_err x l).
Proof.
  induction 1 as [|y l S IH F]; [repeat constructor|]. cbn.
  destruct (Rltb (snd y) (snd x)) eqn:E; unfold Rltb in E; destruct (Rlt_dec (snd y) (snd x)) as [L|L]; try discriminate.
  - constructor; [exact IH|]. rewrite Forall_forall in *. intros z Hz.
    apply (Permutation_in _ (insert_perm x l)) in Hz as [<-|Hz]; [unfold err_le; lra|now apply F].
  - constructor; [now constructor|]. constructor; [unfold err_le; lra|].
    rewrite Forall_forall in *. intros z Hz. specialize (F z Hz). unfold err_le in *. lra.
Qed.
Lemma sort_sorted l : StronglySorted err_le (sort_err l).
Proof. induction l; [constructor|]. now apply insert_sorted. Qed.

Lemma sorted_split (l : list (wavefile * R)) n : StronglySorted err_le l ->
  StronglySorted err_le (firstn n l) /\ forall a b, In a (firstn n l) -> In b (skipn n l) -> err_le a b.
Proof.
  intros S. revert n. induction S as [|x l S IH F]; intros n.
  - rewrite firstn_nil, skipn_nil. split; [constructor|intros a b []].
  - destruct n; [cbn; split; [constructor|intros a b []]|]. cbn [firstn skipn].
    destruct (IH n) as [A B]. rewrite Forall_forall in F. split.
    + constructor; [exact A|]. rewrite Forall_forall. intros y Hy. apply F.
      rewrite <- (firstn_skipn n l). apply in_or_app. now left.
    + intros a b [<-|Ha] Hb; [|now apply B]. apply F.
      rewrite <- (firstn_skipn n l). apply in_or_app. now right.
Qed.

Lemma last_cons {A} (a : A) l d : last (a :: l) d = last l a.
Proof.
  revert a d. induction l as [|b l IH]; intros a d; [reflexivity|].
  change (last (b :: l) d = last (b :: l) a). now rewrite !IH.
Qed.

(** * The loop *)
Section Select.
Variable spec : list R -> R -> R -> R -> option (list R * list R).
Variables amax Tg damp lo hi : R.

(** The error of a record, from its own step *)
Definition own_error (f : wavefile) (e : R) : Prop :=
  exists T Sa, spec (wf_samples f) (wf_dt f) damp (amax * 440) = Some (T, Sa) /\
    range_error Sa (gb50011 amax Tg damp (wf_dt f)) lo hi = Some e.

Lemma loop_spec fs : forall st st' es, snd st = gb50011 amax Tg damp (fst st) ->
  select_loop spec amax Tg damp lo hi st fs = Some (st', es) ->
  map fst es = fs /\ Forall (fun fe => own_error (fst fe) (snd fe)) es /\
  fst st' = last (map wf_dt fs) (fst st).
Proof.
  induction fs as [|f fs IH]; intros st st' es I H; cbn [select_loop] in H.
  - injection H as <- <-. repeat split; constructor.
  - unfold bindO at 1 in H. destruct (select_one spec amax Tg damp lo hi st f) as [[st1 e]|] eqn:O; [|discriminate].
    unfold bindO in H. destruct (select_loop spec amax Tg damp lo hi st1 fs) as [[st2 es']|] eqn:L; [|discriminate].
    injection H as <- <-. unfold select_one in O. cbv zeta in O.
    set (st0 := if Reqb (wf_dt f) (fst st) then st else (wf_dt f, gb50011 amax Tg damp (wf_dt f))) in O.
    assert (I0 : fst st0 = wf_dt f /\ snd st0 = gb50011 amax Tg damp (wf_dt f)).
    { unfold st0. destruct (Reqb (wf_dt f) (fst st)) eqn:E; [|now split].
      apply Reqb_t in E. rewrite I, E. now split. }
    destruct I0 as [I1 I2]. unfold bindO in O.
    destruct (spec (wf_samples f) (fst st0) damp (amax * 440)) as [[T Sa]|] eqn:S; [|discriminate].
    destruct (range_error Sa (snd st0) lo hi) as [er|] eqn:R; [|discriminate]. injection O as <- <-.
    rewrite I1 in S. rewrite I2 in R.
    destruct (IH st0 st2 es') as (A & B & C); [now rewrite I1, I2|exact L|]. cbn [map].
    split; [now rewrite <- A|]. split; [constructor; [exists T, Sa; now split|exact B]|].
    rewrite C, I1. symmetry. apply last_cons.
Qed.

(** The chosen records have the least errors, in rising order. *)
Lemma c86_best files n chosen curves : select spec files amax Tg damp lo hi n = Some (chosen, curves) ->
  List.length chosen = min n (List.length files) /\ StronglySorted err_le chosen /\
  exists rest, Permutation (map fst (chosen ++ rest)) files /\
    Forall (fun fe => own_error (fst fe) (snd fe)) (chosen ++ rest) /\
    forall a b, In a chosen -> In b rest -> snd a <= snd b.
Proof.
  unfold select, bindO at 1.
  destruct (select_loop spec amax Tg damp lo hi (1/100, gb50011 amax Tg damp (1/100)) files) as [[st mse]|] eqn:L; [|discriminate].
  unfold bindO. destruct (mapM _ _) as [cs|] eqn:M; [|discriminate]. intros [= <- <-].
  apply loop_spec in L as (A & B & _); [|reflexivity].
  assert (Len : List.length (sort_err mse) = List.length files).
  { rewrite (Permutation_length (sort_perm mse)), <- A. now rewrite map_length. }
  destruct (sorted_split (sort_err mse) n (sort_sorted mse)) as [S1 S2].
  split; [now rewrite firstn_length, Len|]. split; [exact S1|].
  exists (skipn n (sort_err mse)). rewrite firstn_skipn. split; [|split].
  - rewrite <- A. apply Permutation_map, sort_perm.
  - rewrite Forall_forall in *. intros x Hx. apply B. now apply (Permutation_in _ (sort_perm mse)).
  - exact S2.
Qed.

(** The curve drawn for a chosen record is computed with the step of the last file. *)
Lemma c86_curves files n chosen curves : select spec files amax Tg damp lo hi n = Some (chosen, curves) ->
  Forall2 (fun c curve => spec (wf_samples (fst c)) (last (map wf_dt files) (1/100)) damp (amax * 440) = Some curve) chosen curves.
Proof.
  unfold select, bindO at 1.
  destruct (select_loop spec amax Tg damp lo hi (1/100, gb50011 amax Tg damp (1/100)) files) as [[st mse]|] eqn:L; [|discriminate].
  unfold bindO. destruct (mapM _ _) as [cs|] eqn:M; [|discriminate]. intros [= <- <-].
  apply loop_spec in L as (_ & _ & C); [|reflexivity]. apply mapM_inv in M. rewrite C in M. exact M.
Qed.

Lemma last_same (l : list R) d x : (forall y, In y l -> y = x) -> l <> [] -> last l d = x.
Proof.
  induction l as [|a l IH]; intros H N; [congruence|]. destruct l as [|b l]; [apply H; now left|].
  change (last (b :: l) d = x). apply IH; [intros y Hy; apply H; now right|congruence].
Qed.

Lemma c86_same files n chosen curves dt : select spec files amax Tg damp lo hi n = Some (chosen, curves) ->
  (forall f, In f files -> wf_dt f = dt) ->
  Forall2 (fun c curve => spec (wf_samples (fst c)) (wf_dt (fst c)) damp (amax * 440) = Some curve) chosen curves.
Proof.
  intros H D. pose proof (c86_curves _ _ _ _ H) as C. destruct (c86_best _ _ _ _ H) as (_ & _ & rest & P & _ & _).
  assert (I : forall c, In c chosen -> In (fst c) files).
  { intros c Hc. apply (Permutation_in _ P). apply in_map. apply in_or_app. now left. }
  clear H P. induction C as [|c cv cs cvs E C IH]; constructor.
  - rewrite (D (fst c)) by (apply I; now left). rewrite (last_same _ _ dt) in E; [exact E| |].
    + intros y Hy. apply in_map_iff in Hy as (f & <- & Hf). now apply D.
    + intros Z. apply map_eq_nil in Z. specialize (I c (or_introl eq_refl)). rewrite Z in I. exact I.
  - apply IH. intros x Hx. apply I. now right.
Qed.
End Select.

(** * The error *)
Lemma seq_sorted a n : StronglySorted lt (seq a n).
Proof.
  revert a. induction n; intros a; cbn; constructor; [apply IHn|].
  rewrite Forall_forall. intros x Hx. apply in_seq in Hx. lia.
Qed.
Lemma filter_sorted (P : nat -> bool) l : StronglySorted lt l -> StronglySorted lt (filter P l).
Proof.
  induction 1 as [|x l S IH F]; [constructor|]. cbn. destruct (P x); [|exact IH].
  constructor; [exact IH|]. rewrite Forall_forall in *. intros y Hy. apply F. now apply filter_In in Hy.
Qed.
Lemma last_in (l : list nat) d : l <> [] -> In (last l d) l.
Proof.
  induction l as [|a l IH]; intros N; [congruence|]. destruct l as [|b l]; [now left|].
  right. apply IH. congruence.
Qed.
Lemma last_max l d x : StronglySorted lt l -> In x l -> (x <= last l d)%nat.
Proof.
  induction 1 as [|a l S IH F]; intros H; [destruct H|]. destruct l as [|b l].
  - destruct H as [<-|[]]. cbn. lia.
  - change (x <= last (b :: l) d)%nat. destruct H as [<-|H]; [|now apply IH].
    rewrite Forall_forall in F. assert (a < last (b :: l) d)%nat by (apply F, last_in; congruence). lia.
Qed.
Lemma slice_map (l : list R) d k : (d + k <= List.length l)%nat ->
  firstn k (skipn d l) = map (fun i => nth (d + i) l 0) (seq 0 k).
Proof.
  intros H. apply nth_ext with (d := 0) (d' := 0).
  - rewrite firstn_length, skipn_length, map_length, seq_length. lia.
  - intros i Hi. rewrite firstn_length, skipn_length in Hi. rewrite nth_map_seq by lia.
    rewrite <- (firstn_skipn d l) at 2. rewrite app_nth2; rewrite firstn_length; [|lia].
    replace (d + i - min d (List.length l))%nat with i by lia.
    rewrite <- (firstn_skipn k (skipn d l)) at 2. rewrite app_nth1; [reflexivity|]. rewrite firstn_length, skipn_length. lia.
Qed.
Lemma combine_map {A B C} (f : A -> B) (g : A -> C) l : combine (map f l) (map g l) = map (fun x => (f x, g x)) l.
Proof. induction l; cbn; congruence. Qed.

Lemma gb50011_length alpha Tg xi dt : List.length (gb50011 alpha Tg xi dt) = period_count dt.
Proof. unfold gb50011. now rewrite map_length, seq_length. Qed.
Lemma gb50011_nth alpha Tg xi dt i d : (i < period_count dt)%nat ->
  nth i (gb50011 alpha Tg xi dt) d = (INR i * dt, gb50011_at alpha Tg xi (INR i * dt)).
Proof. intros H. exact (nth_map_seq (fun k => let t := INR k * dt in (t, gb50011_at alpha Tg xi t)) _ _ d H). Qed.

(** Each ordinate is compared with the target of the sample before, and the last sample of
    the range is left out. *)
Lemma c86_error Sa alpha Tg xi dt lo hi e : List.length Sa = period_count dt -> 0 < dt ->
  range_error Sa (gb50011 alpha Tg xi dt) lo hi = Some e ->
  exists i0 i1, (i0 <= i1 < period_count dt)%nat /\
    (forall i, (i < period_count dt)%nat -> (lo <= INR i * dt <= hi <-> (i0 <= i <= i1)%nat)) /\
    e = squared_sum i0 i1 (fun i => nth i Sa 0) (fun i => gb50011_at alpha Tg xi (nth i (periods dt) 0 - dt)).
Proof.
  intros L D. unfold range_error. rewrite gb50011_length.
  set (P := fun i => let t := fst (nth i (gb50011 alpha Tg xi dt) (0, 0)) in andb (negb (Rltb t lo)) (negb (Rltb hi t))).
  set (domain := filter P (seq 0 (period_count dt))).
  assert (HP : forall i, (i < period_count dt)%nat -> (P i = true <-> lo <= INR i * dt <= hi)).
  { intros i Hi. unfold P. cbv zeta. rewrite gb50011_nth by exact Hi. cbn [fst]. unfold Rltb.
    destruct (Rlt_dec (INR i * dt) lo); destruct (Rlt_dec hi (INR i * dt)); cbn; split; intros; try lra; try discriminate; auto. }
  assert (In_dom : forall i, In i domain <-> (i < period_count dt)%nat /\ P i = true).
  { intros i. unfold domain. rewrite filter_In, in_seq. split; intros [A B]; split; auto; lia. }
  assert (Srt : StronglySorted lt domain) by (apply filter_sorted, seq_sorted).
  destruct domain as [|d0 r] eqn:Ed; [discriminate|].
  set (d1 := last (d0 :: r) d0). 
  assert (I0 : In d0 (d0 :: r)) by now left. assert (I1 : In d1 (d0 :: r)) by (apply last_in; congruence).
  apply In_dom in I0 as [I0 P0]. apply In_dom in I1 as [I1 P1].
  apply (HP d0 I0) in P0. apply (HP d1 I1) in P1.
  assert (Le : (d0 <= d1)%nat) by (apply last_max; [exact Srt|now left]).
  assert (Ly : List.length (map snd (gb50011 alpha Tg xi dt)) = period_count dt) by now rewrite map_length, gb50011_length.
  destruct (Nat.eqb _ _); [|discriminate]. intros [= <-].
  exists d0, d1. split; [lia|]. split.
  - intros i Hi. split.
    + intros Hr. apply (HP i Hi) in Hr. assert (Hin : In i (d0 :: r)) by (apply In_dom; now split).
      split; [|apply last_max; auto].
      inversion Srt as [|? ? S F]; subst. destruct Hin as [<-|Hin]; [lia|]. rewrite Forall_forall in F. specialize (F i Hin). lia.
    + intros [A B]. apply le_INR in A, B. nra.
  - unfold square_err. rewrite !slice_map by lia. rewrite combine_map, map_map. rewrite lsum_seq.
    unfold squared_sum. apply rsum_ext. intros k Hk.
    rewrite periods_nth by lia. change 0 with (snd (0, 0)) at 2. rewrite map_nth. rewrite gb50011_nth by lia. cbn [snd].
    replace (dt + INR (d0 + k) * dt - dt) with (INR (d0 + k) * dt) by ring.
    replace (nth (d0 + k) (map snd (gb50011 alpha Tg xi dt)) 0) with (gb50011_at alpha Tg xi (INR (d0 + k) * dt)) in *; [reflexivity|].
    change 0 with (snd (0, 0)). rewrite map_nth. now rewrite gb50011_nth by lia.
Qed.
