(** Proofs about sampled curves. *)
From Coq Require Import Reals List String Arith Bool ZArith Lra Lia.
From Verif Require Import Base BaseFacts Load Curve SpecCurve.
Import ListNotations.
Local Open Scope R_scope.

Lemma ceiling_whole n : ceiling (IZR n) = n.
Proof.
  unfold ceiling. assert (U : up (- IZR n) = (- n + 1)%Z).
  { symmetry. apply tech_up; rewrite plus_IZR, opp_IZR; lra. }
  rewrite U. lia.
Qed.
Lemma arange_some n dt : dt <> 0 -> arange (IZR n * dt) dt = Some (map (fun k => INR k * dt) (seq 0 (Z.to_nat n))).
Proof.
  intro D. unfold arange. destruct (Reqb dt 0) eqn:E; [apply Reqb_true in E; contradiction|].
  replace (IZR n * dt / dt) with (IZR n) by (field; exact D). rewrite ceiling_whole. reflexivity.
Qed.
Lemma sampled_samples g dt n : samples g dt n (map (fun k => INR k * dt) (seq 0 n), map g (map (fun k => INR k * dt) (seq 0 n))).
Proof.
  unfold samples. cbn [fst snd]. rewrite !map_length, seq_length. split; [reflexivity|]. split; [reflexivity|]. intros k Hk.
  assert (E : nth_error (map (fun k => INR k * dt) (seq 0 n)) k = Some (INR k * dt)).
  { rewrite nth_error_map. assert (Q : nth_error (seq 0 n) k = Some k).
    { rewrite (nth_error_nth' (seq 0 n) O) by (rewrite seq_length; exact Hk). rewrite seq_nth by exact Hk. reflexivity. }
    rewrite Q. reflexivity. }
  split; [exact E|]. rewrite nth_error_map, E. reflexivity.
Qed.
Lemma c137_sin : forall A w phi dt n, dt <> 0 -> exists c, curve_sin A w phi dt n = Some c
  /\ samples (fun t => A * sin (w * t + phi)) dt (Z.to_nat n) c /\ forall y, In y (snd c) -> Rabs y <= Rabs A.
Proof.
  intros A w phi dt n D. unfold curve_sin. rewrite (arange_some n dt D). cbn [bindO]. eexists. split; [reflexivity|].
  split; [apply sampled_samples|]. cbn [snd]. intros y H. apply in_map_iff in H as (t & <- & _). rewrite Rabs_mult.
  rewrite <- (Rmult_1_r (Rabs A)) at 2. apply Rmult_le_compat_l; [apply Rabs_pos|]. apply Rabs_le. apply SIN_bound.
Qed.
Lemma c137_cos : forall A w phi dt n, dt <> 0 -> exists c, curve_cos A w phi dt n = Some c
  /\ samples (fun t => A * cos (w * t + phi)) dt (Z.to_nat n) c /\ curve_sin A w (phi + PI / 2) dt n = Some c.
Proof.
  intros A w phi dt n D. unfold curve_cos, curve_sin. rewrite (arange_some n dt D). cbn [bindO]. eexists. split; [reflexivity|].
  split; [apply sampled_samples|]. apply (f_equal (@Some sampled)). apply (f_equal2 (@pair (list R) (list R)) eq_refl). apply map_ext. intro t. f_equal. rewrite cos_sin. f_equal. ring.
Qed.
Lemma c137_zero : forall A w phi n, curve_sin A w phi 0 n = None /\ curve_cos A w phi 0 n = None.
Proof. intros. unfold curve_sin, curve_cos, arange. rewrite (proj2 (Reqb_true 0 0) eq_refl). split; reflexivity. Qed.

Lemma steps_fold : forall l a b, let r := fold_left (fun (acc : nat * option nat) (v : list R * list R) =>
      (Nat.max (fst acc) (List.length (snd v)), Some (match snd acc with None => List.length (snd v) | Some m => Nat.min m (List.length (snd v)) end))) l (a, Some b) in
  exists m, snd r = Some m /\ (m <= b)%nat /\ (forall v, In v l -> (m <= List.length (snd v))%nat) /\ (m = b \/ exists v, In v l /\ List.length (snd v) = m).
Proof.
  induction l as [|v l IH]; intros a b; cbn [fold_left fst snd].
  - exists b. split; [reflexivity|]. split; [lia|]. split; [intros v []|left; reflexivity].
  - destruct (IH (Nat.max a (List.length (snd v))) (Nat.min b (List.length (snd v)))) as (m & E & L & A & W). exists m.
    split; [exact E|]. split; [lia|]. split; [intros u [<-|H]; [lia|exact (A u H)]|].
    destruct W as [->|(u & H & Q)]; [|right; exists u; split; [right; exact H|exact Q]].
    destruct (Nat.min_spec b (List.length (snd v))) as [(H & Q)|(H & Q)]; [left; exact Q|right; exists v; split; [left; reflexivity|symmetry; exact Q]].
Qed.
Lemma c137_steps : forall c, match snd (case_max_min_step c) with None => c_curve c = [] | Some m => least_values c m end.
Proof.
  intros c. unfold case_max_min_step, dvals, least_values. destruct (c_curve c) as [|[k v] l]; [reflexivity|]. cbn [map fold_left fst snd].
  destruct (steps_fold (map snd l) (Nat.max 0 (List.length (snd v))) (List.length (snd v))) as (m & E & L & A & W). rewrite E. split.
  - destruct W as [->|(u & H & Q)]; [exists (k, v); split; [left; reflexivity|reflexivity]|].
    apply in_map_iff in H as ((k' & u') & <- & H). exists (k', u'). split; [right; exact H|exact Q].
  - intros p [<-|H]; [exact L|]. apply (A (snd p)). apply in_map. exact H.
Qed.
