(** Proofs for scaling of records and for the Duhamel sum. *)
From Coq Require Import Reals List Arith Lia Lra ZArith String.
From Verif Require Import Base BaseFacts Spectrum Seismic SpecSeismic.
Import ListNotations.
Local Open Scope R_scope.

Lemma fold_max_spec r : forall x, let m := fold_left Rmax r x in
  (m = x \/ In m r) /\ x <= m /\ forall y, In y r -> y <= m.
Proof.
  induction r as [|a r IH]; intros x; cbn.
  - split; [now left|]. split; [lra|]. intros y [].
  - destruct (IH (Rmax x a)) as (A & B & C). set (m := fold_left Rmax r (Rmax x a)) in *.
    split; [|split].
    + destruct A as [A|A]; [|right; now right].
      destruct (Rle_dec x a).
      * rewrite Rmax_right in A by lra. right; left; now symmetry.
      * rewrite Rmax_left in A by lra. left; exact A.
    + pose proof (Rmax_l x a). lra.
    + intros y [<-|Hy]; [pose proof (Rmax_r x a); lra|now apply C].
Qed.

Lemma max_of_top l m : max_of l = Some m <-> top l m.
Proof.
  destruct l as [|x r]; cbn.
  - split; [discriminate|intros [[] _]].
  - destruct (fold_max_spec r x) as (A & B & C). set (k := fold_left Rmax r x) in *. split.
    + intros [= <-]. split; [destruct A as [A|A]; [left; now symmetry|now right]|].
      intros y [<-|Hy]; [exact B|now apply C].
    + intros [[I|I] L]; f_equal.
      * subst m. apply Rle_antisym; [|exact B]. apply L. destruct A as [A|A]; [left; now symmetry|now right].
      * apply Rle_antisym; [|now apply C]. apply L. destruct A as [A|A]; [left; now symmetry|now right].
Qed.

Lemma max_of_none l : max_of l = None <-> l = [].
Proof. destruct l; cbn; split; congruence. Qed.

Lemma max_of_some l : l <> [] -> exists m, max_of l = Some m.
Proof. destruct l; [congruence|]. intros _. now eexists. Qed.

Lemma Reqb_t x y : Reqb x y = true <-> x = y.
Proof. unfold Reqb. destruct (Req_EM_T x y); split; congruence. Qed.
Lemma Reqb_f x y : Reqb x y = false <-> x <> y.
Proof. unfold Reqb. destruct (Req_EM_T x y); split; congruence. Qed.

Lemma top_unique l m n : top l m -> top l n -> m = n.
Proof. intros [A B] [C D]. apply Rle_antisym; auto. Qed.

(** The scaled record is the record times one number. *)
Lemma c83_shape wave a_max out : amptitude wave a_max = Some out ->
  exists m, top wave m /\ m <> 0 /\ out = map (fun x => a_max / m * x) wave.
Proof.
  unfold amptitude, bindO. destruct (max_of wave) as [m|] eqn:E; [|discriminate].
  destruct (Reqb m 0) eqn:Z; [discriminate|]. intros [= <-].
  exists m. apply max_of_top in E. apply Reqb_f in Z. repeat split; try apply E; try exact Z.
  apply map_ext. intros x. field. exact Z.
Qed.

Lemma c83_shape_record ag a_max out : scale_record ag a_max = Some out ->
  exists m, top ag m /\ m <> 0 /\ out = map (fun x => a_max / 100 / m * x) ag.
Proof.
  unfold scale_record, bindO. destruct (max_of ag) as [m|] eqn:E; [|discriminate].
  destruct (Reqb m 0) eqn:Z; [discriminate|]. intros [= <-].
  exists m. apply max_of_top in E. apply Reqb_f in Z. repeat split; try apply E; try exact Z.
  apply map_ext. intros x. field. exact Z.
Qed.

Lemma top_scaled wave m c : top wave m -> 0 <= c -> top (map (fun x => c * x) wave) (c * m).
Proof.
  intros [A B] C. split; [now apply (in_map (fun x => c * x))|].
  intros x Hx. apply in_map_iff in Hx as (y & <- & Hy). apply Rmult_le_compat_l; auto.
Qed.

Lemma c83_top wave a_max out m : amptitude wave a_max = Some out -> top wave m -> 0 < m -> 0 <= a_max ->
  top out a_max.
Proof.
  intros H T M A. apply c83_shape in H as (m' & T' & Z & ->). rewrite (top_unique _ _ _ T' T) in *.
  pose proof (top_scaled wave m (a_max / m) T) as K.
  replace (a_max / m * m) with a_max in K by (field; lra). apply K.
  apply Rmult_le_pos; [exact A|]. left. now apply Rinv_0_lt_compat.
Qed.

Lemma c83_top_record ag a_max out m : scale_record ag a_max = Some out -> top ag m -> 0 < m -> 0 <= a_max ->
  top out (a_max / 100).
Proof.
  intros H T M A. apply c83_shape_record in H as (m' & T' & Z & ->). rewrite (top_unique _ _ _ T' T) in *.
  pose proof (top_scaled ag m (a_max / 100 / m) T) as K.
  replace (a_max / 100 / m * m) with (a_max / 100) in K by (field; lra). apply K.
  apply Rmult_le_pos; [lra|]. left. now apply Rinv_0_lt_compat.
Qed.

(** If the peak of the record is positive, the scaled record has the peak asked for. *)
Lemma c83_peak wave a_max out m : amptitude wave a_max = Some out -> top wave m -> peak wave m -> 0 <= a_max ->
  peak out a_max.
Proof.
  intros H T [(x0 & I0 & E0) P] A. apply c83_shape in H as (m' & T' & Z & ->). rewrite (top_unique _ _ _ T' T) in *.
  assert (M : 0 < m) by (pose proof (Rabs_pos x0); lra).
  assert (C : 0 <= a_max / m) by (apply Rmult_le_pos; [exact A|]; left; now apply Rinv_0_lt_compat).
  split.
  - exists (a_max / m * m). split; [apply (in_map (fun x => a_max / m * x)); apply T|].
    replace (a_max / m * m) with a_max by (field; lra). now apply Rabs_pos_eq.
  - intros y Hy. apply in_map_iff in Hy as (x & <- & Hx).
    rewrite Rabs_mult, (Rabs_pos_eq _ C). replace a_max with (a_max / m * m) at 2 by (field; lra).
    apply Rmult_le_compat_l; auto.
Qed.

Lemma c83_peak_record ag a_max out m : scale_record ag a_max = Some out -> top ag m -> peak ag m -> 0 <= a_max ->
  peak out (a_max / 100).
Proof.
  intros H T [(x0 & I0 & E0) P] A. apply c83_shape_record in H as (m' & T' & Z & ->). rewrite (top_unique _ _ _ T' T) in *.
  assert (M : 0 < m) by (pose proof (Rabs_pos x0); lra).
  assert (C : 0 <= a_max / 100 / m) by (apply Rmult_le_pos; [lra|]; left; now apply Rinv_0_lt_compat).
  split.
  - exists (a_max / 100 / m * m). split; [apply (in_map (fun x => a_max / 100 / m * x)); apply T|].
    replace (a_max / 100 / m * m) with (a_max / 100) by (field; lra). apply Rabs_pos_eq. lra.
  - intros y Hy. apply in_map_iff in Hy as (x & <- & Hx).
    rewrite Rabs_mult, (Rabs_pos_eq _ C). replace (a_max / 100) with (a_max / 100 / m * m) at 2 by (field; lra).
    apply Rmult_le_compat_l; auto.
Qed.

Lemma c83_defined wave a_max : (exists out, amptitude wave a_max = Some out) <-> exists m, top wave m /\ m <> 0.
Proof.
  split.
  - intros (out & H). apply c83_shape in H as (m & T & Z & _). now exists m.
  - intros (m & T & Z). unfold amptitude. apply max_of_top in T. rewrite T. cbn.
    apply Reqb_f in Z. rewrite Z. now eexists.
Qed.

(** A record whose peak is negative is scaled to another peak. *)
Lemma c83_refuted : exists wave a_max out p q,
  amptitude wave a_max = Some out /\ peak wave p /\ 0 < a_max /\ peak out q /\ q <> a_max.
Proof.
  exists [1; -2], 1, [1; -2], 2, 2. split.
  { unfold amptitude, max_of, bindO, fold_left. rewrite Rmax_left by lra.
    replace (Reqb 1 0) with false by (symmetry; apply Reqb_f; lra). cbn. do 3 f_equal; [field|f_equal; field]. }
  assert (P : peak [1; -2] 2).
  { split; [exists (-2); split; [cbn; auto|rewrite Rabs_left; lra]|].
    intros x [<-|[<-|[]]]; [rewrite Rabs_pos_eq|rewrite Rabs_left]; lra. }
  repeat split; try apply P; lra.
Qed.

(** A record below zero is turned over as well. *)
Lemma c83_turned wave a_max out m : amptitude wave a_max = Some out -> top wave m -> m < 0 -> 0 < a_max ->
  forall x, In x out -> a_max <= x.
Proof.
  intros H T M A y Hy. apply c83_shape in H as (m' & T' & Z & ->). rewrite (top_unique _ _ _ T' T) in *.
  apply in_map_iff in Hy as (x & <- & Hx). destruct T as [_ T]. specialize (T x Hx).
  replace (a_max / m * x) with (a_max * (x / m)) by (field; lra).
  assert (1 <= x / m). { apply (Rmult_le_reg_r (- m)); [lra|].
    replace (x / m * - m) with (- x) by (field; lra). lra. }
  nra.
Qed.

(** * The Duhamel sum *)

Lemma lim_lin a t : derivable_pt_lim (fun s => a * s) t a.
Proof.
  pose proof (derivable_pt_lim_scal id a t 1 (derivable_pt_lim_id t)) as H.
  rewrite Rmult_1_r in H. exact H.
Qed.
Lemma lim_aff a b t : derivable_pt_lim (fun s => a * s + b) t a.
Proof.
  pose proof (derivable_pt_lim_plus (fun s => a * s) (fun _ => b) t a 0 (lim_lin a t) (derivable_pt_lim_const b t)) as H.
  rewrite Rplus_0_r in H. exact H.
Qed.
Lemma lim_exp a t : derivable_pt_lim (fun s => exp (a * s)) t (a * exp (a * t)).
Proof.
  replace (a * exp (a * t)) with (exp (a * t) * a) by ring.
  apply (derivable_pt_lim_comp (fun s => a * s) exp); [|apply derivable_pt_lim_exp].
  apply lim_lin.
Qed.
Lemma lim_sin a b t : derivable_pt_lim (fun s => sin (a * s + b)) t (a * cos (a * t + b)).
Proof.
  replace (a * cos (a * t + b)) with (cos (a * t + b) * a) by ring.
  apply (derivable_pt_lim_comp (fun s => a * s + b) sin); [|apply derivable_pt_lim_sin].
  apply lim_aff.
Qed.
Lemma lim_cos a b t : derivable_pt_lim (fun s => cos (a * s + b)) t (- a * sin (a * t + b)).
Proof.
  replace (- a * sin (a * t + b)) with (- sin (a * t + b) * a) by ring.
  apply (derivable_pt_lim_comp (fun s => a * s + b) cos); [|apply derivable_pt_lim_cos].
  apply lim_aff.
Qed.
Lemma lim_ext f g t l : (forall s, f s = g s) -> derivable_pt_lim f t l -> derivable_pt_lim g t l.
Proof.
  intros E H eps He. destruct (H eps He) as (d & D). exists d. intros h h0 hd.
  rewrite <- !E. now apply D.
Qed.

(** [exp (a s) (B cos (b s) + C sin (b s))] and its derivative *)
Lemma lim_damped a b B C t :
  derivable_pt_lim (fun s => exp (a * s) * (B * cos (b * s) + C * sin (b * s))) t
    (exp (a * t) * ((a * B + b * C) * cos (b * t) + (a * C - b * B) * sin (b * t))).
Proof.
  apply (lim_ext (fun s => exp (a * s) * (B * cos (b * s + 0) + C * sin (b * s + 0)))).
  { intros s. now rewrite Rplus_0_r. }
  replace (exp (a * t) * ((a * B + b * C) * cos (b * t) + (a * C - b * B) * sin (b * t)))
    with (a * exp (a * t) * (B * cos (b * t + 0) + C * sin (b * t + 0)) +
          exp (a * t) * (B * (- b * sin (b * t + 0)) + C * (b * cos (b * t + 0))))
    by (rewrite Rplus_0_r; ring).
  apply (derivable_pt_lim_mult (fun s => exp (a * s)) (fun s => B * cos (b * s + 0) + C * sin (b * s + 0)));
    [apply lim_exp|].
  apply (derivable_pt_lim_plus (fun s => B * cos (b * s + 0)) (fun s => C * sin (b * s + 0))).
  - apply (derivable_pt_lim_scal (fun s => cos (b * s + 0)) B). apply lim_cos.
  - apply (derivable_pt_lim_scal (fun s => sin (b * s + 0)) C). apply lim_sin.
Qed.

(** The answer to an impulse is the free motion that starts at rest position with unit velocity. *)
Lemma c84_impulse w z : w <> 0 -> z * z < 1 ->
  oscillates w z (fun _ => 0) (impulse w z) /\ impulse w z 0 = 0 /\ derivable_pt_lim (impulse w z) 0 1.
Proof.
  intros W Z. set (d := sqrt (1 - z * z)).
  assert (D2 : d * d = 1 - z * z) by (apply sqrt_sqrt; lra).
  assert (D : d <> 0) by (intros E; rewrite E in D2; lra).
  set (b := w * d). assert (Bn : b <> 0) by (unfold b; now apply Rmult_integral_contrapositive).
  set (a := - z * w).
  assert (F : forall s, exp (a * s) * (0 * cos (b * s) + (1 / b) * sin (b * s)) = impulse w z s).
  { intros s. unfold impulse. fold d b a. field. exact Bn. }
  assert (L1 : forall t, derivable_pt_lim (impulse w z) t
     (exp (a * t) * (1 * cos (b * t) + (a / b) * sin (b * t)))).
  { intros t. apply (lim_ext _ _ _ _ F).
    replace (exp (a * t) * (1 * cos (b * t) + (a / b) * sin (b * t)))
      with (exp (a * t) * ((a * 0 + b * (1 / b)) * cos (b * t) + (a * (1 / b) - b * 0) * sin (b * t)))
      by (field; exact Bn).
    apply lim_damped. }
  split; [|split].
  - eexists. exists (fun t => exp (a * t) * ((a * 1 + b * (a / b)) * cos (b * t) + (a * (a / b) - b * 1) * sin (b * t))).
    split; [exact L1|]. split; [intros t; apply lim_damped|].
    intros t. rewrite <- F. cbn beta. 
    replace (b * (a / b)) with a by (field; exact Bn).
    assert (S1 : w * w = b * b + a * a) by (unfold a, b; nra).
    replace (2 * z * w) with (- 2 * a) by (unfold a; ring). rewrite S1. field. exact Bn.
  - rewrite <- F. rewrite !Rmult_0_r, sin_0. ring.
  - pose proof (L1 0) as L. rewrite !Rmult_0_r, sin_0, cos_0, exp_0 in L.
    replace (1 * (1 * 1 + a / b * 0)) with 1 in L by ring. exact L.
Qed.

Lemma nth_map_seq {A} (f : nat -> A) n k d : (k < n)%nat -> nth k (map f (seq 0 n)) d = f k.
Proof.
  intros H. rewrite nth_indep with (d' := f 0%nat) by now rewrite map_length, seq_length.
  rewrite map_nth. now rewrite seq_nth.
Qed.

Lemma instants_length n dt : List.length (instants n dt) = n.
Proof. unfold instants. now rewrite map_length, seq_length. Qed.
Lemma instants_nth n dt k : (k < n)%nat -> vnth (instants n dt) k = INR k * dt.
Proof. exact (nth_map_seq (fun k => INR k * dt) n k 0). Qed.

(** The step that the routine finds is the step of the instants. *)
Lemma found_step n dt : (2 <= n)%nat ->
  (vnth (instants n dt) (n - 1) - vnth (instants n dt) 0) / INR (n - 1) = dt.
Proof.
  intros H. rewrite !instants_nth by lia. cbn [INR]. field.
  apply not_0_INR. lia.
Qed.

(** The oscillator the sum is computed for *)
Lemma duhamel_spec w z n dt p Sa Sv Sd : duhamel w z (instants n dt) p = Some (Sa, Sv, Sd) ->
  (2 <= n)%nat /\ z * z < 1 /\ w * sqrt (1 - z * z) <> 0 /\
  Sd = map (fun k => rsum (S k) (fun i => nth i p 0 * dt *
         (exp (- z * (w * sqrt (1 - z * z)) * (INR k * dt - INR i * dt)) *
          sin (w * sqrt (1 - z * z) * (INR k * dt - INR i * dt)) / (w * sqrt (1 - z * z))))) (seq 0 n) /\
  Sv = map (fun x => x * (w * sqrt (1 - z * z))) Sd /\
  Sa = map (fun x => x * (w * sqrt (1 - z * z))) Sv.
Proof.
  unfold duhamel. rewrite instants_length. destruct (Nat.ltb n 2) eqn:L; [discriminate|].
  apply Nat.ltb_ge in L. rewrite found_step by exact L.
  destruct (Rltb (z * z) 1) eqn:Z; [|discriminate].
  destruct (Reqb (w * sqrt (1 - z * z)) 0) eqn:W; [discriminate|].
  set (w_ := w * sqrt (1 - z * z)) in *. intros [= <- <- <-].
  unfold Rltb in Z. destruct (Rlt_dec (z * z) 1) as [Z'|]; [|discriminate].
  apply Reqb_f in W. repeat split; auto.
  apply map_ext_in. intros k Hk. apply in_seq in Hk.
  unfold conv_at.
  match goal with |- 1 / w_ * ?X * dt = _ => replace (1 / w_ * X * dt) with (X * (1 / w_ * dt)) by ring end.
  rewrite <- rsum_scal_r. apply rsum_ext. intros i Hi.
  unfold vnth at 2. set (g := fun s => exp (- z * w_ * s) * sin (w_ * s)).
  rewrite nth_indep with (d' := g 0) by (rewrite map_length, instants_length; lia).
  rewrite map_nth. change (nth (k - i) (instants n dt) 0) with (vnth (instants n dt) (k - i)).
  rewrite instants_nth by lia. unfold vnth, g.
  rewrite minus_INR by lia.
  replace ((INR k - INR i) * dt) with (INR k * dt - INR i * dt) by ring. field. exact W.
Qed.

(** The sum superposes the impulses of an oscillator with another frequency and ratio. *)
Lemma c84_superposed w z n dt p Sa Sv Sd : duhamel w z (instants n dt) p = Some (Sa, Sv, Sd) ->
  forall k, (k < n)%nat ->
  nth k Sd 0 = superposed (impulse (w * sqrt (1 - z * z) * sqrt (1 + z * z)) (z / sqrt (1 + z * z))) dt p k.
Proof.
  intros H k K. apply duhamel_spec in H as (_ & Z & W & -> & _ & _).
  rewrite nth_map_seq by exact K. unfold superposed. apply rsum_ext. intros i _. f_equal.
  set (e := sqrt (1 + z * z)).
  assert (E2 : e * e = 1 + z * z) by (apply sqrt_sqrt; nra).
  assert (E : 0 < e) by (apply sqrt_lt_R0; nra).
  assert (R1 : sqrt (1 - z / e * (z / e)) = / e).
  { replace (1 - z / e * (z / e)) with (/ e * / e).
    - apply sqrt_square. left. now apply Rinv_0_lt_compat.
    - apply (Rmult_eq_reg_r (e * e)); [|nra].
      transitivity 1; [field; lra|]. transitivity (e * e - z * z); [lra|field; lra]. }
  unfold impulse. rewrite R1. set (w_ := w * sqrt (1 - z * z)) in *.
  replace (w_ * e * / e) with w_ by (field; lra).
  replace (- (z / e) * (w_ * e)) with (- z * w_) by (field; lra). reflexivity.
Qed.

(** Without damping it is the oscillator asked for. *)
Lemma c84_undamped w n dt p Sa Sv Sd : duhamel w 0 (instants n dt) p = Some (Sa, Sv, Sd) ->
  forall k, (k < n)%nat -> nth k Sd 0 = superposed (impulse w 0) dt p k.
Proof.
  intros H k K. rewrite (c84_superposed _ _ _ _ _ _ _ _ H k K).
  replace (1 - 0 * 0) with 1 by ring. replace (1 + 0 * 0) with 1 by ring. rewrite sqrt_1.
  replace (0 / 1) with 0 by field. now replace (w * 1 * 1) with w by ring.
Qed.

(** Velocity and acceleration are the displacement times the damped frequency. *)
Lemma c84_ratios w z n dt p Sa Sv Sd : duhamel w z (instants n dt) p = Some (Sa, Sv, Sd) ->
  forall k, (k < n)%nat ->
  nth k Sv 0 = w * sqrt (1 - z * z) * nth k Sd 0 /\ nth k Sa 0 = w * w * (1 - z * z) * nth k Sd 0.
Proof.
  intros H k K. apply duhamel_spec in H as (_ & Z & W & E & -> & ->).
  assert (L : List.length Sd = n) by (rewrite E; now rewrite map_length, seq_length).
  set (c := w * sqrt (1 - z * z)) in *.
  assert (M : forall l, List.length l = n -> nth k (map (fun x => x * c) l) 0 = c * nth k l 0).
  { intros l Hl. rewrite nth_indep with (d' := (fun x => x * c) 0) by (rewrite map_length; lia).
    rewrite (map_nth (fun x => x * c)). ring. }
  split; [now apply M|]. rewrite M by (rewrite map_length; exact L). rewrite M by exact L.
  replace (1 - z * z) with (sqrt (1 - z * z) * sqrt (1 - z * z)) by (apply sqrt_sqrt; lra).
  unfold c. ring.
Qed.

Lemma c84_defined w z n dt p : (exists r, duhamel w z (instants n dt) p = Some r) <->
  (2 <= n)%nat /\ z * z < 1 /\ w <> 0.
Proof.
  split.
  - intros ([[Sa Sv] Sd] & H). apply duhamel_spec in H as (A & B & C & _). repeat split; auto.
    intros ->. apply C. ring.
  - intros (A & B & C). unfold duhamel. rewrite instants_length.
    replace (Nat.ltb n 2) with false by (symmetry; apply Nat.ltb_ge; lia).
    unfold Rltb. destruct (Rlt_dec (z * z) 1); [|lra].
    destruct (Reqb (w * sqrt (1 - z * z)) 0) eqn:E; [|now eexists].
    apply Reqb_t in E. apply Rmult_integral in E as [E|E]; [lra|].
    pose proof (sqrt_lt_R0 (1 - z * z)). lra.
Qed.

(** The answer is linear in the record. *)
Lemma c84_linear w z n dt p q a b Sa Sv Sd Sa1 Sv1 Sd1 Sa2 Sv2 Sd2 :
  List.length p = n -> List.length q = n ->
  duhamel w z (instants n dt) (map (fun k => a * nth k p 0 + b * nth k q 0) (seq 0 n)) = Some (Sa, Sv, Sd) ->
  duhamel w z (instants n dt) p = Some (Sa1, Sv1, Sd1) -> duhamel w z (instants n dt) q = Some (Sa2, Sv2, Sd2) ->
  forall k, (k < n)%nat -> nth k Sd 0 = a * nth k Sd1 0 + b * nth k Sd2 0.
Proof.
  intros P Q H H1 H2 k K.
  rewrite (c84_superposed _ _ _ _ _ _ _ _ H k K), (c84_superposed _ _ _ _ _ _ _ _ H1 k K), (c84_superposed _ _ _ _ _ _ _ _ H2 k K).
  unfold superposed. rewrite <- !rsum_scal, <- rsum_plus. apply rsum_ext. intros i Hi.
  rewrite (nth_map_seq (fun k => a * nth k p 0 + b * nth k q 0) n i 0) by lia. ring.
Qed.

Lemma duhamel_first w z n dt p Sa Sv Sd : duhamel w z (instants n dt) p = Some (Sa, Sv, Sd) ->
  nth 0 Sd 0 = 0 /\ List.length Sd = n /\ List.length Sv = n /\ List.length Sa = n.
Proof.
  intros H. apply duhamel_spec in H as (L & Z & W & E & F & G).
  assert (L1 : List.length Sd = n) by (rewrite E; now rewrite map_length, seq_length).
  assert (L2 : List.length Sv = n) by (rewrite F; now rewrite map_length).
  assert (L3 : List.length Sa = n) by (rewrite G; now rewrite map_length).
  split; [|auto]. rewrite E. rewrite nth_map_seq by lia. cbn [rsum].
  replace (w * sqrt (1 - z * z) * (INR 0 * dt - INR 0 * dt)) with 0 by ring. rewrite sin_0. unfold Rdiv. ring.
Qed.

(** The ordinates of the spectrum are the largest values of the answer, none negative. *)
Lemma spectrum_at_spec ag n dt xi T a v d : spectrum_at ag (instants n dt) xi T = Some (a, v, d) ->
  exists Sa Sv Sd, duhamel (2 * PI / T) xi (instants n dt) ag = Some (Sa, Sv, Sd) /\
    top Sa (a * (98/10)) /\ top Sv v /\ top Sd d.
Proof.
  unfold spectrum_at, bindO. destruct (duhamel _ _ _ _) as [[[Sa Sv] Sd]|]; [|discriminate].
  destruct (max_of Sa) as [a'|] eqn:A; [|discriminate]. destruct (max_of Sv) as [v'|] eqn:V; [|discriminate].
  destruct (max_of Sd) as [d'|] eqn:D; [|discriminate]. intros [= <- <- <-].
  exists Sa, Sv, Sd. split; [reflexivity|]. rewrite max_of_top in A, V, D.
  replace (a' / (98 / 10) * (98 / 10)) with a' by field. auto.
Qed.

Lemma c84_nonneg ag n dt xi T a v d : spectrum_at ag (instants n dt) xi T = Some (a, v, d) ->
  0 <= a /\ 0 <= v /\ 0 <= d.
Proof.
  intros H. apply spectrum_at_spec in H as (Sa & Sv & Sd & H & [_ A] & [_ V] & [_ D]).
  pose proof (duhamel_first _ _ _ _ _ _ _ _ H) as (F & L1 & L2 & L3).
  assert (N : (0 < n)%nat) by (apply duhamel_spec in H; lia).
  destruct (c84_ratios _ _ _ _ _ _ _ _ H 0%nat N) as [R1 R2]. rewrite F, Rmult_0_r in R1, R2.
  assert (In (nth 0 Sa 0) Sa) by (apply nth_In; lia). assert (In (nth 0 Sv 0) Sv) by (apply nth_In; lia).
  assert (In (nth 0 Sd 0) Sd) by (apply nth_In; lia).
  rewrite R2 in *. rewrite R1 in *. rewrite F in *. specialize (A 0). specialize (V 0). specialize (D 0). intuition lra.
Qed.

Lemma sin_int_PI k : sin (INR k * PI) = 0.
Proof.
  induction k; [cbn [INR]; rewrite Rmult_0_l; apply sin_0|].
  rewrite S_INR. replace ((INR k + 1) * PI) with (INR k * PI + PI) by ring. rewrite neg_sin, IHk. ring.
Qed.

(** Without damping the ordinates at once and twice the step are zero, whatever the record. *)
Lemma c84_short ag n dt T a v d : 0 < dt -> T = dt \/ T = 2 * dt ->
  spectrum_at ag (instants n dt) 0 T = Some (a, v, d) -> a = 0 /\ v = 0 /\ d = 0.
Proof.
  intros Dt HT H. apply spectrum_at_spec in H as (Sa & Sv & Sd & H & [A _] & [V _] & [D _]).
  pose proof (duhamel_first _ _ _ _ _ _ _ _ H) as (_ & L1 & L2 & L3).
  assert (Z : forall k, (k < n)%nat -> nth k Sd 0 = 0).
  { intros k K. rewrite (c84_undamped _ _ _ _ _ _ _ H k K). unfold superposed. apply rsum_0. intros i Hi.
    unfold impulse. replace (1 - 0 * 0) with 1 by ring. rewrite sqrt_1.
    replace (sin (2 * PI / T * 1 * (INR k * dt - INR i * dt))) with 0; [unfold Rdiv; ring|].
    symmetry. rewrite <- Rmult_minus_distr_r, <- minus_INR by lia. destruct HT as [->| ->].
    - replace (2 * PI / dt * 1 * (INR (k - i) * dt)) with (INR (k - i) * PI + INR (k - i) * PI) by (field; lra).
      rewrite sin_plus, sin_int_PI. ring.
    - replace (2 * PI / (2 * dt) * 1 * (INR (k - i) * dt)) with (INR (k - i) * PI) by (field; lra).
      apply sin_int_PI. }
  pose proof (c84_ratios _ _ _ _ _ _ _ _ H) as R.
  apply (In_nth _ _ 0) in A as (i & I & A). apply (In_nth _ _ 0) in V as (j & J & V). apply (In_nth _ _ 0) in D as (k & K & D).
  destruct (R i) as [_ R1]; [lia|]. destruct (R j) as [R2 _]; [lia|].
  rewrite Z in * by lia. rewrite R1 in A. rewrite R2 in V. lra.
Qed.

(** With damping it is not the oscillator asked for. *)
Lemma c84_refuted : exists w z n dt p Sa Sv Sd k, 0 < z /\ 0 < w /\
  duhamel w z (instants n dt) p = Some (Sa, Sv, Sd) /\ (k < n)%nat /\
  nth k Sd 0 <> superposed (impulse w z) dt p k.
Proof.
  set (z := 3/5). assert (Q : sqrt (1 - z * z) = 4/5).
  { replace (1 - z * z) with (4/5 * (4/5)) by (unfold z; field). apply sqrt_square. lra. }
  set (w := 5/4). set (dt := PI / 2).
  assert (DF : exists r, duhamel w z (instants 2 dt) [1; 0] = Some r).
  { apply c84_defined. unfold w, z. repeat split; [lia|lra|lra]. }
  destruct DF as ([[Sa Sv] Sd] & H). exists w, z, 2%nat, dt, [1; 0], Sa, Sv, Sd, 1%nat.
  split; [unfold z; lra|]. split; [unfold w; lra|]. split; [exact H|]. split; [lia|].
  apply duhamel_spec in H as (_ & _ & _ & -> & _). rewrite nth_map_seq by lia.
  unfold superposed, impulse. rewrite Q. replace (w * (4/5)) with 1 by (unfold w; field).
  cbn [rsum nth INR]. replace (1 * (0 * dt)) with 0 by ring.
  replace (1 * (1 * dt - 0 * dt)) with (PI / 2) by (unfold dt; ring).
  rewrite sin_PI2. replace (1 * dt - 1 * dt) with 0 by ring. repeat rewrite Rmult_0_l. repeat rewrite Rmult_0_r. try rewrite sin_0.
  intros E. assert (PI > 0) by apply PI_RGT_0.
  assert (E' : exp (- z * (1 * dt)) = exp (- z * w * (1 * dt))).
  { apply (Rmult_eq_reg_r dt); [|unfold dt; lra]. rewrite Rminus_0_r, Rmult_1_r in E.
    replace (- z * 1 * (1 * dt)) with (- z * (1 * dt)) in E by ring. lra. }
  apply exp_inv in E'. unfold dt, w, z in E'. nra.
Qed.

(** A record and the same record turned over have different spectra. *)
Lemma c84_sign_refuted : exists ag n dt xi T a v d,
  spectrum_at ag (instants n dt) xi T = Some (a, v, d) /\ 0 < d /\
  spectrum_at (map Ropp ag) (instants n dt) xi T = Some (0, 0, 0).
Proof.
  assert (P := PI_RGT_0).
  assert (G : forall s : R, exists Sa Sv Sd, duhamel (2 * PI / 4) 0 (instants 2 1) [s; s] = Some (Sa, Sv, Sd) /\
     Sd = [0; s / (2 * PI / 4)] /\ Sv = [0; s] /\ Sa = [0; s * (2 * PI / 4)]).
  { intros s. destruct (proj2 (c84_defined (2 * PI / 4) 0 2 1 [s; s])) as ([[Sa Sv] Sd] & H).
    { repeat split; [lia|lra|]. lra. }
    exists Sa, Sv, Sd. split; [exact H|]. apply duhamel_spec in H as (_ & _ & _ & -> & -> & ->).
    replace (1 - 0 * 0) with 1 by ring. rewrite sqrt_1. cbn [seq map rsum nth INR].
    replace (2 * PI / 4 * 1 * (0 * 1 - 0 * 1)) with 0 by field.
    replace (2 * PI / 4 * 1 * (1 * 1 - 1 * 1)) with 0 by field.
    replace (2 * PI / 4 * 1 * (1 * 1 - 0 * 1)) with (PI / 2) by field.
    rewrite sin_PI2, sin_0. rewrite !Ropp_0, !Rmult_0_l, exp_0.
    repeat split; (f_equal; [field; lra|f_equal; field; lra]). }
  exists [1; 1], 2%nat, 1, 0, 4, (1 * (2 * PI / 4) / (98/10)), 1, (1 / (2 * PI / 4)).
  assert (D : 0 < 1 / (2 * PI / 4)).
  { apply Rdiv_lt_0_compat; lra. }
  split; [|split; [exact D|]].
  - destruct (G 1) as (Sa & Sv & Sd & H & -> & -> & ->). unfold spectrum_at. rewrite H. cbn [bindO max_of fold_left].
    rewrite !Rmax_right; [reflexivity|lra|lra|lra].
  - cbn [map]. destruct (G (-1)) as (Sa & Sv & Sd & H & -> & -> & ->). unfold spectrum_at.
    change (- (1)) with (-1). rewrite H. cbn [bindO max_of fold_left].
    rewrite !Rmax_left; [do 3 f_equal; field|lra|lra|]. 
    replace (-1 / (2 * PI / 4)) with (- (1 / (2 * PI / 4))) by (field; lra). lra.
Qed.

(** The spectrum of a record, period by period *)
Lemma top_map c l d : 0 < c -> top l d -> top (map (fun x => x * c) l) (d * c).
Proof.
  intros C [A B]. split; [now apply (in_map (fun x => x * c))|].
  intros y Hy. apply in_map_iff in Hy as (x & <- & Hx). apply Rmult_le_compat_r; [lra|auto].
Qed.

Lemma c84_spectrum file dt xi a_max Ts rows : wave2spectrum file dt xi a_max = Some (Ts, rows) ->
  exists m, top file m /\ m <> 0 /\ List.length rows = List.length Ts /\
  forall i a v d, nth_error rows i = Some (a, v, d) ->
    let w := 2 * PI / nth i Ts 0 in
    nth i Ts 0 = dt + INR i * dt /\
    top (map (superposed (impulse (w * sqrt (1 - xi * xi) * sqrt (1 + xi * xi)) (xi / sqrt (1 + xi * xi))) dt
           (map (fun x => a_max / 100 / m * x) file)) (seq 0 (List.length file))) d /\
    v = w * sqrt (1 - xi * xi) * d /\ a * (98/10) = w * w * (1 - xi * xi) * d.
Proof.
  unfold wave2spectrum. destruct (Rltb 0 dt) eqn:D; [|discriminate].
  unfold Rltb in D. destruct (Rlt_dec 0 dt) as [D'|]; [|discriminate].
  destruct (scale_record file a_max) as [ag|] eqn:S; [|discriminate]. cbn [bindO].
  destruct (mapM _ (periods dt)) as [s|] eqn:M; [|discriminate]. cbn [bindO]. intros [= <- <-].
  apply c83_shape_record in S as (m & T & Z & Eag). exists m. split; [exact T|]. split; [exact Z|].
  pose proof (mapM_some_length _ _ _ M) as L. split; [exact L|].
  assert (La : List.length ag = List.length file) by (rewrite Eag; now rewrite map_length).
  rewrite La in M. change (map (fun k => INR k * dt) (seq 0 (List.length file))) with (instants (List.length file) dt) in M.
  intros i a v d E.
  assert (Hi : (i < List.length (periods dt))%nat) by (rewrite <- L; apply nth_error_Some; congruence).
  assert (Row : spectrum_at ag (instants (List.length file) dt) xi (nth i (periods dt) 0) = Some (a, v, d)).
  { apply mapM_inv in M. clear - M E. revert i E. induction M; intros i E; [destruct i; discriminate|].
    destruct i; [cbn in *; congruence|]. cbn in *. now apply IHM. }
  assert (Ti : nth i (periods dt) 0 = dt + INR i * dt).
  { unfold periods in *. rewrite map_length, seq_length in Hi. now rewrite (nth_map_seq (fun k => dt + INR k * dt)). }
  assert (Tp : 0 < nth i (periods dt) 0) by (rewrite Ti; pose proof (pos_INR i); nra).
  cbv zeta. split; [exact Ti|]. rewrite <- Eag. set (w := 2 * PI / nth i (periods dt) 0) in *.
  assert (Wp : 0 < w) by (apply Rdiv_lt_0_compat; [pose proof PI_RGT_0; lra|exact Tp]).
  apply spectrum_at_spec in Row as (Sa & Sv & Sd & H & TA & TV & TD). fold w in H.
  pose proof (duhamel_first _ _ _ _ _ _ _ _ H) as (_ & L1 & _ & _).
  pose proof (c84_superposed _ _ _ _ _ _ _ _ H) as Sup.
  apply duhamel_spec in H as (_ & Zx & W & _ & E1 & E2).
  assert (Cp : 0 < w * sqrt (1 - xi * xi)) by (apply Rmult_lt_0_compat; [exact Wp|apply sqrt_lt_R0; lra]).
  set (c := w * sqrt (1 - xi * xi)) in *.
  assert (V : v = d * c).
  { apply (top_unique Sv); [exact TV|]. rewrite E1. now apply top_map. }
  assert (A : a * (98/10) = v * c).
  { apply (top_unique Sa); [exact TA|]. rewrite E2. now apply top_map. }
  split; [|split].
  - replace (map _ (seq 0 (List.length file))) with Sd; [exact TD|].
    apply nth_ext with (d := 0) (d' := 0); [now rewrite map_length, seq_length|].
    intros k Hk. rewrite L1 in Hk. rewrite nth_map_seq by exact Hk. apply Sup. exact Hk.
  - rewrite V. ring.
  - rewrite A, V. replace (1 - xi * xi) with (sqrt (1 - xi * xi) * sqrt (1 - xi * xi)) by (apply sqrt_sqrt; lra).
    unfold c. ring.
Qed.

Lemma c84_spectrum_defined file dt xi a_max m : 0 < dt -> top file m -> m <> 0 -> (2 <= List.length file)%nat ->
  xi * xi < 1 -> exists rows, wave2spectrum file dt xi a_max = Some (periods dt, rows).
Proof.
  intros D T Z L X. unfold wave2spectrum. unfold Rltb at 1. destruct (Rlt_dec 0 dt); [|lra].
  unfold scale_record. apply max_of_top in T. rewrite T. cbn [bindO]. apply Reqb_f in Z. rewrite Z. cbn [bindO].
  set (ag := map _ file). assert (La : List.length ag = List.length file) by (unfold ag; now rewrite map_length).
  rewrite La. change (map (fun k => INR k * dt) (seq 0 (List.length file))) with (instants (List.length file) dt).
  destruct (mapM_total (spectrum_at ag (instants (List.length file) dt) xi) (periods dt)) as (rows & ->); [|now exists rows].
  intros t Ht. assert (Tp : 0 < t) by (apply in_map_iff in Ht as (k & <- & _); pose proof (pos_INR k); nra).
  assert (Wp : 0 < 2 * PI / t) by (apply Rdiv_lt_0_compat; [pose proof PI_RGT_0; lra|exact Tp]).
  destruct (proj2 (c84_defined (2 * PI / t) xi (List.length file) dt ag)) as ([[Sa Sv] Sd] & H); [repeat split; auto; lra|].
  unfold spectrum_at. rewrite H. cbn [bindO]. apply duhamel_first in H as (_ & L1 & L2 & L3).
  destruct (max_of_some Sa) as (a & ->); [intros ->; cbn in L3; lia|].
  destruct (max_of_some Sv) as (v & ->); [intros ->; cbn in L2; lia|].
  destruct (max_of_some Sd) as (d & ->); [intros ->; cbn in L1; lia|]. cbn [bindO]. now eexists.
Qed.

Lemma c83_defined_record ag a_max : (exists out, scale_record ag a_max = Some out) <-> exists m, top ag m /\ m <> 0.
Proof.
  split.
  - intros (out & H). apply c83_shape_record in H as (m & T & Z & _). now exists m.
  - intros (m & T & Z). unfold scale_record. apply max_of_top in T. rewrite T. cbn.
    apply Reqb_f in Z. rewrite Z. now eexists.
Qed.

Lemma c84_ordinate_defined ag n dt xi T : (2 <= n)%nat -> xi * xi < 1 -> 0 < T ->
  exists a v d, spectrum_at ag (instants n dt) xi T = Some (a, v, d).
Proof.
  intros N X P. destruct (proj2 (c84_defined (2 * PI / T) xi n dt ag)) as ([[Sa Sv] Sd] & H).
  { repeat split; auto. assert (Q := PI_RGT_0). assert (0 < 2 * PI / T) by (apply Rdiv_lt_0_compat; lra). lra. }
  unfold spectrum_at. rewrite H. cbn [bindO]. pose proof (duhamel_first _ _ _ _ _ _ _ _ H) as (_ & L1 & L2 & L3).
  assert (M : forall l : list R, (0 < List.length l)%nat -> exists m, max_of l = Some m).
  { intros [|x l] Hl; [cbn in Hl; lia|]. now eexists. }
  destruct (M Sa) as (a & ->); [lia|]. destruct (M Sv) as (v & ->); [lia|]. destruct (M Sd) as (d & ->); [lia|].
  now exists (a / (98/10)), v, d.
Qed.

Lemma c84_periods dt : 0 < dt -> exists N, periods dt = map (fun k => INR (S k) * dt) (seq 0 N) /\
  6 <= INR N * dt < 6 + dt.
Proof.
  intros D. exists (period_count dt). split.
  - unfold periods. apply map_ext. intros k. rewrite S_INR. ring.
  - unfold period_count. set (q := 6 / dt). assert (Q : 0 < q) by (apply Rdiv_lt_0_compat; lra).
    destruct (base_Int_part (- q)) as [B1 B2].
    assert (Z0 : (0 <= - Int_part (- q))%Z).
    { apply le_IZR. rewrite opp_IZR. lra. }
    rewrite INR_IZR_INZ, Z2Nat.id by exact Z0. rewrite opp_IZR.
    assert (E : q * dt = 6) by (unfold q; field; lra). nra.
Qed.
