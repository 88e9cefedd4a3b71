(** Proofs about the design spectra. *)
From Coq Require Import Reals Lra Lia List Arith ZArith Psatz.
From Verif Require Import Base BaseFacts AsmProofs Spectrum SpecSpectrum.
Import ListNotations.
Local Open Scope R_scope.

Lemma rltb_t x y : x < y -> Rltb x y = true.
Proof. intros H. unfold Rltb. destruct (Rlt_dec x y); [reflexivity|contradiction]. Qed.
Lemma rltb_f x y : y <= x -> Rltb x y = false.
Proof. intros H. unfold Rltb. destruct (Rlt_dec x y); [lra|reflexivity]. Qed.
Lemma rltb_case x y : (x < y /\ Rltb x y = true) \/ (y <= x /\ Rltb x y = false).
Proof. destruct (Rlt_dec x y) as [H|H]; [left|right]; split; try lra; [apply rltb_t|apply rltb_f]; lra. Qed.

Lemma c54_agree alpha Tg xi t : 0 <= xi -> 0 <= t -> gb50010_at alpha Tg xi t = gb50011_at alpha Tg xi t.
Proof.
  intros _ H. unfold gb50010_at, gb50011_at. destruct (rltb_case t (1/10)) as [(L & ->)|(L & ->)]; [|reflexivity].
  unfold interp2. rewrite (rltb_f t 0), (rltb_f (1/10) t) by lra. field.
Qed.
Lemma ceil_600 : Z.to_nat (- Int_part (- (6 / (6/600)))) = 600%nat.
Proof.
  replace (- (6 / (6/600))) with (IZR (-600)) by field.
  assert (E : Int_part (IZR (-600)) = (-600)%Z).
  { unfold Int_part. rewrite <- (tech_up (IZR (-600)) (-599)); [reflexivity|lra|lra]. }
  rewrite E. reflexivity.
Qed.
Lemma c54_samples alpha Tg xi : 0 <= xi -> firstn 600 (gb50010 alpha Tg xi) = gb50011 alpha Tg xi (6/600).
Proof.
  intros X. unfold gb50010, gb50011. rewrite ceil_600. rewrite firstn_map.
  replace (firstn 600 (seq 0 601)) with (seq 0 600).
  - apply map_ext. intros k. cbv zeta. f_equal. apply c54_agree; [exact X|]. apply Rmult_le_pos; [apply pos_INR|lra].
  - change 601%nat with (600 + 1)%nat. rewrite (seq_app 600 1 0). rewrite firstn_app, seq_length, Nat.sub_diag, firstn_O, app_nil_r.
    symmetry. apply firstn_all2. rewrite seq_length. apply Nat.le_refl.
Qed.

(** every entry of the two tables *)
Lemma nth_map_seq {A} (f : nat -> A) n k x : nth_error (map f (seq 0 n)) k = Some x <-> (k < n)%nat /\ x = f k.
Proof.
  split.
  - intros H. assert (L : (k < n)%nat) by (rewrite <- (seq_length n 0), <- (map_length f); apply nth_error_Some; congruence). split; [exact L|].
    rewrite (map_nth_error f k (seq 0 n) (d := k)) in H by (rewrite (nth_error_nth' _ O), seq_nth by (rewrite ?seq_length; exact L); reflexivity). congruence.
  - intros (L & ->). apply map_nth_error. rewrite (nth_error_nth' _ O), seq_nth by (rewrite ?seq_length; exact L). reflexivity.
Qed.
Lemma c54_table alpha Tg xi k t y : 0 <= xi -> (nth_error (gb50010 alpha Tg xi) k = Some (t, y) <-> (k <= 600)%nat /\ t = INR k / 100 /\ y = gb50011_at alpha Tg xi t).
Proof.
  intros X. unfold gb50010. rewrite nth_map_seq. cbv zeta. assert (E : INR k * (6/600) = INR k / 100) by field. rewrite E.
  assert (P : 0 <= INR k / 100) by (pose proof (pos_INR k); lra). rewrite (c54_agree alpha Tg xi _ X P). split.
  - intros (L & Q). injection Q as -> ->. split; [lia|auto].
  - intros (L & -> & ->). split; [lia|reflexivity].
Qed.
Lemma ceil_lt r k : 0 <= r -> ((k < Z.to_nat (- Int_part (- r)))%nat <-> INR k < r).
Proof.
  intros R0. destruct (base_Int_part (- r)) as (A & B). set (z := Int_part (- r)) in *. rewrite INR_IZR_INZ. split.
  - intros L. assert (Z : (Z.of_nat k <= - z - 1)%Z) by lia. apply IZR_le in Z. rewrite minus_IZR, opp_IZR in Z. lra.
  - intros L. assert (Z : IZR (Z.of_nat k) < IZR (- z)) by (rewrite opp_IZR; lra). apply lt_IZR in Z. lia.
Qed.
Lemma c54_table_step alpha Tg zeta dt k t y : 0 < dt ->
  (nth_error (gb50011 alpha Tg zeta dt) k = Some (t, y) <-> INR k * dt < 6 /\ t = INR k * dt /\ y = gb50011_at alpha Tg zeta t).
Proof.
  intros D. unfold gb50011. rewrite nth_map_seq. cbv zeta. rewrite ceil_lt by (apply Rlt_le, Rdiv_lt_0_compat; lra).
  assert (Q : INR k < 6 / dt <-> INR k * dt < 6).
  { split; intros H; [apply (Rmult_lt_compat_r dt) in H; [|lra]; replace (6 / dt * dt) with 6 in H by (field; lra); exact H|].
    apply (Rmult_lt_reg_r dt); [lra|]. replace (6 / dt * dt) with 6 by (field; lra). exact H. }
  rewrite Q. split; [intros (L & E); injection E as -> ->; auto|intros (L & -> & ->); auto].
Qed.

(** ** Continuity *)
Definition glue (c : R) (f g : R -> R) (t : R) : R := if Rltb t c then f t else g t.
Lemma glue_cont c f g t : (t <= c -> continuity_pt f t) -> (c <= t -> continuity_pt g t) -> f c = g c -> continuity_pt (glue c f g) t.
Proof.
  intros F G E. destruct (Rtotal_order t c) as [L|[->|L]].
  - assert (CF := F ltac:(lra)). intros eps He. destruct (CF eps He) as (d & Hd & HC). exists (Rmin d (c - t)). split; [apply Rmin_pos; lra|].
    intros x (HD & HX). cbn in *. unfold R_dist in *. unfold glue.
    assert (Rabs (x - t) < c - t) by (eapply Rlt_le_trans; [exact HX|apply Rmin_r]). apply Rabs_def2 in H as [H1 H2].
    rewrite !rltb_t by lra. apply HC. split; [exact HD|]. eapply Rlt_le_trans; [exact HX|apply Rmin_l].
  - assert (CF := F ltac:(lra)). assert (CG := G ltac:(lra)). intros eps He. destruct (CF eps He) as (d1 & Hd1 & HC1). destruct (CG eps He) as (d2 & Hd2 & HC2).
    exists (Rmin d1 d2). split; [apply Rmin_pos; lra|]. intros x (HD & HX). cbn in *. unfold R_dist in *. unfold glue. rewrite (rltb_f c c) by lra.
    destruct (rltb_case x c) as [(L & ->)|(L & ->)].
    + rewrite <- E. apply HC1. split; [exact HD|]. eapply Rlt_le_trans; [exact HX|apply Rmin_l].
    + apply HC2. split; [exact HD|]. eapply Rlt_le_trans; [exact HX|apply Rmin_r].
  - assert (CG := G ltac:(lra)). intros eps He. destruct (CG eps He) as (d & Hd & HC). exists (Rmin d (t - c)). split; [apply Rmin_pos; lra|].
    intros x (HD & HX). cbn in *. unfold R_dist in *. unfold glue.
    assert (Rabs (x - t) < t - c) by (eapply Rlt_le_trans; [exact HX|apply Rmin_r]). apply Rabs_def2 in H as [H1 H2].
    rewrite !rltb_f by lra. apply HC. split; [exact HD|]. eapply Rlt_le_trans; [exact HX|apply Rmin_l].
Qed.
Lemma linear_cont a b t : continuity_pt (fun x => a + b * x) t.
Proof.
  apply (continuity_pt_plus (fun _ => a) (fun x => b * x)); [apply continuity_pt_const; intros x y; reflexivity|].
  apply (continuity_pt_mult (fun _ => b) (fun x => x)); [apply continuity_pt_const; intros x y; reflexivity|].
  apply derivable_continuous_pt, derivable_pt_id.
Qed.
Lemma const_cont a t : continuity_pt (fun _ => a) t.
Proof. apply continuity_pt_const; intros x y; reflexivity. Qed.
Lemma cont_ext f g t : (forall x, f x = g x) -> continuity_pt f t -> continuity_pt g t.
Proof. intros E H eps He. destruct (H eps He) as (d & Hd & HC). exists d. split; [exact Hd|]. intros x Hx. rewrite <- !E. apply HC, Hx. Qed.
Lemma power_cont Tg g k t : 0 < Tg -> 0 < t -> continuity_pt (fun x => Rpower (Tg / x) g * k) t.
Proof.
  intros HT Ht. apply (continuity_pt_mult (fun x => Rpower (Tg / x) g) (fun _ => k)); [|apply const_cont].
  apply (continuity_pt_comp (fun x => g * ln (Tg / x)) exp); [|apply derivable_continuous_pt, derivable_pt_exp].
  apply (continuity_pt_mult (fun _ => g) (fun x => ln (Tg / x))); [apply const_cont|].
  apply (continuity_pt_comp (fun x => Tg / x) ln).
  - apply (continuity_pt_mult (fun _ => Tg) (fun x => / x)); [apply const_cont|]. apply continuity_pt_inv; [apply derivable_continuous_pt, derivable_pt_id|lra].
  - apply derivable_continuous_pt. exists (/ (Tg / t)). apply derivable_pt_lim_ln. apply Rdiv_lt_0_compat; lra.
Qed.
Lemma c54_continuous alpha Tg xi : 0 <= xi -> 1/10 <= Tg -> continuous_curve (gb50010_at alpha Tg xi) /\ continuous_curve (gb50011_at alpha Tg xi).
Proof.
  intros _ HT. set (e2 := gb_eta2 xi). set (e1 := gb_eta1 xi). set (g := gb_gamma xi).
  set (tail := fun t => (e2 * Rpower (2/10) g - e1 * (t - 5 * Tg)) * alpha).
  set (pw := fun t => Rpower (Tg / t) g * e2 * alpha).
  assert (CT : forall t, continuity_pt tail t).
  { intros t. apply (cont_ext (fun x => (e2 * Rpower (2/10) g + e1 * (5 * Tg)) * alpha + (- e1 * alpha) * x)); [intros x; unfold tail; ring|apply linear_cont]. }
  assert (CP : forall t, 0 < t -> continuity_pt pw t).
  { intros t Ht. apply (cont_ext (fun x => Rpower (Tg / x) g * (e2 * alpha))); [intros x; unfold pw; ring|apply power_cont; lra]. }
  assert (C1 : forall t, 0 < t -> continuity_pt (glue (5 * Tg) pw tail) t).
  { intros t Ht. apply glue_cont; [intros; apply CP; lra|intros; apply CT|]. unfold pw, tail.
    replace (Tg / (5 * Tg)) with (2/10) by (field; lra). ring. }
  assert (C2 : forall t, 0 < t -> continuity_pt (glue Tg (fun _ => e2 * alpha) (glue (5 * Tg) pw tail)) t).
  { intros t Ht. apply glue_cont; [intros; apply const_cont|intros; apply C1; lra|]. unfold glue. rewrite rltb_t by lra. unfold pw.
    replace (Tg / Tg) with 1 by (field; lra). unfold Rpower. rewrite ln_1, Rmult_0_r, exp_0. ring. }
  assert (M : glue Tg (fun _ => e2 * alpha) (glue (5 * Tg) pw tail) (1/10) = e2 * alpha).
  { unfold glue at 1. destruct (rltb_case (1/10) Tg) as [(L & ->)|(L & ->)]; [reflexivity|].
    unfold glue. rewrite rltb_t by lra. unfold pw. replace (Tg / (1/10)) with 1 by (replace Tg with (1/10) by lra; field).
    unfold Rpower. rewrite ln_1, Rmult_0_r, exp_0. ring. }
  split; intros t Ht.
  - assert (H : continuity_pt (glue (1/10) (glue 0 (fun _ => 45/100 * alpha) (fun t => 45/100 * alpha + (e2 * alpha - 45/100 * alpha) / (1/10 - 0) * (t - 0)))
        (glue Tg (fun _ => e2 * alpha) (glue (5 * Tg) pw tail))) t).
    { apply glue_cont.
      - intros _. apply glue_cont; [intros; apply const_cont| |field].
        intros _. apply (cont_ext (fun x => 45/100 * alpha + (e2 * alpha - 45/100 * alpha) / (1/10 - 0) * x)); [intros; ring|apply linear_cont].
      - intros; apply C2; lra.
      - rewrite M. unfold glue. rewrite rltb_f by lra. field. }
    revert H. apply cont_ext. intros x. unfold glue, gb50010_at, interp2. fold e2. fold g. fold e1.
    destruct (rltb_case x (1/10)) as [(L & ->)|(L & ->)]; [|reflexivity]. rewrite (rltb_f (1/10) x) by lra. reflexivity.
  - assert (H : continuity_pt (glue (1/10) (fun t => 45/100 * alpha + (e2 - 45/100) * alpha / (1/10) * t) (glue Tg (fun _ => e2 * alpha) (glue (5 * Tg) pw tail))) t).
    { apply glue_cont; [intros _; apply linear_cont|intros; apply C2; lra|]. rewrite M. field. }
    revert H. apply cont_ext. intros x. reflexivity.
Qed.

Lemma c54_short_refuted : exists alpha Tg xi, 0 < alpha /\ 0 < Tg /\ 0 < xi /\ ~ continuity_pt (gb50011_at alpha Tg xi) (1/10).
Proof.
  exists 1, (5/100), (5/100). split; [lra|]. split; [lra|]. split; [lra|]. intros H.
  assert (E2 : gb_eta2 (5/100) = 1).
  { unfold gb_eta2. cbv zeta. replace (1 + (5/100 - 5/100) / (8/100 + 16/10 * (5/100))) with 1 by (field; lra). rewrite rltb_t by lra. reflexivity. }
  assert (G : gb_gamma (5/100) = 9/10) by (unfold gb_gamma; field; lra).
  destruct (H (1/10) ltac:(lra)) as (d & Hd & HC). set (h := Rmin (d/2) (1/100)).
  assert (Hh : 0 < h) by (apply Rmin_pos; lra). assert (h <= 1/100) by apply Rmin_r. assert (h <= d/2) by apply Rmin_l.
  specialize (HC (1/10 - h)). cbn in HC. unfold R_dist in HC.
  assert (Q : Rabs (gb50011_at 1 (5/100) (5/100) (1/10 - h) - gb50011_at 1 (5/100) (5/100) (1/10)) < 1/10).
  { apply HC. split; [split; [exact I|lra]|]. replace (1/10 - h - 1/10) with (- h) by ring. rewrite Rabs_Ropp, Rabs_right; lra. }
  unfold gb50011_at in Q. rewrite E2, G in Q. rewrite (rltb_t (1/10 - h) (1/10)), (rltb_f (1/10) (1/10)), (rltb_f (1/10) (5/100)), (rltb_t (1/10) (5 * (5/100))) in Q by lra.
  replace (5/100 / (1/10)) with (/2) in Q by field.
  assert (P : Rpower (/2) (9/10) < 75/100).
  { apply Rlt_trans with (Rpower (/2) (/2)).
    - unfold Rpower. apply exp_increasing. assert (ln (/2) < 0) by (rewrite <- ln_1; apply ln_increasing; lra). nra.
    - rewrite Rpower_sqrt by lra. apply Rsqr_incrst_0; [|apply sqrt_pos|lra]. rewrite Rsqr_sqrt by lra. unfold Rsqr. lra. }
  apply Rabs_def2 in Q as [Q _]. lra.
Qed.

(** ** Bounds *)
Lemma pow_strict x y q : 0 < x -> x < y -> (0 < q)%nat -> x ^ q < y ^ q.
Proof.
  intros X H Q. destruct q as [|q]; [lia|]. clear Q. induction q as [|q IH]; [lra|].
  change (x * x ^ (S q) < y * y ^ (S q)). apply Rmult_gt_0_lt_compat; try lra. apply pow_lt; lra.
Qed.
Lemma power_ge p q b : 0 < b -> (0 < q)%nat -> b ^ q <= (2/10) ^ p -> b <= Rpower (2/10) (INR p / INR q).
Proof.
  intros B Q H. destruct (Rle_dec b (Rpower (2/10) (INR p / INR q))) as [L|L]; [exact L|exfalso]. apply Rnot_le_lt in L.
  assert (QP : 0 < INR q) by (apply lt_0_INR; exact Q).
  assert (E : Rpower (2/10) (INR p / INR q) ^ q = (2/10) ^ p).
  { rewrite <- Rpower_pow by apply exp_pos. rewrite Rpower_mult. replace (INR p / INR q * INR q) with (INR p) by (field; lra). apply Rpower_pow. lra. }
  pose proof (pow_strict _ b q (exp_pos _) L Q). unfold Rpower in *. lra.
Qed.
Lemma power_mono g h : g <= h -> Rpower (2/10) h <= Rpower (2/10) g.
Proof.
  intros H. unfold Rpower. assert (L : ln (2/10) < 0) by (rewrite <- ln_1; apply ln_increasing; lra).
  destruct (Req_dec g h) as [->|N]; [lra|]. left. apply exp_increasing. nra.
Qed.
Lemma eta2_ge xi : 55/100 <= gb_eta2 xi.
Proof. unfold gb_eta2. cbv zeta. destruct (rltb_case (55/100) (1 + (5/100 - xi) / (8/100 + 16/10 * xi))) as [(L & ->)|(L & ->)]; lra. Qed.
Lemma eta2_val xi : 1 + (5/100 - xi) / (8/100 + 16/10 * xi) <= gb_eta2 xi.
Proof. unfold gb_eta2. cbv zeta. destruct (rltb_case (55/100) (1 + (5/100 - xi) / (8/100 + 16/10 * xi))) as [(L & ->)|(L & ->)]; lra. Qed.
Lemma eta1_nonneg xi : 0 <= gb_eta1 xi.
Proof. unfold gb_eta1. cbv zeta. destruct (rltb_case 0 (2/100 + (5/100 - xi) / (4 + 32 * xi))) as [(L & ->)|(L & ->)]; lra. Qed.
Lemma eta1_le xi b : 2/100 + (5/100 - xi) / (4 + 32 * xi) <= b -> 0 <= b -> gb_eta1 xi <= b.
Proof. intros H B. unfold gb_eta1. cbv zeta. destruct (rltb_case 0 (2/100 + (5/100 - xi) / (4 + 32 * xi))) as [(L & ->)|(L & ->)]; lra. Qed.
Lemma div_le a b c : 0 < b -> a <= c * b -> a / b <= c.
Proof. intros B H. apply Rmult_le_reg_r with b; [exact B|]. unfold Rdiv. rewrite Rmult_assoc, Rinv_l, Rmult_1_r by lra. exact H. Qed.
Lemma div_ge a b c : 0 < b -> c * b <= a -> c <= a / b.
Proof. intros B H. apply Rmult_le_reg_r with b; [exact B|]. unfold Rdiv. rewrite Rmult_assoc, Rinv_l, Rmult_1_r by lra. exact H. Qed.

(** the tail stays positive up to a period of 6 s *)
Lemma tail_margin xi : 0 <= xi -> 6 * gb_eta1 xi < gb_eta2 xi * Rpower (2/10) (gb_gamma xi).
Proof.
  intros X. pose proof (eta2_ge xi) as E2. pose proof (eta2_val xi) as E2'. pose proof (eta1_nonneg xi) as E1.
  destruct (Rle_dec (5/100) xi) as [A|A]; [|destruct (Rle_dec (25/1000) xi) as [B|B]].
  - assert (G : gb_gamma xi <= INR 9 / INR 10).
    { unfold gb_gamma. replace (INR 9 / INR 10) with (9/10) by (simpl; lra). assert ((5/100 - xi) / (3/10 + 6 * xi) <= 0); [apply div_le; lra|lra]. }
    pose proof (power_mono _ _ G) as P. assert (Q : 22/100 <= Rpower (2/10) (INR 9 / INR 10)) by (apply power_ge; [lra|lia|lra]).
    assert (H1 : gb_eta1 xi <= 2/100) by (apply eta1_le; [assert ((5/100 - xi) / (4 + 32 * xi) <= 0); [apply div_le; lra|lra]|lra]).
    apply Rlt_le_trans with (55/100 * (22/100)); [lra|]. apply Rmult_le_compat; lra.
  - apply Rnot_le_lt in A.
    assert (G : gb_gamma xi <= INR 1 / INR 1).
    { unfold gb_gamma. replace (INR 1 / INR 1) with 1 by (simpl; lra). assert ((5/100 - xi) / (3/10 + 6 * xi) <= 1/10); [apply div_le; lra|lra]. }
    pose proof (power_mono _ _ G) as P. assert (Q : 2/10 <= Rpower (2/10) (INR 1 / INR 1)) by (apply power_ge; [lra|lia|lra]).
    assert (H2 : 1 <= gb_eta2 xi). { assert (0 <= (5/100 - xi) / (8/100 + 16/10 * xi)) by (apply div_ge; lra). lra. }
    assert (H1 : gb_eta1 xi <= 3/100). { apply eta1_le; [|lra]. assert ((5/100 - xi) / (4 + 32 * xi) <= 1/100); [apply div_le; lra|lra]. }
    apply Rlt_le_trans with (1 * (2/10)); [lra|]. apply Rmult_le_compat; lra.
  - apply Rnot_le_lt in B.
    assert (G : gb_gamma xi <= INR 16 / INR 15).
    { unfold gb_gamma. replace (INR 16 / INR 15) with (16/15) by (simpl; lra). assert ((5/100 - xi) / (3/10 + 6 * xi) <= 1/6); [apply div_le; lra|lra]. }
    pose proof (power_mono _ _ G) as P. assert (Q : 17/100 <= Rpower (2/10) (INR 16 / INR 15)) by (apply power_ge; [lra|lia|lra]).
    assert (H2 : 12/10 <= gb_eta2 xi). { assert (2/10 <= (5/100 - xi) / (8/100 + 16/10 * xi)) by (apply div_ge; lra). lra. }
    assert (H1 : gb_eta1 xi <= 325/10000). { apply eta1_le; [|lra]. assert ((5/100 - xi) / (4 + 32 * xi) <= 125/10000); [apply div_le; lra|lra]. }
    apply Rlt_le_trans with (12/10 * (17/100)); [lra|]. apply Rmult_le_compat; lra.
Qed.
Lemma c54_positive alpha Tg xi t : 0 < alpha -> 0 < Tg -> 0 <= xi -> 0 <= t <= 6 -> 0 < gb50011_at alpha Tg xi t.
Proof.
  intros A T X Ht. pose proof (eta2_ge xi) as E2. unfold gb50011_at.
  destruct (rltb_case t (1/10)) as [(L & ->)|(L & ->)].
  - replace (45/100 * alpha + (gb_eta2 xi - 45/100) * alpha / (1/10) * t) with (alpha * (45/100 + (gb_eta2 xi - 45/100) * (10 * t))) by field.
    apply Rmult_lt_0_compat; [exact A|]. assert (0 <= (gb_eta2 xi - 45/100) * (10 * t)) by (apply Rmult_le_pos; lra). lra.
  - destruct (rltb_case t Tg) as [(L2 & ->)|(L2 & ->)]; [apply Rmult_lt_0_compat; lra|].
    destruct (rltb_case t (5 * Tg)) as [(L3 & ->)|(L3 & ->)].
    + apply Rmult_lt_0_compat; [|exact A]. apply Rmult_lt_0_compat; [apply exp_pos|lra].
    + apply Rmult_lt_0_compat; [|exact A]. pose proof (tail_margin xi X) as M. pose proof (eta1_nonneg xi) as E1.
      assert (gb_eta1 xi * (t - 5 * Tg) <= gb_eta1 xi * 6) by (apply Rmult_le_compat_l; lra). lra.
Qed.
Lemma gamma_pos xi : 0 <= xi -> 0 < gb_gamma xi.
Proof. intros X. unfold gb_gamma. assert (-1/6 <= (5/100 - xi) / (3/10 + 6 * xi)) by (apply div_ge; lra). lra. Qed.
Lemma rpower_le_1 x g : 0 < x <= 1 -> 0 < g -> Rpower x g <= 1.
Proof.
  intros [X1 X2] G. unfold Rpower. rewrite <- exp_0. destruct (Req_dec x 1) as [->|N]; [rewrite ln_1; rewrite Rmult_0_r; lra|].
  assert (ln x < 0) by (rewrite <- ln_1; apply ln_increasing; lra). left. apply exp_increasing. nra.
Qed.
Lemma rpower_mono x y g : 0 < x -> x <= y -> 0 < g -> Rpower x g <= Rpower y g.
Proof.
  intros X H G. destruct (Req_dec x y) as [->|N]; [lra|]. assert (ln x < ln y) by (apply ln_increasing; lra). left. unfold Rpower. apply exp_increasing. nra.
Qed.
(** from 0.1 s on the curve never rises *)
Lemma c54_falls alpha Tg xi : 0 <= alpha -> 0 < Tg -> 0 <= xi -> falls_from (1/10) (gb50011_at alpha Tg xi).
Proof.
  intros A T X s t Hs Hst. pose proof (eta2_ge xi) as E2. pose proof (eta1_nonneg xi) as E1. pose proof (gamma_pos xi X) as G.
  assert (EA : 0 <= gb_eta2 xi * alpha) by (apply Rmult_le_pos; lra).
  unfold gb50011_at. rewrite (rltb_f s (1/10)), (rltb_f t (1/10)) by lra.
  destruct (rltb_case t Tg) as [(L & ->)|(L & ->)].
  - rewrite (rltb_t s Tg) by lra. lra.
  - destruct (rltb_case t (5 * Tg)) as [(L2 & ->)|(L2 & ->)].
    + assert (P : Rpower (Tg / t) (gb_gamma xi) <= 1).
      { apply rpower_le_1; [|exact G]. split; [apply Rdiv_lt_0_compat; lra|apply div_le; lra]. }
      rewrite Rmult_assoc. destruct (rltb_case s Tg) as [(L3 & ->)|(L3 & ->)].
      * rewrite <- (Rmult_1_l (gb_eta2 xi * alpha)) at 2. apply Rmult_le_compat_r; assumption.
      * rewrite (rltb_t s (5 * Tg)) by lra. rewrite (Rmult_assoc (Rpower (Tg / s) _)). apply Rmult_le_compat_r; [exact EA|].
        apply rpower_mono; [apply Rdiv_lt_0_compat; lra| |exact G]. unfold Rdiv. apply Rmult_le_compat_l; [lra|]. apply Rinv_le_contravar; lra.
    + assert (TAIL : forall u, 5 * Tg <= u -> (gb_eta2 xi * Rpower (2/10) (gb_gamma xi) - gb_eta1 xi * (u - 5 * Tg)) * alpha <= Rpower (2/10) (gb_gamma xi) * (gb_eta2 xi * alpha)).
      { intros u U. assert (0 <= gb_eta1 xi * (u - 5 * Tg)) by (apply Rmult_le_pos; lra).
        replace (Rpower (2/10) (gb_gamma xi) * (gb_eta2 xi * alpha)) with ((gb_eta2 xi * Rpower (2/10) (gb_gamma xi)) * alpha) by ring.
        apply Rmult_le_compat_r; lra. }
      destruct (rltb_case s Tg) as [(L3 & ->)|(L3 & ->)]; [|destruct (rltb_case s (5 * Tg)) as [(L4 & ->)|(L4 & ->)]].
      * apply Rle_trans with (1 := TAIL t L2). rewrite <- (Rmult_1_l (gb_eta2 xi * alpha)) at 2. apply Rmult_le_compat_r; [exact EA|].
        apply rpower_le_1; [lra|exact G].
      * apply Rle_trans with (1 := TAIL t L2). rewrite (Rmult_assoc (Rpower (Tg / s) _)). apply Rmult_le_compat_r; [exact EA|].
        apply rpower_mono; [lra| |exact G]. apply div_ge; lra.
      * apply Rmult_le_compat_r; [exact A|]. assert (gb_eta1 xi * (s - 5 * Tg) <= gb_eta1 xi * (t - 5 * Tg)) by (apply Rmult_le_compat_l; lra). lra.
Qed.
Lemma c54_peak alpha Tg xi t : 0 <= alpha -> 0 < Tg -> 0 <= xi -> 0 <= t -> gb50011_at alpha Tg xi t <= gb_eta2 xi * alpha.
Proof.
  intros A T X Ht. pose proof (eta2_ge xi) as E2. assert (EA : 0 <= gb_eta2 xi * alpha) by (apply Rmult_le_pos; lra).
  destruct (Rlt_dec t (1/10)) as [L|L].
  - unfold gb50011_at. rewrite rltb_t by exact L.
    replace (45/100 * alpha + (gb_eta2 xi - 45/100) * alpha / (1/10) * t) with (alpha * (45/100 + (gb_eta2 xi - 45/100) * (10 * t))) by field.
    rewrite (Rmult_comm (gb_eta2 xi)). apply Rmult_le_compat_l; [exact A|].
    assert ((gb_eta2 xi - 45/100) * (10 * t) <= (gb_eta2 xi - 45/100) * 1) by (apply Rmult_le_compat_l; lra). lra.
  - apply Rle_trans with (gb50011_at alpha Tg xi (1/10)); [apply c54_falls; lra|].
    unfold gb50011_at. rewrite rltb_f by lra. pose proof (gamma_pos xi X) as G. pose proof (eta1_nonneg xi) as E1.
    destruct (rltb_case (1/10) Tg) as [(L1 & ->)|(L1 & ->)]; [lra|]. destruct (rltb_case (1/10) (5 * Tg)) as [(L2 & ->)|(L2 & ->)].
    + rewrite Rmult_assoc. rewrite <- (Rmult_1_l (gb_eta2 xi * alpha)) at 2. apply Rmult_le_compat_r; [exact EA|].
      apply rpower_le_1; [|exact G]. split; [apply Rdiv_lt_0_compat; lra|apply div_le; lra].
    + apply Rmult_le_compat_r; [exact A|]. assert (0 <= gb_eta1 xi * (1/10 - 5 * Tg)) by (apply Rmult_le_pos; lra).
      assert (gb_eta2 xi * Rpower (2/10) (gb_gamma xi) <= gb_eta2 xi * 1) by (apply Rmult_le_compat_l; [lra|apply rpower_le_1; [lra|exact G]]). lra.
Qed.
