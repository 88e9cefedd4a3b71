(** Section and material constants. *)
From Coq Require Import Machin Ratan Reals Lra Lia List.
From Verif Require Import Base Sections SpecSection TanhFacts.
Import ListNotations.
Local Open Scope R_scope.

(** ** C44 *)
Lemma c44_shear m : 1 + m_mu m <> 0 -> mat_G m * (2 * (1 + m_mu m)) = m_E m.
Proof. intros H. unfold mat_G. field. exact H. Qed.

(** what is reported is the Lame constant divided by mu *)
Lemma c44_lamda_partial m : 1 + m_mu m <> 0 -> 1 - 2 * m_mu m <> 0 ->
  m_mu m * mat_lamda m = m_E m * m_mu m / ((1 + m_mu m) * (1 - 2 * m_mu m)).
Proof. intros H1 H2. unfold mat_lamda. field. split; assumption. Qed.

Lemma c44_lamda_iff m : 1 + m_mu m <> 0 -> 1 - 2 * m_mu m <> 0 ->
  (mat_lamda m = m_E m * m_mu m / ((1 + m_mu m) * (1 - 2 * m_mu m)) <-> m_E m = 0 \/ m_mu m = 1).
Proof.
  intros H1 H2. unfold mat_lamda. split.
  - intros H.
    assert (Z : m_E m * (1 - m_mu m) = 0).
    { apply (f_equal (fun t => t * ((1 + m_mu m) * (1 - 2 * m_mu m)))) in H.
      replace (m_E m / (1 + m_mu m) / (1 - 2 * m_mu m) * ((1 + m_mu m) * (1 - 2 * m_mu m))) with (m_E m) in H by (field; split; assumption).
      replace (m_E m * m_mu m / ((1 + m_mu m) * (1 - 2 * m_mu m)) * ((1 + m_mu m) * (1 - 2 * m_mu m))) with (m_E m * m_mu m) in H by (field; split; assumption).
      lra. }
    apply Rmult_integral in Z as [Z|Z]; [left; exact Z|right; lra].
  - intros [E|E]; rewrite E in *; field; split; lra.
Qed.

Lemma c44_lamda_refuted : exists m, 0 < m_E m /\ 0 < m_mu m < 1/2 /\
  mat_lamda m <> m_E m * m_mu m / ((1 + m_mu m) * (1 - 2 * m_mu m)).
Proof.
  exists (Mat 7850 200 (3/10) 0). cbn [m_E m_mu]. split; [lra|]. split; [lra|].
  intros H. apply (c44_lamda_iff (Mat 7850 200 (3/10) 0)) in H; cbn [m_E m_mu] in *; [|lra|lra].
  destruct H; lra.
Qed.

(** ** C43: box *)
Lemma c43_box m h b tw tf : 0 < tw -> 2 * tw < b -> 0 < tf -> 2 * tf < h ->
  exists s, mk_box m h b tw tf = Some s
  /\ s_A s = area (box_parts h b tw tf) /\ s_I22 s = inertia_width (box_parts h b tw tf)
  /\ s_I33 s = inertia_height (box_parts h b tw tf)
  /\ s_J s = 4 * ((h - tf) * (b - tw)) ^ 2 / (2 * (b - tw) / tf + 2 * (h - tf) / tw)
  /\ s_W22 s = s_I22 s / (b / 2) /\ s_W33 s = s_I33 s / (h / 2)
  /\ 0 < s_A s /\ 0 < s_I22 s /\ 0 < s_I33 s /\ 0 < s_J s /\ 0 < s_W22 s /\ 0 < s_W33 s.
Proof.
  intros W B F H. exists (box_section m h b tw tf).
  assert (D : 0 < 2 * ((b - tw) / tf + (h - tf) / tw)).
  { apply Rmult_lt_0_compat; [lra|]. apply Rplus_lt_0_compat; apply Rdiv_lt_0_compat; lra. }
  assert (D' : 0 < 2 * (b - tw) / tf + 2 * (h - tf) / tw).
  { apply Rplus_lt_0_compat; apply Rdiv_lt_0_compat; lra. }
  assert (EA : s_A (box_section m h b tw tf) = area (box_parts h b tw tf)).
  { unfold area, box_parts; cbn. field. }
  assert (E2 : s_I22 (box_section m h b tw tf) = inertia_width (box_parts h b tw tf)).
  { unfold inertia_width, box_parts; cbn. field. }
  assert (E3 : s_I33 (box_section m h b tw tf) = inertia_height (box_parts h b tw tf)).
  { unfold inertia_height, box_parts; cbn. field. }
  assert (EJ : s_J (box_section m h b tw tf) = 4 * ((h - tf) * (b - tw)) ^ 2 / (2 * (b - tw) / tf + 2 * (h - tf) / tw)).
  { replace (2 * (b - tw) / tf + 2 * (h - tf) / tw) with (2 * ((b - tw) / tf + (h - tf) / tw)) by (field; lra).
    unfold box_section; cbn [s_J]. revert D. generalize (2 * ((b - tw) / tf + (h - tf) / tw)). intros a Ha. field. lra. }
  assert (PA : 0 < area (box_parts h b tw tf)).
  { unfold area, box_parts; cbn. assert (0 < tw * h) by (apply Rmult_lt_0_compat; lra).
    assert (0 < (b - 2 * tw) * tf) by (apply Rmult_lt_0_compat; lra). lra. }
  assert (pos3 : forall a c d, 0 < a -> 0 < c -> 0 < a * c ^ 3 / 12 + c * a * d ^ 2 /\ 0 < a * c ^ 3 / 12 + a * c * d ^ 2).
  { intros a c d Ha Hc. assert (0 < a * c ^ 3) by (apply Rmult_lt_0_compat; [lra|apply pow_lt; lra]).
    assert (0 <= a * c * d ^ 2) by (apply Rmult_le_pos; [apply Rmult_le_pos; lra|apply pow2_ge_0]). split; lra. }
  assert (P2 : 0 < inertia_width (box_parts h b tw tf)).
  { unfold inertia_width, box_parts; cbn [total p_w p_h p_y p_z].
    destruct (pos3 h tw ((b - tw) / 2)) as [Q1 _]; [lra|lra|]. destruct (pos3 h tw (- (b - tw) / 2)) as [Q2 _]; [lra|lra|].
    destruct (pos3 tf (b - 2*tw) 0) as [Q3 _]; [lra|lra|]. lra. }
  assert (P3 : 0 < inertia_height (box_parts h b tw tf)).
  { unfold inertia_height, box_parts; cbn [total p_w p_h p_y p_z].
    destruct (pos3 tw h 0) as [_ Q1]; [lra|lra|]. destruct (pos3 (b - 2*tw) tf ((h - tf) / 2)) as [_ Q2]; [lra|lra|].
    destruct (pos3 (b - 2*tw) tf (- (h - tf) / 2)) as [_ Q3]; [lra|lra|]. lra. }
  assert (PJ : 0 < s_J (box_section m h b tw tf)).
  { rewrite EJ. apply Rdiv_lt_0_compat; [|exact D']. apply Rmult_lt_0_compat; [lra|]. apply pow_lt, Rmult_lt_0_compat; lra. }
  split.
  - unfold mk_box.
    assert (N : forall x, 0 < x -> Reqb x 0 = false).
    { intros x Hx. unfold Reqb. destruct (Req_EM_T x 0); [lra|reflexivity]. }
    rewrite !N by lra. reflexivity.
  - rewrite EA, E2, E3. split; [reflexivity|]. split; [reflexivity|]. split; [reflexivity|]. split; [exact EJ|].
    assert (V2 : s_W22 (box_section m h b tw tf) = s_I22 (box_section m h b tw tf) / (b / 2)) by reflexivity.
    assert (V3 : s_W33 (box_section m h b tw tf) = s_I33 (box_section m h b tw tf) / (h / 2)) by reflexivity.
    rewrite V2, V3, E2, E3. split; [reflexivity|]. split; [reflexivity|]. split; [exact PA|]. split; [exact P2|].
    split; [exact P3|]. split; [exact PJ|]. split; apply Rdiv_lt_0_compat; lra.
Qed.

Lemma Reqb_pos x : 0 < x -> Reqb x 0 = false.
Proof. intros Hx. unfold Reqb. destruct (Req_EM_T x 0); [lra|reflexivity]. Qed.

(** ** C43: I shape *)
Lemma beta_pos x y : 0 < x -> 0 < y -> 0 < 1/3 - 64*y/(pi6^5*x) * odd_series 15 x y.
Proof.
  intros Hx Hy. pose proof (series_le 15 x y Hx Hy) as H. pose proof S4_15 as Q.
  assert (P6 : 0 < pi6) by (unfold pi6; lra). assert (P4 : 0 < pi6 ^ 4) by (apply pow_lt; lra).
  assert (C : 0 < 64*y/(pi6^5*x)).
  { apply Rdiv_lt_0_compat; [lra|]. apply Rmult_lt_0_compat; [apply pow_lt|]; lra. }
  apply (Rmult_le_compat_l _ _ _ (Rlt_le _ _ C)) in H.
  replace (64 * y / (pi6 ^ 5 * x) * (pi6 * x / 2 / y * S4 15)) with (96 * S4 15 / pi6 ^ 4 / 3) in H by (field; lra).
  assert (96 * S4 15 / pi6 ^ 4 < 1).
  { apply (Rmult_lt_reg_r (pi6 ^ 4)); [exact P4|]. unfold Rdiv. rewrite Rmult_assoc, Rinv_l by lra. lra. }
  lra.
Qed.

Lemma c43_I_partial m h b tw tf : 0 < tw -> tw <= b -> 0 < tf -> 2 * tf < h ->
  exists s, mk_I m h b tw tf = Some s
  /\ s_A s = area (I_parts h b tw tf)
  /\ s_I33 s = inertia_height (I_parts h b tw tf)
  /\ s_I22 s = inertia_width (I_parts h b tw tf) + tf * tw ^ 3 / 6
  /\ s_W22 s = s_I22 s / (b / 2) /\ s_W33 s = s_I33 s / (h / 2)
  /\ 0 < s_A s /\ 0 < s_I22 s /\ 0 < s_I33 s /\ 0 < s_J s /\ 0 < s_W22 s /\ 0 < s_W33 s.
Proof.
  intros W B F H. exists (I_section m h b tw tf).
  assert (EA : s_A (I_section m h b tw tf) = area (I_parts h b tw tf)).
  { unfold area, I_parts; cbn. field. }
  assert (E3 : s_I33 (I_section m h b tw tf) = inertia_height (I_parts h b tw tf)).
  { unfold inertia_height, I_parts; cbn. field. }
  assert (E2 : s_I22 (I_section m h b tw tf) = inertia_width (I_parts h b tw tf) + tf * tw ^ 3 / 6).
  { unfold inertia_width, I_parts; cbn. field. }
  assert (V2 : s_W22 (I_section m h b tw tf) = s_I22 (I_section m h b tw tf) / (b / 2)) by reflexivity.
  assert (V3 : s_W33 (I_section m h b tw tf) = s_I33 (I_section m h b tw tf) / (h / 2)) by reflexivity.
  assert (PJ : 0 < s_J (I_section m h b tw tf)).
  { unfold I_section; cbn [s_J]. pose proof (beta_pos tf b F ltac:(lra)) as B1. pose proof (beta_pos tw (h - 2 * tf) W ltac:(lra)) as B2.
    apply Rplus_lt_0_compat.
    - apply Rmult_lt_0_compat; [|lra]. apply Rmult_lt_0_compat; [|exact B1]. apply Rmult_lt_0_compat; [lra|apply pow_lt; lra].
    - apply Rmult_lt_0_compat; [|exact B2]. apply Rmult_lt_0_compat; [lra|apply pow_lt; lra]. }
  assert (Q : 0 < tf * tw ^ 3) by (apply Rmult_lt_0_compat; [lra|apply pow_lt; lra]).
  assert (PA : 0 < area (I_parts h b tw tf)).
  { unfold area, I_parts; cbn. assert (0 < b * tf) by (apply Rmult_lt_0_compat; lra).
    assert (0 < tw * (h - 2 * tf)) by (apply Rmult_lt_0_compat; lra). lra. }
  assert (p3 : forall a c, 0 < a -> 0 < c -> 0 < a * c ^ 3) by (intros; apply Rmult_lt_0_compat; [lra|apply pow_lt; lra]).
  assert (p2 : forall a c d, 0 < a -> 0 < c -> 0 <= a * c * d ^ 2) by (intros; apply Rmult_le_pos; [apply Rmult_le_pos; lra|apply pow2_ge_0]).
  assert (P2 : 0 < inertia_width (I_parts h b tw tf)).
  { unfold inertia_width, I_parts; cbn [total p_w p_h p_y p_z].
    pose proof (p3 tf b F ltac:(lra)). pose proof (p3 (h - 2*tf) tw ltac:(lra) W). lra. }
  assert (P3 : 0 < inertia_height (I_parts h b tw tf)).
  { unfold inertia_height, I_parts; cbn [total p_w p_h p_y p_z].
    pose proof (p3 b tf ltac:(lra) F). pose proof (p3 tw (h - 2*tf) W ltac:(lra)).
    pose proof (p2 b tf ((h - tf) / 2) ltac:(lra) F). pose proof (p2 b tf (- (h - tf) / 2) ltac:(lra) F). lra. }
  split.
  - unfold mk_I. rewrite !Reqb_pos by lra. reflexivity.
  - rewrite V2, V3, EA, E2, E3. split; [reflexivity|]. split; [reflexivity|]. split; [reflexivity|]. split; [reflexivity|].
    split; [reflexivity|]. split; [exact PA|]. split; [lra|]. split; [exact P3|]. split; [exact PJ|].
    split; apply Rdiv_lt_0_compat; lra.
Qed.

Lemma c43_I_refuted m h b tw tf s : 0 < tw -> tw <= b -> 0 < tf -> 2 * tf < h -> mk_I m h b tw tf = Some s ->
  inertia_width (I_parts h b tw tf) < s_I22 s.
Proof.
  intros W B F H E. destruct (c43_I_partial m h b tw tf W B F H) as (s' & E' & _ & _ & I2 & _).
  rewrite E in E'. injection E' as <-. rewrite I2.
  assert (0 < tf * tw ^ 3) by (apply Rmult_lt_0_compat; [lra|apply pow_lt; lra]). lra.
Qed.

(** ** C43: rectangle *)
Lemma c43_rectangle m h b : 0 < h -> 0 < b ->
  exists s, mk_rectangle m h b = Some s
  /\ s_A s = area [Part b h 0 0] /\ s_I22 s = inertia_width [Part b h 0 0] /\ s_I33 s = inertia_height [Part b h 0 0]
  /\ s_W22 s = s_I22 s / (b / 2) /\ s_W33 s = s_I33 s / (h / 2)
  /\ 0 < s_A s /\ 0 < s_I22 s /\ 0 < s_I33 s /\ 0 < s_W22 s /\ 0 < s_W33 s.
Proof.
  intros H B. exists (rectangle_section m h b).
  assert (p3 : forall a c, 0 < a -> 0 < c -> 0 < a * c ^ 3) by (intros; apply Rmult_lt_0_compat; [lra|apply pow_lt; lra]).
  assert (P2 : 0 < h * b ^ 3 / 12) by (pose proof (p3 h b H B); lra).
  assert (P3 : 0 < b * h ^ 3 / 12) by (pose proof (p3 b h B H); lra).
  split; [unfold mk_rectangle; rewrite !Reqb_pos by lra; reflexivity|].
  unfold rectangle_section; cbn [s_A s_I22 s_I33 s_W22 s_W33].
  split; [unfold area; cbn; ring|]. split; [unfold inertia_width; cbn; field|]. split; [unfold inertia_height; cbn; field|].
  split; [reflexivity|]. split; [reflexivity|]. split; [apply Rmult_lt_0_compat; lra|]. split; [exact P2|]. split; [exact P3|].
  split; apply Rdiv_lt_0_compat; lra.
Qed.

(** torsion constant of a rectangle: positive down to h = b / 1000 *)
Lemma c43_rectangle_J_partial m h b : 0 < b -> b / 1000 <= h -> 0 < s_J (rectangle_section m h b).
Proof.
  intros B H. assert (Hh : 0 < h) by lra. unfold rectangle_section; cbn [s_J].
  apply Rmult_lt_0_compat; [apply Rmult_lt_0_compat; [exact Hh|apply pow_lt; exact B]|].
  assert (P6 : 0 < pi6) by (unfold pi6; lra). assert (P4 : 0 < pi6 ^ 4) by (apply pow_lt; lra).
  assert (T : tanh (pi6 * h / 2 / b) <= pi6 * h / 2 / b * (1 - 1 / 10000000)).
  { apply (tanh_gain _ (123 / 100000)); try lra.
    apply (Rmult_le_reg_r (2 * b)); [lra|]. replace (pi6 * h / 2 / b * (2 * b)) with (pi6 * h) by (field; lra). unfold pi6. lra. }
  pose proof (series_gain 29 (1 / 10000000) h b Hh B ltac:(lra) T) as S. destruct S4_30 as [_ Q].
  assert (C : 0 < 64*b/(pi6^5*h)).
  { apply Rdiv_lt_0_compat; [lra|]. apply Rmult_lt_0_compat; [apply pow_lt|]; lra. }
  apply (Rmult_le_compat_l _ _ _ (Rlt_le _ _ C)) in S.
  replace (64 * b / (pi6 ^ 5 * h) * (pi6 * h / 2 / b * (S4 30 - 1 / 10000000))) with (96 * (S4 30 - 1 / 10000000) / pi6 ^ 4 / 3) in S by (field; lra).
  assert (96 * (S4 30 - 1 / 10000000) / pi6 ^ 4 < 1).
  { apply (Rmult_lt_reg_r (pi6 ^ 4)); [exact P4|]. unfold Rdiv at 1. rewrite Rmult_assoc, Rinv_l by lra. lra. }
  lra.
Qed.

(** and negative for very flat ones: pi and the series are truncated *)
Lemma c43_rectangle_J_refuted m h b : 0 < h -> 0 < b -> h * 10000000000 <= b -> s_J (rectangle_section m h b) < 0.
Proof.
  intros Hh B H. unfold rectangle_section; cbn [s_J].
  assert (P6 : 0 < pi6) by (unfold pi6; lra). assert (P4 : 0 < pi6 ^ 4) by (apply pow_lt; lra).
  assert (P : 0 < h * b ^ 3) by (apply Rmult_lt_0_compat; [exact Hh|apply pow_lt; exact B]).
  pose proof (series_ge 30 30 h b (le_n _) Hh B) as S. set (r := pi6 * h / 2 / b) in *.
  assert (R0 : 0 < r) by (apply ratio_nonneg; assumption).
  assert (R1 : r <= 2 / 10000000000).
  { unfold r. apply (Rmult_le_reg_r (2 * b)); [lra|]. replace (pi6 * h / 2 / b * (2 * b)) with (pi6 * h) by (field; lra). unfold pi6. lra. }
  replace (INR (2 * 30)) with 60 in S by (rewrite INR_IZR_INZ; reflexivity).
  destruct S4_30 as [Q _].
  assert (C : 0 < 64*b/(pi6^5*h)).
  { apply Rdiv_lt_0_compat; [lra|]. apply Rmult_lt_0_compat; [apply pow_lt|]; lra. }
  apply (Rmult_le_compat_l _ _ _ (Rlt_le _ _ C)) in S.
  replace (64 * b / (pi6 ^ 5 * h) * (r * S4 30 / (1 + 60 * r))) with (96 * S4 30 / pi6 ^ 4 / 3 / (1 + 60 * r)) in S
    by (unfold r; field; repeat split; try lra; fold r; intros Z; assert (2 * b + 60 * pi6 * h > 0) by nra; lra).
  assert (G : 1 < 96 * S4 30 / pi6 ^ 4 / (1 + 60 * r)).
  { apply (Rmult_lt_reg_r (pi6 ^ 4 * (1 + 60 * r))); [apply Rmult_lt_0_compat; lra|].
    replace (96 * S4 30 / pi6 ^ 4 / (1 + 60 * r) * (pi6 ^ 4 * (1 + 60 * r))) with (96 * S4 30) by (field; lra).
    apply Rle_lt_trans with (pi6 ^ 4 * (1 + 7 / 100000000)); [|exact Q].
    rewrite Rmult_1_l. apply Rmult_le_compat_l; lra. }
  assert (N : 0 < h * b ^ 3 * (64 * b / (pi6 ^ 5 * h) * odd_series 30 h b - 1/3)).
  { apply Rmult_lt_0_compat; [exact P|]. unfold Rdiv in *. lra. }
  lra.
Qed.

(** ** C43: circle and pipe *)
Lemma pi_close : 314159/100000 < PI < 31416/10000.
Proof.
  pose proof (PI_2_3_7_ineq 3) as [A B]. unfold tg_alt, PI_2_3_7_tg, Ratan_seq in A, B. cbn in A, B. lra.
Qed.
Lemma pi5_close c : 0 <= c -> close (pi5 * c) (PI * c).
Proof.
  intros H. unfold close. replace (pi5 * c - PI * c) with ((pi5 - PI) * c) by ring. pose proof pi_close.
  rewrite Rabs_mult, (Rabs_right c), Rabs_left by (unfold pi5; lra). unfold pi5. nra.
Qed.
Lemma c43_circle m d : 0 < d ->
  exists s, mk_circle m d = Some s
  /\ close (s_A s) (PI * (d ^ 2 / 4)) /\ close (s_I22 s) (PI * (d ^ 4 / 64))
  /\ s_I22 s = s_I33 s /\ s_J s = s_I22 s + s_I33 s
  /\ s_W22 s = s_I22 s / (d / 2) /\ s_W33 s = s_I33 s / (d / 2)
  /\ 0 < s_A s /\ 0 < s_I22 s /\ 0 < s_J s /\ 0 < s_W22 s.
Proof.
  intros H. exists (circle_section m d). split; [unfold mk_circle; rewrite Reqb_pos by lra; reflexivity|].
  unfold circle_section; cbn [s_A s_I22 s_I33 s_W22 s_W33 s_J].
  assert (0 < d ^ 2) by (apply pow_lt; lra). assert (0 < d ^ 4) by (apply pow_lt; lra).
  replace (pi5 / 4 * d ^ 2) with (pi5 * (d ^ 2 / 4)) by field. replace (pi5 / 64 * d ^ 4) with (pi5 * (d ^ 4 / 64)) by field.
  split; [apply pi5_close; lra|]. split; [apply pi5_close; lra|]. unfold pi5.
  split; [reflexivity|]. split; [field|]. split; [reflexivity|]. split; [reflexivity|].
  repeat split; try lra. apply Rdiv_lt_0_compat; lra.
Qed.

Lemma c43_pipe m d t : 0 < t -> 2 * t <= d ->
  exists s, mk_pipe m d t = Some s
  /\ s_A s = s_A (circle_section m d) - s_A (circle_section m (d - 2 * t))
  /\ s_I22 s = s_I22 (circle_section m d) - s_I22 (circle_section m (d - 2 * t))
  /\ s_I33 s = s_I22 s /\ s_J s = s_I22 s + s_I33 s
  /\ s_W22 s = s_I22 s / (d / 2) /\ s_W33 s = s_I33 s / (d / 2)
  /\ 0 < s_A s /\ 0 < s_I22 s /\ 0 < s_J s /\ 0 < s_W22 s.
Proof.
  intros H1 H2. exists (pipe_section m d t). split; [unfold mk_pipe; rewrite Reqb_pos by lra; reflexivity|].
  unfold pipe_section, circle_section; cbn [s_A s_I22 s_I33 s_W22 s_W33 s_J].
  assert (A2 : 0 < d ^ 2 - (d - 2 * t) ^ 2) by nra.
  assert (A4 : 0 < d ^ 4 - (d - 2 * t) ^ 4).
  { replace (d ^ 4 - (d - 2 * t) ^ 4) with ((d ^ 2 - (d - 2 * t) ^ 2) * (d ^ 2 + (d - 2 * t) ^ 2)) by ring.
    apply Rmult_lt_0_compat; [exact A2|]. assert (0 < d ^ 2) by (apply pow_lt; lra). pose proof (pow2_ge_0 (d - 2 * t)). lra. }
  unfold pi5. split; [field|]. split; [field|]. split; [reflexivity|]. split; [field|]. split; [reflexivity|]. split; [reflexivity|].
  repeat split; try lra. apply Rdiv_lt_0_compat; lra.
Qed.

Lemma c43_solid_pipe m d : 0 < d ->
  let p := pipe_section m d (d / 2) in let c := circle_section m d in
  s_A p = s_A c /\ s_I22 p = s_I22 c /\ s_I33 p = s_I33 c /\ s_J p = s_J c /\ s_W22 p = s_W22 c /\ s_W33 p = s_W33 c.
Proof.
  intros H p c. unfold p, c, pipe_section, circle_section; cbn [s_A s_I22 s_I33 s_W22 s_W33 s_J].
  repeat split; field; lra.
Qed.

Lemma c43_solid_pipe_refuted m d : 0 < d -> s_As2 (pipe_section m d (d / 2)) < s_As2 (circle_section m d).
Proof.
  intros H. unfold pipe_section, circle_section; cbn [s_As2]. unfold pi5. assert (0 < d ^ 2) by (apply pow_lt; lra).
  replace (314159 / 100000 * (d / 2) * (d - d / 2) / 2) with (314159 / 800000 * d ^ 2) by field. lra.
Qed.

Lemma c43_I_exists : exists m h b tw tf s, 0 < tw /\ tw <= b /\ 0 < tf /\ 2 * tf < h
  /\ mk_I m h b tw tf = Some s /\ inertia_width (I_parts h b tw tf) <> s_I22 s.
Proof.
  destruct (c43_I_partial (Mat 1 2 (3/10) 0) 20 10 1 2) as (s & H & _); try lra.
  exists (Mat 1 2 (3/10) 0), 20, 10, 1, 2, s. repeat (split; [lra|]). split; [exact H|].
  apply Rlt_not_eq. apply (c43_I_refuted (Mat 1 2 (3/10) 0) 20 10 1 2 s); try lra; exact H.
Qed.
Lemma c43_J_exists : exists m h b s, 0 < h /\ 0 < b /\ mk_rectangle m h b = Some s /\ s_J s < 0.
Proof.
  exists (Mat 1 2 (3/10) 0), 1, 10000000000, (rectangle_section (Mat 1 2 (3/10) 0) 1 10000000000).
  split; [lra|]. split; [lra|]. split; [unfold mk_rectangle; rewrite !Reqb_pos by lra; reflexivity|]. apply c43_rectangle_J_refuted; lra.
Qed.
Lemma c43_solid_exists : exists m d p c, 0 < d /\ mk_pipe m d (d / 2) = Some p /\ mk_circle m d = Some c /\ s_As2 p <> s_As2 c.
Proof.
  exists (Mat 1 2 (3/10) 0), 2, (pipe_section (Mat 1 2 (3/10) 0) 2 (2/2)), (circle_section (Mat 1 2 (3/10) 0) 2).
  split; [lra|]. split; [unfold mk_pipe; rewrite Reqb_pos by lra; reflexivity|]. split; [unfold mk_circle; rewrite Reqb_pos by lra; reflexivity|].
  apply Rlt_not_eq, c43_solid_pipe_refuted. lra.
Qed.
