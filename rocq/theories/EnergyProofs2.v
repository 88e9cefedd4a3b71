(** Growth of the stored history of the direct integration, and the sign of the damping. *)
From Coq Require Import Reals List String Arith Bool ZArith Lra Lia.
From Verif Require Import Base BaseFacts Load FeModel Assembly Solver Dynamic SpecDyn SpecAsm SpecEnergy AsmProofs DynProofs EnergyProofs.
Import ListNotations.
Local Open Scope R_scope.

(** ** The damping of the free equations *)
Lemma filter_map_comm {A B} (f : A -> B) p q (l : list A) : (forall x, p (f x) = q x) -> filter p (map f l) = map f (filter q l).
Proof. intros H. induction l as [|x l IH]; [reflexivity|]. cbn [map filter]. rewrite H. destruct (q x); cbn [map]; rewrite IH; reflexivity. Qed.
Definition dropped (M : coo) (idx : list nat) : coo :=
  map (fun t => match t with (r, c, v) => (compact idx r, compact idx c, v) end)
    (filter (fun t => match t with (r, c, _) => (negb (memb r idx) && negb (memb c idx))%bool end) M).
Lemma drop_matrix_dropped n M idx N A : drop_matrix n M idx = Some (N, A) -> A = dropped M idx.
Proof.
  unfold drop_matrix. destruct (Nat.ltb _ _); [discriminate|]. unfold coo_make. destruct (coo_inrange _ _ _); [|discriminate].
  cbn [bindO]. intros H. apply some_inj in H. injection H as _ <-. reflexivity.
Qed.
Lemma dropped_app A B idx : dropped (A ++ B) idx = dropped A idx ++ dropped B idx.
Proof. unfold dropped. rewrite filter_app, map_app. reflexivity. Qed.
Lemma dropped_scale k A idx : dropped (coo_scale k A) idx = coo_scale k (dropped A idx).
Proof.
  unfold dropped, coo_scale.
  rewrite (filter_map_comm _ _ (fun t => match t with (r, c, _) => (negb (memb r idx) && negb (memb c idx))%bool end)) by (intros [[r c] v]; reflexivity).
  rewrite !map_map. apply map_ext. intros [[r c] v]. reflexivity.
Qed.
Lemma free_damping ext a c N K_ M_ C_ : free_system ext a c N K_ M_ C_ -> C_ = damping_matrix M_ K_.
Proof.
  intros (K & M & fx & _ & _ & _ & HK & (n2 & HM) & (n3 & HC)). cbv zeta in *.
  apply drop_matrix_dropped in HK, HM, HC. subst. unfold damping_matrix. rewrite dropped_app, !dropped_scale. reflexivity.
Qed.
Lemma modal_damping_value w : fst code_damping + snd code_damping * w^2 = modal_damping w.
Proof.
  pose proof PI_RGT_0 as P. unfold modal_damping, code_damping, rayleigh; cbn [fst snd]. field.
  split; [lra|]. replace ((2*PI)^2 - PI^2) with (3 * PI^2) by ring. apply Rmult_integral_contrapositive_currified; [lra|apply pow_nonzero; lra].
Qed.
Lemma damped_mode N K_ M_ w x y : symmetric_upto N (coo_get M_) -> symmetric_upto N (coo_get K_) -> mode_of N (coo_get K_) (coo_get M_) w x ->
  energy_form N (coo_get (damping_matrix M_ K_)) x y = modal_damping w * energy_form N (coo_get M_) x y.
Proof.
  intros SM SK HX.
  assert (E : energy_form N (coo_get (damping_matrix M_ K_)) x y = fst code_damping * energy_form N (coo_get M_) x y + snd code_damping * energy_form N (coo_get K_) x y).
  { unfold energy_form. rewrite <- !rsum_scal, <- rsum_plus. apply rsum_ext. intros i _.
    rewrite (rsum_ext N _ (fun j => fst code_damping * (coo_get M_ i j * y j) + snd code_damping * (coo_get K_ i j * y j))).
    2:{ intros j _. rewrite damping_get. ring. } rewrite rsum_plus, !rsum_scal. ring. }
  rewrite E, (mode_form N (coo_get K_) (coo_get M_) w x y SM SK HX), <- modal_damping_value. ring.
Qed.

(** C124 *)
Lemma c124_partial ext a c N K_ M_ C_ w x : free_system ext a c N K_ M_ C_ -> symmetric_upto N (coo_get M_) -> psd_upto N (coo_get M_) -> symmetric_upto N (coo_get K_) ->
  mode_of N (coo_get K_) (coo_get M_) w x -> 0 <= w <= 2 * PI / (1/2) -> 0 <= energy_form N (coo_get C_) x x.
Proof.
  intros FS SM PM SK HX W. rewrite (free_damping _ _ _ _ _ _ _ FS), (damped_mode N K_ M_ w x x SM SK HX). unfold modal_damping.
  pose proof PI_RGT_0 as P. apply Rmult_le_pos; [|rewrite ef_quad; apply PM].
  apply Rle_mult_inv_pos; [|lra]. assert (E : w <= 4 * PI) by lra. assert (Q : 0 <= (4*PI - w) * (4*PI + w)) by (apply Rmult_le_pos; lra). lra.
Qed.
Lemma c124_drives ext a c N K_ M_ C_ w x : free_system ext a c N K_ M_ C_ -> symmetric_upto N (coo_get M_) -> symmetric_upto N (coo_get K_) ->
  mode_of N (coo_get K_) (coo_get M_) w x -> 2 * PI / (1/2) < w -> 0 < energy_form N (coo_get M_) x x -> energy_form N (coo_get C_) x x < 0.
Proof.
  intros FS SM SK HX W PX. rewrite (free_damping _ _ _ _ _ _ _ FS), (damped_mode N K_ M_ w x x SM SK HX). unfold modal_damping.
  pose proof PI_RGT_0 as P. assert (E : 4 * PI < w) by lra. assert (Q : 0 < (w - 4*PI) * (w + 4*PI)) by (apply Rmult_lt_0_compat; lra).
  assert (D : 0 < (w^2 - 16 * PI^2) / (150 * PI)) by (apply Rdiv_lt_0_compat; lra).
  replace ((16 * PI^2 - w^2) / (150 * PI)) with (- ((w^2 - 16 * PI^2) / (150 * PI))) by (field; lra).
  assert (0 < (w^2 - 16 * PI^2) / (150 * PI) * energy_form N (coo_get M_) x x) by (apply Rmult_lt_0_compat; assumption). lra.
Qed.

(** ** The history of a mode *)
Lemma central_mode N K_ M_ w x dt f p q r : dt <> 0 -> symmetric_upto N (coo_get M_) -> symmetric_upto N (coo_get K_) -> mode_of N (coo_get K_) (coo_get M_) w x ->
  central_difference N (coo_get M_) (coo_get (damping_matrix M_ K_)) (coo_get K_) dt f p q r ->
  let h := modal_damping w * dt / 2 in
  (1 + h) * mode_share N (coo_get M_) x r = (2 - (w*dt)^2) * mode_share N (coo_get M_) x q - (1 - h) * mode_share N (coo_get M_) x p
     + dt^2 * rsum N (fun i => x i * nth i f 0).
Proof.
  intros D SM SK HX H h.
  assert (W : energy_form N (coo_get M_) x (fun j => (nth j r 0 - 2 * nth j q 0 + nth j p 0) / dt^2)
      + energy_form N (coo_get (damping_matrix M_ K_)) x (fun j => (nth j r 0 - nth j p 0) / (2 * dt))
      + energy_form N (coo_get K_) x (fun j => nth j q 0) = rsum N (fun i => x i * nth i f 0)).
  { unfold energy_form. rewrite <- !rsum_plus. apply rsum_ext. intros i Hi. rewrite <- (H i Hi). ring. }
  rewrite (damped_mode N K_ M_ w x _ SM SK HX), (mode_form N _ _ w x _ SM SK HX) in W.
  unfold mode_share. change (fun j => nth j q 0) with (as_vector q) in W.
  rewrite (ef_ext N _ x x (fun j => (nth j r 0 - 2 * nth j q 0 + nth j p 0) / dt^2)
       (fun j => (1/dt^2) * as_vector r j + (-2/dt^2) * as_vector q j + (1/dt^2) * as_vector p j)) in W;
    [|reflexivity|unfold as_vector; intros; field; exact D].
  rewrite (ef_ext N _ x x (fun j => (nth j r 0 - nth j p 0) / (2 * dt)) (fun j => (1/(2*dt)) * as_vector r j + (-1/(2*dt)) * as_vector p j)) in W;
    [|reflexivity|unfold as_vector; intros; field; exact D].
  rewrite !ef_plus_r, !ef_scal_r in W. rewrite <- W. unfold h. field. exact D.
Qed.

(** a real root below -1 *)
Lemma bad_root h z2 : -1 < h -> 0 <= z2 -> 2 * h + z2 < 2 -> exists l, l < -1 /\ (1 + h) * l^3 - (2 - z2) * l + (1 - h) = 0.
Proof.
  intros H Z C. set (k := 1 + h). set (p := fun l : R => k * l^3 - (2 - z2) * l + (1 - h)).
  set (b := 1 + 4 / k). assert (K : 0 < k) by (unfold k; lra). assert (B : 1 < b) by (unfold b; assert (0 < 4 / k) by (apply Rdiv_lt_0_compat; lra); lra).
  assert (B2 : 4 <= k * b^2).
  { unfold b. replace (k * (1 + 4/k)^2) with (k + 8 + 16 / k) by (field; lra). assert (0 < 16 / k) by (apply Rdiv_lt_0_compat; lra). lra. }
  assert (P1 : 0 < p (-1)) by (unfold p, k; lra).
  assert (P2 : p (- b) <= 0).
  { unfold p. assert (Q1 : 0 <= (k * b^2 - 4) * b) by (apply Rmult_le_pos; lra). assert (Q2 : 0 <= z2 * b) by (apply Rmult_le_pos; lra). unfold k in *. lra. }
  destruct (IVT_cor p (- b) (-1)) as (l & (L1 & L2) & L3).
  - unfold p. intros y. reg.
  - lra.
  - assert (0 <= - p (- b) * p (-1)) by (apply Rmult_le_pos; lra). lra.
  - exists l. split; [|exact L3]. destruct L2 as [L2|L2]; [exact L2|]. subst l. lra.
Qed.

Lemma row_at_of_nat s k : row_at s (Z.of_nat k) = nth k s [].
Proof. unfold row_at. destruct (Z.ltb_spec (Z.of_nat k) 0); [lia|]. rewrite Nat2Z.id. reflexivity. Qed.

(** C123 *)
Lemma c123_grows w dt p : dt <> 0 -> p <> 0 -> -1 < modal_damping w * dt / 2 -> modal_damping w * dt + (w*dt)^2 < 2 ->
  forall B, exists n0, forall ext a c damp s N K_ M_ C_ lc steps x f0, exact_cg ext -> solve_direct ext a c (Direct dt damp) = Some s ->
    free_system ext a c N K_ M_ C_ -> symmetric_upto N (coo_get M_) -> symmetric_upto N (coo_get K_) -> mode_of N (coo_get K_) (coo_get M_) w x ->
    dget c (a_cases a) = Some lc -> snd (case_max_min_step lc) = Some steps -> (n0 <= steps)%nat ->
    free_load a c 0 f0 -> rsum N (fun i => x i * nth i f0 0) = p ->
    (forall t f, (0 < t < steps)%nat -> free_load a c t f -> forall i, (i < N)%nat -> nth i f 0 = 0) ->
    exists r, In r s /\ B < Rabs (mode_share N (coo_get M_) x r).
Proof.
  intros D P H1 H2 B. set (h := modal_damping w * dt / 2) in *.
  destruct (bad_root h ((w*dt)^2) H1 (pow2_ge_0 _)) as (l & L & LR); [unfold h; lra|].
  set (A := (2 - (w*dt)^2) / (1 + h)). set (y1 := dt^2 * p / (1 + h)).
  assert (Y1 : y1 <> 0).
  { unfold y1, Rdiv. apply Rmult_integral_contrapositive_currified; [apply Rmult_integral_contrapositive_currified; [apply pow_nonzero; exact D|exact P]|].
    apply Rinv_neq_0_compat. lra. }
  set (W := 1 + Rabs l + Rabs (l^2 - A)).
  destruct (Pow_x_infinity l) with (b := (Rabs B + 1) * W / Rabs y1) as (n & HN). { rewrite Rabs_left; lra. }
  exists (S (S n)). intros ext a c damp s N K_ M_ C_ lc steps x f0 EX HS FS SM SK HX HD HT HL F0 FP FZ.
  destruct (c51_actual ext a c (Direct dt damp) s EX D HS) as (N' & K' & M' & C' & lc' & steps' & FS' & HD' & HT' & LEN & Z0 & _ & REL).
  assert (E : N = N' /\ K_ = K' /\ M_ = M' /\ C_ = C').
  { destruct FS as (K & M & fx & A1 & A2 & A3 & A4 & (n2 & A5) & (n3 & A6)). destruct FS' as (K2 & M2 & fx' & B1 & B2 & B3 & B4 & (n2' & B5) & (n3' & B6)).
    cbv zeta in *. assert (K = K2) by congruence. assert (M = M2) by congruence. assert (fx = fx') by congruence. subst. repeat split; congruence. }
  destruct E as (<- & <- & <- & <-). assert (lc' = lc) by congruence. subst lc'. assert (steps' = steps) by congruence. subst steps'.
  rewrite (free_damping _ _ _ _ _ _ _ FS) in *. cbn [dp_step] in REL.
  set (sh := mode_share N (coo_get M_) x) in *.
  set (y := fun z => sh (row_at s z)).
  assert (NIL : sh [] = 0).
  { unfold sh, mode_share, energy_form. apply rsum_0. intros i _. rewrite rsum_0; [ring|]. intros j _. unfold as_vector. destruct j; cbn [nth]; ring. }
  assert (YN : forall z, (z < 0)%Z -> y z = 0). { intros z Hz. unfold y, row_at. destruct (Z.ltb_spec z 0); [exact NIL|lia]. }
  assert (Y0 : y 0%Z = 0).
  { unfold y. change (row_at s 0) with (nth 0 s []). unfold sh, mode_share, energy_form. apply rsum_0. intros i _. rewrite rsum_0; [ring|].
    intros j _. unfold as_vector. rewrite Z0. ring. }
  assert (REC : forall t f, (t < steps)%nat -> free_load a c t f -> (1 + h) * y (Z.of_nat t + 1)%Z = (2 - (w*dt)^2) * y (Z.of_nat t - 1)%Z - (1 - h) * y (Z.of_nat t - 2)%Z + dt^2 * rsum N (fun i => x i * nth i f 0)).
  { intros t f Ht FL. destruct (REL t Ht) as (f' & FL' & CD).
    assert (f' = f). { destruct FL as (fx & v & A1 & A2 & ->). destruct FL' as (fx' & v' & B1 & B2 & ->). congruence. } subst f'.
    exact (central_mode N K_ M_ w x dt f _ _ _ D SM SK HX CD). }
  set (q := fun t => y (Z.of_nat t + 1)%Z + l * y (Z.of_nat t) + (l^2 - A) * y (Z.of_nat t - 1)%Z).
  assert (Q0 : q O = y1).
  { unfold q. cbn [Z.of_nat Z.add Z.sub Z.opp Z.pos_sub]. rewrite Y0, (YN (-1)%Z) by lia.
    pose proof (REC O f0 ltac:(lia) F0) as R. cbn [Z.of_nat] in R. rewrite (YN (0 - 1)%Z), (YN (0 - 2)%Z), FP in R by lia.
    change (0 + 1)%Z with 1%Z in R. unfold y1. apply Rmult_eq_reg_l with (1 + h); [|lra]. rewrite !Rmult_0_r, !Rplus_0_r.
    rewrite R. field. lra. }
  assert (QS : forall t, (S t < steps)%nat -> q (S t) = l * q t).
  { intros t Ht. destruct (REL (S t) Ht) as (f & FL & _). pose proof (REC (S t) f Ht FL) as R.
    rewrite (rsum_0 N (fun i => x i * nth i f 0)) in R by (intros i Hi; rewrite (FZ (S t) f ltac:(lia) FL i Hi); ring).
    unfold q. replace (Z.of_nat (S t) - 1)%Z with (Z.of_nat t) in * by lia. replace (Z.of_nat (S t) - 2)%Z with (Z.of_nat t - 1)%Z in R by lia.
    replace (Z.of_nat (S t)) with (Z.of_nat t + 1)%Z in * by lia.
    assert (R1 : y (Z.of_nat t + 1 + 1)%Z = A * y (Z.of_nat t) - (1 - h) / (1 + h) * y (Z.of_nat t - 1)%Z).
    { unfold A. apply Rmult_eq_reg_l with (1 + h); [|lra]. rewrite R. field. lra. }
    assert (R2 : l^3 - A * l = - ((1 - h) / (1 + h))).
    { unfold A. apply Rmult_eq_reg_l with (1 + h); [|lra]. replace ((1 + h) * (l^3 - (2 - (w*dt)^2) / (1 + h) * l)) with ((1 + h) * l^3 - (2 - (w*dt)^2) * l) by (field; lra).
      replace ((1 + h) * - ((1 - h) / (1 + h))) with (- (1 - h)) by (field; lra). lra. }
    rewrite R1. replace ((1 - h) / (1 + h)) with (A * l - l^3) by lra. ring. }
  assert (QN : forall t, (t < steps)%nat -> q t = l^t * y1).
  { induction t as [|t IH]; intros Ht; [rewrite Q0; cbn [pow]; ring|]. rewrite QS, IH by lia. cbn [pow]. ring. }
  assert (W0 : 1 <= W) by (unfold W; pose proof (Rabs_pos l); pose proof (Rabs_pos (l^2 - A)); lra).
  assert (BIG : (Rabs B + 1) * W <= Rabs (q (S n))).
  { rewrite QN by lia. rewrite Rabs_mult. specialize (HN (S n) ltac:(lia)).
    assert (AY : 0 < Rabs y1) by (apply Rabs_pos_lt; exact Y1).
    apply Rmult_le_reg_r with (/ Rabs y1); [apply Rinv_0_lt_compat; exact AY|]. rewrite (Rmult_assoc (Rabs (l^S n))), Rinv_r, Rmult_1_r by lra.
    apply Rge_le. exact HN. }
  assert (TRI : Rabs (q (S n)) <= Rabs (y (Z.of_nat (S n) + 1)%Z) + Rabs l * Rabs (y (Z.of_nat (S n))) + Rabs (l^2 - A) * Rabs (y (Z.of_nat (S n) - 1)%Z)).
  { unfold q. rewrite <- !Rabs_mult. eapply Rle_trans; [apply Rabs_triang|]. apply Rplus_le_compat_r. apply Rabs_triang. }
  assert (INS : forall k, (k <= S steps - 1)%nat -> In (nth k s []) s) by (intros k Hk; apply nth_In; lia).
  replace (Z.of_nat (S n) + 1)%Z with (Z.of_nat (S (S n))) in TRI by lia. replace (Z.of_nat (S n) - 1)%Z with (Z.of_nat n) in TRI by lia.
  unfold y in TRI. rewrite !row_at_of_nat in TRI.
  pose proof (RRle_abs B) as AB. pose proof (Rabs_pos B) as AB0.
  destruct (Rlt_le_dec B (Rabs (sh (nth (S (S n)) s [])))) as [G|G1]; [exists (nth (S (S n)) s []); split; [apply INS; lia|exact G]|].
  destruct (Rlt_le_dec B (Rabs (sh (nth (S n) s [])))) as [G|G2]; [exists (nth (S n) s []); split; [apply INS; lia|exact G]|].
  destruct (Rlt_le_dec B (Rabs (sh (nth n s [])))) as [G|G3]; [exists (nth n s []); split; [apply INS; lia|exact G]|].
  exfalso.
  assert (T2 : Rabs l * Rabs (sh (nth (S n) s [])) <= Rabs l * Rabs B) by (apply Rmult_le_compat_l; [apply Rabs_pos|lra]).
  assert (T3 : Rabs (l^2 - A) * Rabs (sh (nth n s [])) <= Rabs (l^2 - A) * Rabs B) by (apply Rmult_le_compat_l; [apply Rabs_pos|lra]).
  unfold W in BIG, W0. lra.
Qed.

(** What the discretised equation of motion itself does: without load and with damping that
    takes out energy, the energy never rises. *)
Lemma central_energy N M C K dt f p q r : dt <> 0 -> symmetric_upto N M -> symmetric_upto N K ->
  central_difference N M C K dt f p q r ->
  pair_energy N M K dt q r - pair_energy N M K dt p q
  = 1/2 * rsum N (fun i => (as_vector r i - as_vector p i) * nth i f 0)
    - 1 / (4 * dt) * energy_form N C (fun i => as_vector r i - as_vector p i) (fun i => as_vector r i - as_vector p i).
Proof.
  intros D SM SK H. set (d := fun i => as_vector r i - as_vector p i).
  assert (W : energy_form N M d (fun j => (nth j r 0 - 2 * nth j q 0 + nth j p 0) / dt^2)
      + energy_form N C d (fun j => (nth j r 0 - nth j p 0) / (2 * dt))
      + energy_form N K d (fun j => nth j q 0) = rsum N (fun i => d i * nth i f 0)).
  { unfold energy_form. rewrite <- !rsum_plus. apply rsum_ext. intros i Hi. rewrite <- (H i Hi). ring. }
  rewrite (ef_ext N C d d (fun j => (nth j r 0 - nth j p 0) / (2 * dt)) (fun j => 1/(2*dt) * d j)) in W;
    [|reflexivity|unfold d, as_vector; intros; field; exact D].
  rewrite ef_scal_r in W.
  set (v := fun i => (as_vector r i - as_vector q i) / dt). set (u := fun i => (as_vector q i - as_vector p i) / dt).
  assert (E1 : energy_form N M d (fun j => (nth j r 0 - 2 * nth j q 0 + nth j p 0) / dt^2) = energy_form N M v v - energy_form N M u u).
  { rewrite (ef_ext N M d (fun i => dt * v i + dt * u i) (fun j => (nth j r 0 - 2 * nth j q 0 + nth j p 0) / dt^2) (fun j => 1/dt * v j + (-1/dt) * u j));
      [|unfold d, u, v; intros; field; exact D|unfold u, v, as_vector; intros; field; exact D].
    rewrite ef_plus_l, !ef_plus_r, !ef_scal_l, !ef_scal_r, (ef_sym N M u v SM). field. exact D. }
  assert (E2 : energy_form N K d (fun j => nth j q 0) = energy_form N K (as_vector q) (as_vector r) - energy_form N K (as_vector p) (as_vector q)).
  { rewrite (ef_ext N K d (fun i => as_vector r i + (-1) * as_vector p i) (fun j => nth j q 0) (as_vector q)); [|unfold d; intros; ring|reflexivity].
    rewrite ef_plus_l, ef_scal_l, (ef_sym N K (as_vector r) (as_vector q) SK). ring. }
  rewrite E1, E2 in W. unfold pair_energy. fold v. fold u.
  change (rsum N (fun i => (as_vector r i - as_vector p i) * nth i f 0)) with (rsum N (fun i => d i * nth i f 0)). rewrite <- W.
  field. exact D.
Qed.
Lemma c123_scheme N M C K dt steps load s : 0 < dt -> symmetric_upto N M -> symmetric_upto N K -> psd_upto N C ->
  integrates N M C K dt steps load s ->
  forall t, (t < steps)%nat -> (forall f i, load t f -> (i < N)%nat -> nth i f 0 = 0) ->
    pair_energy N M K dt (row_at s (Z.of_nat t)) (row_at s (Z.of_nat t + 1)) <= pair_energy N M K dt (row_at s (Z.of_nat t - 1)) (row_at s (Z.of_nat t)).
Proof.
  intros D SM SK PC H t Ht FZ. destruct (H t Ht) as (f & FL & CD).
  pose proof (central_energy N M C K dt f _ _ _ ltac:(lra) SM SK CD) as E.
  rewrite rsum_0 in E by (intros i Hi; rewrite (FZ f i FL Hi); ring).
  set (d := fun i => as_vector (row_at s (Z.of_nat t + 1)) i - as_vector (row_at s (Z.of_nat t - 1)) i) in E.
  assert (P : 0 <= energy_form N C d d) by (rewrite ef_quad; apply PC).
  assert (0 <= 1 / (4 * dt) * energy_form N C d d) by (apply Rmult_le_pos; [apply Rlt_le, Rdiv_lt_0_compat; lra|exact P]). lra.
Qed.
