(** Proofs about the symbolic scripts, second part: energies as integrals, interpolation, and
    Hooke's law. *)
From Coq Require Import Reals Lra Lia Psatz List Arith Bool.
From Verif Require Import Base BaseFacts Csys Sections Element CsysFacts SpecGeom SpecBeam BeamFacts Meta SpecMeta MetaProofs.
Import ListNotations.
Local Open Scope R_scope.

Definition coefs (p : poly) : list R := [c0 p; c1 p; c2 p; c3 p].
Lemma coefs_at p x : p_at (coefs p) x = peval p x.
Proof. unfold coefs, peval. cbn. ring. Qed.
Definition pprod (k : R) (p q : poly) : list R := p_scal k (p_mul (coefs p) (coefs q)).
Lemma pprod_at k p q x : p_at (pprod k p q) x = k * peval p x * peval q x.
Proof. unfold pprod. rewrite p_at_scal, p_at_mul, !coefs_at. ring. Qed.

Definition strain_poly (s : stiff) (f g : field) : list R :=
  p_add (p_add (p_add (pprod (EA s) (pder (f_u f)) (pder (f_u g))) (pprod (GJ s) (pder (f_t f)) (pder (f_t g))))
    (pprod (EI3 s) (pder (pder (f_v f))) (pder (pder (f_v g))))) (pprod (EI2 s) (pder (pder (f_w f))) (pder (pder (f_w g)))).
Definition motion_poly (mu mv mw mt : R) (f g : field) : list R :=
  p_add (p_add (p_add (pprod mu (f_u f) (f_u g)) (pprod mv (f_v f) (f_v g))) (pprod mw (f_w f) (f_w g))) (pprod mt (f_t f) (f_t g)).
Lemma strain_poly_at s f g x : strain_density s f g x = p_at (strain_poly s f g) x.
Proof. unfold strain_density, strain_poly. rewrite !p_at_add, !pprod_at. reflexivity. Qed.
Lemma motion_poly_at mu mv mw mt f g x : motion_density mu mv mw mt f g x = p_at (motion_poly mu mv mw mt f g) x.
Proof. unfold motion_density, motion_poly. rewrite !p_at_add, !pprod_at. reflexivity. Qed.

Lemma p_int_from_add n p q x : p_at (p_int_from n (p_add p q)) x = p_at (p_int_from n p) x + p_at (p_int_from n q) x.
Proof.
  revert n q. induction p as [|a p IH]; intros n [|b q]; cbn; try ring. rewrite IH. unfold Rdiv. ring.
Qed.
Lemma p_between_add p q a b : p_between (p_add p q) a b = p_between p a b + p_between q a b.
Proof. unfold p_between, p_int. cbn [p_at]. rewrite !p_int_from_add. ring. Qed.

Lemma pprod_between k p q l : p_between (pprod k p q) 0 l
  = k * (c0 p * c0 q * l + (c0 p * c1 q + c1 p * c0 q) * l^2 / 2 + (c0 p * c2 q + c1 p * c1 q + c2 p * c0 q) * l^3 / 3
    + (c0 p * c3 q + c1 p * c2 q + c2 p * c1 q + c3 p * c0 q) * l^4 / 4 + (c1 p * c3 q + c2 p * c2 q + c3 p * c1 q) * l^5 / 5
    + (c2 p * c3 q + c3 p * c2 q) * l^6 / 6 + c3 p * c3 q * l^7 / 7).
Proof.
  unfold pprod, p_between, p_int, coefs. cbn [p_scal map p_mul p_add p_int_from p_at INR]. field.
Qed.

Lemma c90_integral s f g l (pr : Riemann_integrable (strain_density s f g) 0 l) : l <> 0 -> beam_field f -> beam_field g ->
  RiemannInt pr = member_work s l (ends_of_field f l) (ends_of_field g l).
Proof.
  intros Hl ((U2 & U3) & (T2 & T3)) ((U2' & U3') & (T2' & T3')).
  rewrite (p_integral _ _ 0 l pr (strain_poly_at s f g)). unfold strain_poly. rewrite !p_between_add, !pprod_between.
  destruct f as [[u0 u1 u2 u3] [v0 v1 v2 v3] [w0 w1 w2 w3] [t0 t1 t2 t3]].
  destruct g as [[a0 a1 a2 a3] [b0 b1 b2 b3] [d0 d1 d2 d3] [e0 e1 e2 e3]].
  cbn in U2, U3, T2, T3, U2', U3', T2', T3'. subst. destruct s as [ea gj ei2 ei3].
  unfold member_work, bend, ends_of_field, disp_x, rot_x, peval, pder.
  cbn [EA GJ EI2 EI3 f_u f_v f_w f_t c0 c1 c2 c3 d_i d_j r_i r_j vx vy vz]. field. exact Hl.
Qed.

Lemma c90_energy E G A I2 I3 J l f g (pr : Riemann_integrable (strain_density (Stiff (E * A) (G * J) (E * I3) (E * I2)) f g) 0 l) :
  l <> 0 -> beam_field f -> beam_field g ->
  form12 (meta_K E G A I2 I3 J l) (ends_of_field f l) (ends_of_field g l) = RiemannInt pr.
Proof. intros Hl Hf Hg. rewrite c90_work by exact Hl. symmetry. apply c90_integral; assumption. Qed.

Lemma c91_form rho A I2 I3 J l d e : l <> 0 -> form12 (meta_M rho A I2 I3 J l) d e
  = lsum (map (fun i => lsum (map (fun j => vec d (row_u i) * (2 * rho * A / l * (if Nat.eqb i j then 2/3 else 1/3)) * vec e (row_u j)) (seq 0 2))) (seq 0 2))
  + (lsum (map (fun i => lsum (map (fun j => vec d (row_v i) * (rho * I2 / l^3 * cmass l i j) * vec e (row_v j)) (seq 0 4))) (seq 0 4))
  + (lsum (map (fun i => lsum (map (fun j => vec d (row_w i) * (rho * I3 / l^3 * cmass3 l i j) * vec e (row_w j)) (seq 0 4))) (seq 0 4))
  + lsum (map (fun i => lsum (map (fun j => vec d (row_t i) * (2 * rho * J / l * (if Nat.eqb i j then 2/3 else 1/3)) * vec e (row_t j)) (seq 0 2))) (seq 0 2)))).
Proof.
  intros Hl. rewrite meta_M_blocks by exact Hl. rewrite form12_bil by reflexivity.
  match goal with |- lsum (map _ ?K) = ?r => change (gets d e K = r) end.
  rewrite !gets_app, !gets_put. reflexivity.
Qed.

Lemma c91_integral rho A I2 I3 J l f g
  (pr : Riemann_integrable (motion_density (rho * A * (4 / l^2)) (rho * I2 / l^4) (rho * I3 / l^4) (rho * J * (4 / l^2)) f g) 0 l) :
  l <> 0 -> beam_field f -> beam_field g ->
  form12 (meta_M rho A I2 I3 J l) (ends_of_field f l) (ends_of_field g l) = RiemannInt pr.
Proof.
  intros Hl ((U2 & U3) & (T2 & T3)) ((U2' & U3') & (T2' & T3')).
  rewrite (p_integral _ _ 0 l pr (motion_poly_at _ _ _ _ f g)). unfold motion_poly. rewrite !p_between_add, !pprod_between.
  rewrite c91_form by exact Hl.
  destruct f as [[u0 u1 u2 u3] [v0 v1 v2 v3] [w0 w1 w2 w3] [t0 t1 t2 t3]].
  destruct g as [[a0 a1 a2 a3] [b0 b1 b2 b3] [d0 d1 d2 d3] [e0 e1 e2 e3]].
  cbn in U2, U3, T2, T3, U2', U3', T2', T3'. subst.
  unfold vec, row_u, row_v, row_w, row_t, cmass, cmass3, ends_of_field, disp_x, rot_x, peval, pder.
  cbn. field. exact Hl.
Qed.

Lemma c90_exchanged : exists E G A I2 I3 J l i j, 0 < E /\ 0 < G /\ 0 < A /\ 0 < I2 /\ 0 < I3 /\ 0 < J /\ 0 < l
  /\ meta_K E G A I2 I3 J l i j <> beam_K_mat E G A I2 I3 J l i j.
Proof.
  exists 1, 1, 1, 1, 2, 1, 1, 1%nat, 1%nat. do 7 (split; [lra|]).
  rewrite meta_K_blocks by lra. unfold beam_K_mat, ax, curv, curv3. cbn. lra.
Qed.

Lemma c91_moved rho A I2 I3 J l t : l <> 0 ->
  form12 (meta_M rho A I2 I3 J l) (Ends t zero3 t zero3) (Ends t zero3 t zero3)
  = 4 * rho * A / l * vx t ^ 2 + rho * I2 / l^3 * vy t ^ 2 + rho * I3 / l^3 * vz t ^ 2.
Proof.
  intros Hl. rewrite c91_form by exact Hl. destruct t as [a b c].
  unfold vec, row_u, row_v, row_w, row_t, cmass, cmass3. cbn. field. exact Hl.
Qed.

Lemma c91_exists : exists rho A I2 I3 J l t, 0 < rho /\ 0 < A /\ 0 < I2 /\ 0 < I3 /\ 0 < J /\ 0 < l
  /\ form12 (meta_M rho A I2 I3 J l) (Ends t zero3 t zero3) (Ends t zero3 t zero3) <> rho * A * l * dot3 t t.
Proof.
  exists 1, 1, 1, 1, 1, 1, (V3 1 0 0). do 6 (split; [lra|]). rewrite c91_moved by lra. unfold dot3. cbn. lra.
Qed.

(** ** Interpolation *)
Lemma c92_hermite p l xi : l <> 0 -> combine_with (hermite1 l xi) (hermite_data p l) = peval p (xi * l).
Proof.
  intros Hl. destruct p as [a b c d]. unfold hermite1, hermite_data, peval, pder, H01, H02, H11, H12. cbn. field.
Qed.
Lemma c92_hermite2 p q l xi eta : l <> 0 ->
  combine_with (hermite2 l xi eta) (hermite_data2 p q l) = peval p (xi * l) * peval q (eta * l).
Proof.
  intros Hl. rewrite <- !c92_hermite by exact Hl. unfold hermite1, hermite2, hermite_data, hermite_data2. cbn [app combine_with].
  generalize (peval p 0), (peval p l), (peval (pder p) 0), (peval (pder p) l), (peval q 0), (peval q l), (peval (pder q) 0), (peval (pder q) l).
  generalize (H01 xi), (H02 l xi), (H11 xi), (H12 l xi), (H01 eta), (H02 l eta), (H11 eta), (H12 l eta). intros. ring.
Qed.
Lemma c92_lagrange a b c d xi eta :
  let F x y := a + b * x + c * y + d * x * y in
  combine_with (lagrange2 xi eta) [F (-1) (-1); F (-1) 1; F 1 (-1); F 1 1] = F xi eta
  /\ combine_with (lagrange1 xi) [a - b; a + b] = a + b * xi.
Proof. cbv zeta. unfold lagrange1, lagrange2, lag1, lag2. cbn. split; field. Qed.

(** ** Hooke's law *)
Lemma c93_stress E nu e i j : (i < 3)%nat -> (j < 3)%nat ->
  iso_sig E nu (iso_eps (c_xx e) (c_yy e) (c_zz e) (c_xy e) (c_yz e) (c_zx e)) i j
  = 2 * iso_G E nu * iso_eps (c_xx e) (c_yy e) (c_zz e) (c_xy e) (c_yz e) (c_zx e) i j
    + iso_lamda E nu * kdelta i j * (c_xx e + c_yy e + c_zz e).
Proof.
  intros Hi Hj. destruct i as [|[|[|i]]]; try lia; (destruct j as [|[|[|j]]]; try lia);
    unfold iso_sig, iso_D, kdelta, iso_eps, rsum; cbn [Nat.eqb nth rsum]; cbn; ring.
Qed.
Lemma c93_hooke E nu s e : E <> 0 -> 1 + nu <> 0 -> 1 - 2 * nu <> 0 ->
  hooke E nu s e <-> is_stress s (iso_sig E nu (iso_eps (c_xx e) (c_yy e) (c_zz e) (c_xy e) (c_yz e) (c_zx e))).
Proof.
  intros HE H1 H2. unfold is_stress. rewrite !c93_stress by lia. unfold hooke, iso_eps, kdelta, iso_G, iso_lamda. cbn [Nat.eqb nth].
  destruct s as [s1 s2 s3 s4 s5 s6], e as [e1 e2 e3 e4 e5 e6]. cbn [c_xx c_yy c_zz c_xy c_yz c_zx]. split.
  - intros (A1 & A2 & A3 & A4 & A5 & A6). subst. repeat split; field; repeat split; assumption.
  - intros (A1 & A2 & A3 & A4 & _ & A5 & _ & A6 & _). subst. repeat split; field; repeat split; assumption.
Qed.
Lemma c93_energy E nu s e : 0 < E -> -1 < nu < 1/2 -> hooke E nu s e ->
  0 <= work6 s e /\ (work6 s e = 0 -> e = Six 0 0 0 0 0 0).
Proof.
  intros HE [Hn1 Hn2] Hh. apply c93_hooke in Hh; [|lra|lra|lra].
  unfold is_stress in Hh. rewrite !c93_stress in Hh by lia. unfold iso_eps, kdelta in Hh. cbn [Nat.eqb nth] in Hh.
  destruct s as [s1 s2 s3 s4 s5 s6], e as [e1 e2 e3 e4 e5 e6]. cbn [c_xx c_yy c_zz c_xy c_yz c_zx] in Hh.
  destruct Hh as (A1 & A2 & A3 & A4 & _ & A5 & _ & A6 & _).
  unfold work6. cbn [c_xx c_yy c_zz c_xy c_yz c_zx]. rewrite <- A1, <- A2, <- A3, <- A4, <- A5, <- A6.
  assert (HG : 0 < iso_G E nu) by (unfold iso_G; apply Rdiv_lt_0_compat; lra).
  assert (HK : 0 < 2 * iso_G E nu + 3 * iso_lamda E nu).
  { replace (2 * iso_G E nu + 3 * iso_lamda E nu) with (E / (1 - 2 * nu)) by (unfold iso_G, iso_lamda; field; lra).
    apply Rdiv_lt_0_compat; lra. }
  clear A1 A2 A3 A4 A5 A6. revert HG HK. generalize (iso_G E nu) as G, (iso_lamda E nu) as L. intros G L HG HK.
  match goal with |- 0 <= ?w /\ _ => assert (EW : w = 2 * G * (((e1 - e2)^2 + (e2 - e3)^2 + (e3 - e1)^2) / 3) + (2 * G + 3 * L) * ((e1 + e2 + e3)^2 / 3)
     + G * e4^2 + G * e5^2 + G * e6^2) by field end.
  rewrite EW. clear EW.
  pose proof (pow2_ge_0 (e1 - e2)) as P1. pose proof (pow2_ge_0 (e2 - e3)) as P2. pose proof (pow2_ge_0 (e3 - e1)) as P3.
  pose proof (pow2_ge_0 (e1 + e2 + e3)) as P4. pose proof (pow2_ge_0 e4) as P5. pose proof (pow2_ge_0 e5) as P6. pose proof (pow2_ge_0 e6) as P7.
  assert (Q1 : 0 <= 2 * G * (((e1 - e2)^2 + (e2 - e3)^2 + (e3 - e1)^2) / 3)) by (apply Rmult_le_pos; lra).
  assert (Q2 : 0 <= (2 * G + 3 * L) * ((e1 + e2 + e3)^2 / 3)) by (apply Rmult_le_pos; lra).
  assert (Q3 : 0 <= G * e4^2) by (apply Rmult_le_pos; lra).
  assert (Q4 : 0 <= G * e5^2) by (apply Rmult_le_pos; lra).
  assert (Q5 : 0 <= G * e6^2) by (apply Rmult_le_pos; lra).
  split; [lra|]. intros Z.
  assert (S : forall k x, 0 < k -> k * x = 0 -> x = 0) by (intros k x Hk Hx; apply Rmult_integral in Hx; lra).
  assert (T : forall x, x^2 = 0 -> x = 0) by (intros x Hx; replace (x^2) with (x*x) in Hx by ring; apply Rmult_integral in Hx; lra).
  assert (Z4 : e4 = 0) by (apply T, (S G); lra).
  assert (Z5 : e5 = 0) by (apply T, (S G); lra).
  assert (Z6 : e6 = 0) by (apply T, (S G); lra).
  assert (Y1 : ((e1 - e2)^2 + (e2 - e3)^2 + (e3 - e1)^2) / 3 = 0) by (apply (S (2 * G)); lra).
  assert (Y2 : (e1 + e2 + e3)^2 / 3 = 0) by (apply (S (2 * G + 3 * L)); lra).
  assert (X1 : e1 - e2 = 0) by (apply T; lra). assert (X2 : e2 - e3 = 0) by (apply T; lra).
  assert (X3 : e1 + e2 + e3 = 0) by (apply T; lra).
  f_equal; lra.
Qed.

Lemma c93_material_G E mu : mat_iso_G E mu = iso_G E mu.
Proof. reflexivity. Qed.
Lemma c93_shear E mu s e : E <> 0 -> 1 + mu <> 0 -> hooke E mu s e ->
  c_xy s = mat_iso_G E mu * c_xy e /\ c_yz s = mat_iso_G E mu * c_yz e /\ c_zx s = mat_iso_G E mu * c_zx e.
Proof.
  intros HE H1 (_ & _ & _ & A4 & A5 & A6). rewrite A4, A5, A6. unfold mat_iso_G. repeat split; field; split; assumption.
Qed.
(** The normal stresses by the two constants of the material, for the strains of Hooke's law. *)
Lemma c93_lamda E mu s e : E <> 0 -> 1 + mu <> 0 -> 1 - 2 * mu <> 0 -> hooke E mu s e ->
  c_xx s = 2 * mat_iso_G E mu * c_xx e + mat_iso_lamda E mu * mu * (c_xx e + c_yy e + c_zz e).
Proof.
  intros HE H1 H2 (A1 & A2 & A3 & _). rewrite A1, A2, A3. unfold mat_iso_G, mat_iso_lamda. field. repeat split; assumption.
Qed.
Lemma c93_lamda_refuted : exists E mu s e, 0 < E /\ 0 < mu < 1/2 /\ hooke E mu s e
  /\ c_xx s <> 2 * mat_iso_G E mu * c_xx e + mat_iso_lamda E mu * (c_xx e + c_yy e + c_zz e).
Proof.
  exists 1, (1/4), (Six 1 0 0 0 0 0), (Six 1 (-1/4) (-1/4) 0 0 0).
  split; [lra|]. split; [lra|]. split; [unfold hooke; cbn; repeat split; lra|]. unfold mat_iso_G, mat_iso_lamda. cbn. lra.
Qed.

(** ** Cases *)
Lemma poly_integrable f p a b : (forall x, f x = p_at p x) -> a <= b -> Riemann_integrable f a b.
Proof.
  intros Hf Hab. apply continuity_implies_RiemannInt; [exact Hab|]. intros x _.
  assert (Ef : f = p_at p) by (apply FunctionalExtensionality.functional_extensionality; exact Hf).
  rewrite Ef. apply p_continuity.
Qed.
(** stretched, bent both ways and twisted *)
Definition bent : field := Field (Poly 0 1 0 0) (Poly 0 0 1 0) (Poly 0 0 0 1) (Poly 0 2 0 0).
Lemma bent_beam : beam_field bent.
Proof. repeat split. Qed.
