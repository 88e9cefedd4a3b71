(** Work equivalence of member loads. *)
From Coq Require Import Reals Lra Lia List String Arith Bool.
From Verif Require Import Base Csys Sections Element Load BaseFacts CsysFacts SpecGeom SpecBeam BeamFacts.
Import ListNotations.
Local Open Scope R_scope.

Lemma conc_work F1 F2 F3 M1 M2 M3 r l f : l <> 0 -> beam_field f ->
  work12 (vnth (conc_f [F1;F2;F3;M1;M2;M3;r] l)) (ends_of_field f l)
  = point_work (V3 F1 F2 F3) (V3 M1 M2 M3) f (r * l).
Proof.
  intros Hl ((U2 & U3) & (T2 & T3)). rewrite work12_unfold.
  destruct f as [[u0 u1 u2 u3] [v0 v1 v2 v3] [w0 w1 w2 w3] [t0 t1 t2 t3]]. simpl in U2, U3, T2, T3. subst u2 u3 t2 t3.
  unfold point_work, ends_of_field, disp_x, rot_x, peval, pder, dot3, conc_f, vnth; simpl. field. exact Hl.
Qed.

(** Exact antiderivative of the product of a ramp and a cubic. *)
Definition ramp_int (a b l : R) (p : poly) (x : R) : R :=
  let s := (b - a) / l in
  a * c0 p * x + (a * c1 p + s * c0 p) * x^2 / 2 + (a * c2 p + s * c1 p) * x^3 / 3
  + (a * c3 p + s * c2 p) * x^4 / 4 + s * c3 p * x^5 / 5.

Lemma derivable_quintic a1 a2 a3 a4 a5 x :
  derivable_pt_lim (fun x => a1 * x + a2 * x^2 + a3 * x^3 + a4 * x^4 + a5 * x^5) x
    (a1 + 2 * a2 * x + 3 * a3 * x^2 + 4 * a4 * x^3 + 5 * a5 * x^4).
Proof.
  assert (H : derivable_pt_lim (mult_real_fct a1 (fun x => x) + mult_real_fct a2 (fun x => x^2)
     + mult_real_fct a3 (fun x => x^3) + mult_real_fct a4 (fun x => x^4) + mult_real_fct a5 (fun x => x^5)) x
     (a1 * 1 + a2 * (INR 2 * x ^ Init.Nat.pred 2) + a3 * (INR 3 * x ^ Init.Nat.pred 3)
       + a4 * (INR 4 * x ^ Init.Nat.pred 4) + a5 * (INR 5 * x ^ Init.Nat.pred 5))).
  { repeat apply derivable_pt_lim_plus; apply derivable_pt_lim_scal; try apply derivable_pt_lim_id; apply derivable_pt_lim_pow. }
  replace (a1 + 2 * a2 * x + 3 * a3 * x^2 + 4 * a4 * x^3 + 5 * a5 * x^4) with
     (a1 * 1 + a2 * (INR 2 * x ^ Init.Nat.pred 2) + a3 * (INR 3 * x ^ Init.Nat.pred 3)
       + a4 * (INR 4 * x ^ Init.Nat.pred 4) + a5 * (INR 5 * x ^ Init.Nat.pred 5)) by (simpl; ring).
  exact H.
Qed.

Lemma derivable_lim_ext f g x l : (forall y, f y = g y) -> derivable_pt_lim f x l -> derivable_pt_lim g x l.
Proof.
  intros E H eps He. destruct (H eps He) as [d Hd]. exists d. intros h h1 h2. rewrite <- !E. auto.
Qed.

Lemma ramp_int_derivable a b l p x : l <> 0 ->
  derivable_pt_lim (ramp_int a b l p) x (ramp a b l x * peval p x).
Proof.
  intros Hl. set (s := (b - a) / l).
  replace (ramp a b l x * peval p x) with
    (a * c0 p + 2 * ((a * c1 p + s * c0 p)/2) * x + 3 * ((a * c2 p + s * c1 p)/3) * x^2
     + 4 * ((a * c3 p + s * c2 p)/4) * x^3 + 5 * (s * c3 p/5) * x^4)
    by (unfold ramp, peval, s; field; exact Hl).
  eapply derivable_lim_ext; [|apply derivable_quintic].
  intros y. unfold ramp_int. fold s. simpl. field.
Qed.

Definition dist_work (l pi pj qi2 qj2 qi3 qj3 ti tj : R) (f : field) (x : R) : R :=
  ramp_int pi pj l (f_u f) x + ramp_int qi2 qj2 l (f_v f) x
  + ramp_int qi3 qj3 l (f_w f) x + ramp_int ti tj l (f_t f) x.

Lemma dist_work_derivable l pi pj qi2 qj2 qi3 qj3 ti tj f x : l <> 0 ->
  derivable_pt_lim (dist_work l pi pj qi2 qj2 qi3 qj3 ti tj f) x (line_power l pi pj qi2 qj2 qi3 qj3 ti tj f x).
Proof.
  intros Hl. unfold line_power.
  apply (derivable_lim_ext (ramp_int pi pj l (f_u f) + ramp_int qi2 qj2 l (f_v f)
     + ramp_int qi3 qj3 l (f_w f) + ramp_int ti tj l (f_t f))%F); [intros; reflexivity|].
  repeat apply derivable_pt_lim_plus; apply ramp_int_derivable; exact Hl.
Qed.

Lemma dist_f_work l pi pj qi2 qj2 qi3 qj3 ti tj f : l <> 0 -> beam_field f ->
  work12 (vnth (dist_f [pi;qi2;qi3;ti;0;0;pj;qj2;qj3;tj;0;0] l)) (ends_of_field f l)
  = dist_work l pi pj qi2 qj2 qi3 qj3 ti tj f l - dist_work l pi pj qi2 qj2 qi3 qj3 ti tj f 0.
Proof.
  intros Hl ((U2 & U3) & (T2 & T3)). rewrite work12_unfold.
  destruct f as [[u0 u1 u2 u3] [v0 v1 v2 v3] [w0 w1 w2 w3] [t0 t1 t2 t3]]. simpl in U2, U3, T2, T3. subst u2 u3 t2 t3.
  unfold dist_work, ramp_int, ends_of_field, disp_x, rot_x, peval, pder, dist_f, vnth; simpl. field. exact Hl.
Qed.

(** Two functions with the same derivative differ by a constant. *)
Lemma same_derivative_diff F G d a b :
  (forall x, derivable_pt_lim F x (d x)) -> (forall x, derivable_pt_lim G x (d x)) ->
  F b - F a = G b - G a.
Proof.
  intros HF HG.
  pose (H := fun x => F x - G x).
  assert (DH : forall x, derivable_pt_lim H x 0).
  { intros x. replace 0 with (d x - d x) by ring.
    apply (derivable_lim_ext (F - G)%F); [reflexivity|]. apply derivable_pt_lim_minus; auto. }
  assert (pr : derivable H) by (intros x; exists 0; apply DH).
  assert (C : constant H).
  { apply (null_derivative_1 H pr). intros x. apply derive_pt_eq_0, DH. }
  specialize (C a b). unfold H in C. lra.
Qed.

Lemma peval_continuity p : continuity (peval p).
Proof. intros x. apply derivable_continuous_pt. exists (peval (pder p) x). apply peval_derivable. Qed.

Lemma ramp_continuity a b l : continuity (ramp a b l).
Proof.
  intros x.
  assert (D : derivable_pt_lim (ramp a b l) x (peval (pder (Poly a ((b - a) / l) 0 0)) x)).
  { apply (derivable_lim_ext (peval (Poly a ((b-a)/l) 0 0))).
    - intros y. unfold peval, ramp; simpl. unfold Rdiv. ring.
    - apply peval_derivable. }
  apply derivable_continuous_pt. eexists. exact D.
Qed.

Lemma line_power_continuity l pi pj qi2 qj2 qi3 qj3 ti tj f :
  continuity (line_power l pi pj qi2 qj2 qi3 qj3 ti tj f).
Proof.
  change (continuity (ramp pi pj l * peval (f_u f) + ramp qi2 qj2 l * peval (f_v f)
    + ramp qi3 qj3 l * peval (f_w f) + ramp ti tj l * peval (f_t f))%F).
  repeat apply continuity_plus; apply continuity_mult; auto using peval_continuity, ramp_continuity.
Qed.

Lemma dist_work_integral l pi pj qi2 qj2 qi3 qj3 ti tj f
  (pr : Riemann_integrable (line_power l pi pj qi2 qj2 qi3 qj3 ti tj f) 0 l) : 0 < l ->
  RiemannInt pr = dist_work l pi pj qi2 qj2 qi3 qj3 ti tj f l - dist_work l pi pj qi2 qj2 qi3 qj3 ti tj f 0.
Proof.
  intros Hl. set (W := dist_work l pi pj qi2 qj2 qi3 qj3 ti tj f). set (p := line_power l pi pj qi2 qj2 qi3 qj3 ti tj f) in *.
  assert (D : forall x, derivable_pt_lim W x (p x)) by (intros; apply dist_work_derivable; lra).
  pose (d0 := fun x => exist (derivable_pt_abs W x) (p x) (D x) : derivable_pt W x).
  assert (E : forall x, derive W d0 x = p x) by (intros; reflexivity).
  assert (C : continuity (derive W d0)).
  { intros x. apply (line_power_continuity l pi pj qi2 qj2 qi3 qj3 ti tj f x). }
  pose (F := mkC1 C).
  assert (pr2 : Riemann_integrable (derive F (diff0 F)) 0 l) by exact pr.
  transitivity (RiemannInt pr2).
  - apply RiemannInt_P5.
  - rewrite (FTC_Riemann F pr2). reflexivity.
Qed.

Lemma line_power_integrable l pi pj qi2 qj2 qi3 qj3 ti tj f : 0 < l ->
  Riemann_integrable (line_power l pi pj qi2 qj2 qi3 qj3 ti tj f) 0 l.
Proof.
  intros Hl. apply continuity_implies_RiemannInt; [lra|]. intros x _. apply line_power_continuity.
Qed.

(** ** C28, C29 on load patterns *)
Lemma ladd_zeros12 r : List.length r = 12%nat -> ladd (zeros 12) r = r.
Proof.
  intros H. do 13 (destruct r as [|? r]; try discriminate). cbn. rewrite !Rplus_0_l. reflexivity.
Qed.

Lemma set_dist_f b pi pj qi2 qj2 qi3 qj3 ti tj p l : dget b (p_conc p) = None ->
  pat_beam_f (pat_set_beam_dist b pi pj qi2 qj2 qi3 qj3 ti tj p) b l
  = dist_f [pi;qi2;qi3;ti;0;0;pj;qj2;qj3;tj;0;0] l.
Proof.
  intros H. unfold pat_beam_f. cbn [p_dist p_conc pat_set_beam_dist].
  rewrite dget_dset_eq, H. apply ladd_zeros12. reflexivity.
Qed.

Lemma set_conc_f b F1 F2 F3 M1 M2 M3 r p l : dget b (p_dist p) = None ->
  pat_beam_f (pat_set_beam_conc b F1 F2 F3 M1 M2 M3 r p) b l = conc_f [F1;F2;F3;M1;M2;M3;r] l.
Proof.
  intros H. unfold pat_beam_f. cbn [p_dist p_conc pat_set_beam_conc].
  rewrite dget_dset_eq, H. apply ladd_zeros12. reflexivity.
Qed.

Lemma c28_work b pi pj qi2 qj2 qi3 qj3 ti tj p l f
  (pr : Riemann_integrable (line_power l pi pj qi2 qj2 qi3 qj3 ti tj f) 0 l) :
  0 < l -> beam_field f -> dget b (p_conc p) = None ->
  work12 (vnth (pat_beam_f (pat_set_beam_dist b pi pj qi2 qj2 qi3 qj3 ti tj p) b l)) (ends_of_field f l)
  = RiemannInt pr.
Proof.
  intros Hl F H. rewrite set_dist_f by exact H. rewrite dist_work_integral by exact Hl.
  apply dist_f_work; [lra|exact F].
Qed.

Lemma c29_work b F1 F2 F3 M1 M2 M3 r p l f :
  0 < l -> beam_field f -> dget b (p_dist p) = None ->
  work12 (vnth (pat_beam_f (pat_set_beam_conc b F1 F2 F3 M1 M2 M3 r p) b l)) (ends_of_field f l)
  = point_work (V3 F1 F2 F3) (V3 M1 M2 M3) f (r * l).
Proof.
  intros Hl F H. rewrite set_conc_f by exact H. apply conc_work; [lra|exact F].
Qed.

Lemma work12_ladd a b d : List.length a = 12%nat -> List.length b = 12%nat ->
  work12 (vnth (ladd a b)) d = work12 (vnth a) d + work12 (vnth b) d.
Proof.
  intros Ha Hb. do 13 (destruct a as [|? a]; try discriminate). do 13 (destruct b as [|? b]; try discriminate).
  rewrite !work12_unfold. unfold vnth; cbn. ring.
Qed.

Lemma c29_both b pi pj qi2 qj2 qi3 qj3 ti tj F1 F2 F3 M1 M2 M3 r p l f
  (pr : Riemann_integrable (line_power l pi pj qi2 qj2 qi3 qj3 ti tj f) 0 l) :
  0 < l -> beam_field f ->
  work12 (vnth (pat_beam_f (pat_set_beam_conc b F1 F2 F3 M1 M2 M3 r
                           (pat_set_beam_dist b pi pj qi2 qj2 qi3 qj3 ti tj p)) b l)) (ends_of_field f l)
  = RiemannInt pr + point_work (V3 F1 F2 F3) (V3 M1 M2 M3) f (r * l).
Proof.
  intros Hl F. unfold pat_beam_f. cbn [p_dist p_conc pat_set_beam_conc pat_set_beam_dist].
  rewrite !dget_dset_eq, ladd_zeros12 by reflexivity. rewrite work12_ladd by reflexivity.
  rewrite dist_work_integral by exact Hl. rewrite dist_f_work, conc_work by (assumption || lra). reflexivity.
Qed.
