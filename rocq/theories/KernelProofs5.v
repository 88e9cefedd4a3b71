(** Constant curvature in quadrilaterals; rotations with drilling (C74, C76). *)
From Coq Require Import Reals Lra Lia List Arith.
From Verif Require Import Base BaseFacts Csys Sections Element Kernels SpecKernel SpecAsm ShellFacts KernelProofs KernelProofs2.
Import ListNotations.
Local Open Scope R_scope.

(** ** Constant curvature *)
Lemma square_J xl s r : square_like xl -> dkq_J xl s r 0%nat 0%nat = dkq_J xl s r 1%nat 1%nat.
Proof.
  intros (H1 & H2 & H3). unfold dkq_J, dkq_x, dkq_y. cbn [Nat.mul Nat.add]. change (at_x xl) with (cx xl) in *. change (at_y xl) with (cy xl) in *.
  cbn. replace (cx xl 0 - cx xl 1 + (cx xl 2 - cx xl 3)) with 0 by lra.
  replace (cy xl 0 - cy xl 1 + (cy xl 2 - cy xl 3)) with 0 by lra. lra.
Qed.
Lemma c76_square c2 t2 E mu t xl w w' : inside_square c2 -> exact_square c2 -> convex4 xl -> square_like xl ->
  work 12 (k_dkq (code_kernels c2 t2) E mu t xl) (plate_values xl w') (plate_values xl w)
  = area4 xl * plane_stress (E * t^3 / 12) mu (curvature w') (curvature w).
Proof.
  intros Q X C S. cbn [code_kernels k_dkq]. rewrite integrate_work, <- (dkq_area c2 xl X).
  rewrite (Rmult_comm (lsum _)), <- lsum_scal. apply lsum_ext. intros p Hp.
  unfold inside_square in Q. rewrite Forall_forall in Q. destruct (Q p Hp) as (PX & PY & W).
  pose proof (dkq_det_pos xl _ _ C PX PY) as HD. change (fst (fst p)) with (pt_xi p) in HD. change (snd (fst p)) with (pt_eta p) in HD.
  assert (G : forall v r, (r < 3)%nat -> mvec 12 (dkq_B xl (pt_xi p) (pt_eta p)) (plate_values xl v) r = nth r (curvature v) 0).
  { intros v r Hr. rewrite dkq_strain by (auto using convex_sides). apply dkq_taken_right; [exact Hr|rewrite dkq_det; lra|apply square_J, S]. }
  rewrite dkq_work, (density_ext _ _ _ (fun r => nth r (curvature w') 0) (fun r => nth r (curvature w) 0)) by (intros; apply G; assumption).
  unfold plateD. rewrite density_plane. rewrite !(nth_list3 (curvature _)) by reflexivity. ring.
Qed.

(** rectangles: what the code takes for the curvature *)
Lemma rectangle_convex a b : 0 < a -> 0 < b -> convex4 (rectangle a b).
Proof. intros. unfold convex4, turn, at_x, at_y, rectangle; cbn [nth Nat.mul Nat.add]. assert (0 < a * b) by nra. repeat split; nra. Qed.
Lemma rectangle_area a b : area4 (rectangle a b) = a * b.
Proof. unfold area4, turn, at_x, at_y, rectangle; cbn [nth Nat.mul Nat.add]. field. Qed.
Lemma rectangle_taken a b w s r k : (k < 3)%nat -> 0 < a -> 0 < b ->
  dkq_taken (rectangle a b) w s r k = nth k (stretched a b w) 0.
Proof.
  intros Hk Ha Hb.
  assert (J00 : dkq_J (rectangle a b) s r 0%nat 0%nat = a / 2) by (unfold dkq_J, dkq_x, dkq_y, cx, cy, vnth, rectangle; cbn [nth Nat.mul Nat.add]; field).
  assert (J11 : dkq_J (rectangle a b) s r 1%nat 1%nat = b / 2) by (unfold dkq_J, dkq_x, dkq_y, cx, cy, vnth, rectangle; cbn [nth Nat.mul Nat.add]; field).
  assert (J01 : dkq_J (rectangle a b) s r 0%nat 1%nat = 0) by (unfold dkq_J, dkq_x, dkq_y, cx, cy, vnth, rectangle; cbn [nth Nat.mul Nat.add]; field).
  assert (J10 : dkq_J (rectangle a b) s r 1%nat 0%nat = 0) by (unfold dkq_J, dkq_x, dkq_y, cx, cy, vnth, rectangle; cbn [nth Nat.mul Nat.add]; field).
  unfold dkq_taken, dkq_j. rewrite dkq_det. unfold det2. cbv zeta. rewrite J00, J01, J10, J11.
  unfold stretched. destruct k as [|[|[|k]]]; [| | |lia]; cbn [nth]; field; lra.
Qed.
Lemma c76_rectangle c2 t2 E mu t a b w w' : inside_square c2 -> exact_square c2 -> 0 < a -> 0 < b ->
  work 12 (k_dkq (code_kernels c2 t2) E mu t (rectangle a b)) (plate_values (rectangle a b) w') (plate_values (rectangle a b) w)
  = a * b * plane_stress (E * t^3 / 12) mu (stretched a b w') (stretched a b w).
Proof.
  intros Q X Ha Hb. pose proof (rectangle_convex a b Ha Hb) as C. rewrite <- (rectangle_area a b).
  cbn [code_kernels k_dkq]. rewrite integrate_work, <- (dkq_area c2 _ X).
  rewrite (Rmult_comm (lsum _)), <- lsum_scal. apply lsum_ext. intros p Hp.
  assert (G : forall v r, (r < 3)%nat -> mvec 12 (dkq_B (rectangle a b) (pt_xi p) (pt_eta p)) (plate_values (rectangle a b) v) r = nth r (stretched a b v) 0).
  { intros v r Hr. rewrite dkq_strain by (auto using convex_sides). apply rectangle_taken; assumption. }
  rewrite dkq_work, (density_ext _ _ _ (fun r => nth r (stretched a b w') 0) (fun r => nth r (stretched a b w) 0)) by (intros; apply G; assumption).
  unfold plateD. rewrite density_plane. rewrite !(nth_list3 (stretched _ _ _)) by reflexivity. ring.
Qed.
Lemma c76_refuted : exists xl w, convex4 xl /\ forall c2 t2, inside_square c2 -> exact_square c2 ->
  work 12 (k_dkq (code_kernels c2 t2) 12 0 1 xl) (plate_values xl w) (plate_values xl w)
  <> area4 xl * plane_stress (12 * 1^3 / 12) 0 (curvature w) (curvature w).
Proof.
  exists (rectangle 2 1), (Quadratic 0 0 0 1 0 0). split; [apply rectangle_convex; lra|].
  intros c2 t2 Q X. rewrite c76_rectangle by (auto; lra). rewrite rectangle_area.
  unfold plane_stress, stretched, curvature; cbn [nth w_xx w_xy w_yy]. lra.
Qed.

(** ** Rotations with drilling *)
Lemma lsum_strict {A} (w f : A -> R) l : (forall a, In a l -> 0 <= w a /\ 0 < f a) -> 0 < lsum (map w l) ->
  0 < lsum (map (fun a => w a * f a) l).
Proof.
  induction l as [|a l IH]; intros H P; cbn [map lsum] in *; [lra|].
  destruct (H a (or_introl eq_refl)) as [Wa Fa].
  destruct (Req_dec (w a) 0) as [Z|NZ].
  - rewrite Z in *. assert (0 < lsum (map (fun a => w a * f a) l)); [|lra]. apply IH; [intros; apply H; now right|lra].
  - assert (0 < w a * f a) by (apply Rmult_lt_0_compat; lra).
    assert (0 <= lsum (map (fun a => w a * f a) l)); [|lra].
    apply lsum_pos. intros b Hb. destruct (H b (or_intror Hb)). apply Rmult_le_pos; lra.
Qed.
Definition trapezoid : list R := [0; 0; 2; 0; 2; 2; 0; 1].
Lemma trapezoid_convex : convex4 trapezoid.
Proof. unfold convex4, turn, at_x, at_y, trapezoid; cbn [nth Nat.mul Nat.add]. lra. Qed.

Lemma c74_drilling_refuted : exists xl, convex4 xl /\ forall c2 t2, inside_square c2 -> exact_square c2 ->
  let x := membrane_values xl (Lin 0 0 (-1)) (Lin 0 1 0) 1 in
  0 < work 12 (k_gq12 (code_kernels c2 t2) 1 0 1 xl) x x.
Proof.
  exists trapezoid. split; [exact trapezoid_convex|]. intros c2 t2 Q (X & _) x.
  cbn [code_kernels k_gq12]. rewrite integrate_work. apply lsum_strict; [|unfold weights in X; rewrite X; lra].
  intros p Hp. unfold inside_square in Q. rewrite Forall_forall in Q. destruct (Q p Hp) as (PX & PY & W). split; [exact W|].
  change (fst (fst p)) with (pt_xi p) in PX. change (snd (fst p)) with (pt_eta p) in PY.
  set (s := pt_xi p) in *. set (r := pt_eta p) in *. clearbody s r.
  pose proof (gq_det_pos trapezoid s r trapezoid_convex PX PY) as HD.
  rewrite gq12_work. rewrite (density_ext _ _ _ (fun k => gq_extra trapezoid s r k) (fun k => gq_extra trapezoid s r k)).
  2,3: intros k Hk; unfold x; rewrite gq_strain by (auto; lra); destruct k as [|[|[|k]]]; [| | |lia]; cbn [nth strain l_x l_y l_0]; ring.
  rewrite density_plane. unfold plane_stress. cbn [nth].
  apply Rmult_lt_0_compat; [lra|].
  assert (J00 : gq_J trapezoid s r 0%nat 0%nat = 0) by (unfold gq_J, trapezoid; cbn -[Rdiv]; field).
  assert (J10 : gq_J trapezoid s r 1%nat 0%nat = 1) by (unfold gq_J, trapezoid; cbn -[Rdiv]; field).
  assert (J01 : gq_J trapezoid s r 0%nat 1%nat = - (3 + r) / 4) by (unfold gq_J, trapezoid; cbn -[Rdiv]; field).
  assert (A1 : gq_a1 trapezoid = 0) by (unfold gq_a1, trapezoid; cbn -[Rdiv]; field).
  assert (A3 : gq_a3 trapezoid = 0) by (unfold gq_a3, trapezoid; cbn -[Rdiv]; field).
  assert (B1 : gq_b1 trapezoid = -3/4) by (unfold gq_b1, trapezoid; cbn -[Rdiv]; field).
  assert (B3 : gq_b3 trapezoid = -1/4) by (unfold gq_b3, trapezoid; cbn -[Rdiv]; field).
  unfold gq_extra. rewrite J00, J01, J10, A1, A3, B1, B3.
  set (D := det2 (gq_J trapezoid s r)) in *. set (J11 := gq_J trapezoid s r 1%nat 1%nat). clearbody D J11.
  set (u := (1 - 3 * s ^ 2) * (-3/4 + -1/4 * r) / 2).
  match goal with |- 0 < ?e => replace e with (/ D ^ 2 * ((J11 * u - (3 + r) / 32 * (s * (1 - s^2))) ^ 2 + u ^ 2 / 2)) by (unfold u; field; lra) end.
  apply Rmult_lt_0_compat; [apply Rinv_0_lt_compat; nra|].
  destruct (Req_dec u 0) as [Z|NZ].
  - rewrite Z. assert (Hs : 3 * s ^ 2 = 1) by (unfold u in Z; nra).
    assert (s <> 0) by (intros ->; lra).
    replace ((J11 * 0 - (3 + r) / 32 * (s * (1 - s ^ 2))) ^ 2 + 0 ^ 2 / 2) with (((3 + r) / 32 * (1 - s ^ 2)) ^ 2 * s ^ 2) by field.
    apply Rmult_lt_0_compat; [|nra]. assert (0 < (3 + r) / 32 * (1 - s ^ 2)); [|nra]. apply Rmult_lt_0_compat; nra.
  - assert (0 < u ^ 2) by (rewrite <- Rsqr_pow2; apply Rlt_0_sqr; exact NZ).
    pose proof (pow2_ge_0 (J11 * u - (3 + r) / 32 * (s * (1 - s ^ 2)))). lra.
Qed.

(** parallelograms with points at xi^2 = 1/3 *)
Lemma parallelogram_extra xl s r k : is_parallelogram xl -> 3 * s ^ 2 = 1 -> gq_extra xl s r k = 0.
Proof.
  intros (H1 & H2) Hs. change (at_x xl) with (cx xl) in *. change (at_y xl) with (cy xl) in *.
  assert (A3 : gq_a3 xl = 0) by (unfold gq_a3; cbn -[cx cy Rdiv]; lra).
  assert (B3 : gq_b3 xl = 0) by (unfold gq_b3; cbn -[cx cy Rdiv]; lra).
  unfold gq_extra. rewrite A3, B3, Hs. destruct k as [|[|k]]; unfold Rdiv; ring.
Qed.
Lemma c74_parallelogram_partial c2 t2 E mu t xl a b th : inside_square c2 -> convex4 xl -> is_parallelogram xl ->
  (forall p, In p c2 -> 3 * fst (fst p) ^ 2 = 1) ->
  forall r, (r < 12)%nat ->
  force 12 (k_gq12 (code_kernels c2 t2) E mu t xl) (membrane_values xl (Lin a 0 (- th)) (Lin b th 0) th) r = 0.
Proof.
  intros Q C P H3 r Hr. rewrite unit_work by assumption. cbn [code_kernels k_gq12]. rewrite integrate_work. apply lsum_zero. intros p Hp.
  unfold inside_square in Q. rewrite Forall_forall in Q. destruct (Q p Hp) as (PX & PY & W).
  pose proof (gq_det_pos xl _ _ C PX PY) as HD. change (fst (fst p)) with (pt_xi p) in HD. change (snd (fst p)) with (pt_eta p) in HD.
  rewrite gq12_work, density_zero_r; [ring|]. intros s Hs. rewrite gq_strain by (auto; lra).
  rewrite parallelogram_extra by (auto; apply (H3 p Hp)).
  destruct s as [|[|[|s]]]; [| | |lia]; cbn; ring.
Qed.

(** Gauss points *)
Lemma gauss2_inside : inside_square gauss2.
Proof.
  assert (H : 0 < sqrt 3) by (apply sqrt_lt_R0; lra). assert (S : sqrt 3 * sqrt 3 = 3) by (apply sqrt_sqrt; lra).
  assert (G : 0 < / sqrt 3 <= 1).
  { split; [apply Rinv_0_lt_compat; exact H|]. rewrite <- Rinv_1. apply Rinv_le_contravar; nra. }
  unfold gauss2, inside_square. repeat (apply Forall_cons || apply Forall_nil); cbn [fst snd]; repeat split; lra.
Qed.
Lemma gauss2_exact : exact_square gauss2.
Proof. unfold exact_square, weights, gauss2. cbn [map lsum fst snd]. lra. Qed.
Lemma gauss2_third p : In p gauss2 -> 3 * fst (fst p) ^ 2 = 1.
Proof.
  assert (H : 0 < sqrt 3) by (apply sqrt_lt_R0; lra). assert (S : sqrt 3 * sqrt 3 = 3) by (apply sqrt_sqrt; lra).
  assert (G : 3 * (/ sqrt 3) ^ 2 = 1) by (replace 3 with (sqrt 3 * sqrt 3) at 1; field; lra).
  unfold gauss2. intros [<-|[<-|[<-|[<-|[]]]]]; cbn [fst]; try exact G; replace ((- / sqrt 3) ^ 2) with ((/ sqrt 3) ^ 2) by ring; exact G.
Qed.
Lemma tri_mid_ok : positive_weights tri_mid /\ weights tri_mid = 1/2.
Proof. split; [unfold positive_weights, tri_mid; repeat (apply Forall_cons || apply Forall_nil); cbn [fst snd]; repeat split; lra|]. unfold weights, tri_mid. cbn [map lsum snd]. lra. Qed.
