(** Properties C90-C93: the symbolic scripts.
    Only statements, each closed by a lemma proved elsewhere, with the assumptions it
    rests on and an instance of its hypotheses. *)
From Coq Require Import Reals Lra Lia List String Arith Bool ZArith Sorting.Permutation Sorting.Sorted.
From Verif Require Import Base BaseFacts Csys Sections Element CsysFacts SpecGeom SpecBeam BeamFacts Meta SpecMeta MetaProofs MetaProofs2.
Import ListNotations.
Local Open Scope string_scope.
Local Open Scope list_scope.
Local Open Scope R_scope.

(** C90. The symbolic derivation is calculus: for every polynomial its result between two bounds is the
    integral. *)
Theorem C90_integral f p a b (pr : Riemann_integrable f a b) : (forall x, f x = p_at p x) -> RiemannInt pr = p_between p a b.
Proof. exact (p_integral f p a b pr). Qed.
Print Assumptions C90_integral.
Example C90_integral_example : p_between [1; 2; 3] 0 2 = 14.
Proof. unfold p_between; cbn. field. Qed.

(** C90. The work of the member by end displacements is the integral of the strain energy of the
    fields with those ends. *)
Theorem C90_work_integral s f g l (pr : Riemann_integrable (strain_density s f g) 0 l) : l <> 0 -> beam_field f -> beam_field g ->
  RiemannInt pr = member_work s l (ends_of_field f l) (ends_of_field g l).
Proof. exact (c90_integral s f g l pr). Qed.
Print Assumptions C90_work_integral.
Example C90_work_integral_example : member_work (Stiff 1 1 1 1) 2 (ends_of_field bent 2) (ends_of_field bent 2) = 114.
Proof.
  assert (pr : Riemann_integrable (strain_density (Stiff 1 1 1 1) bent bent) 0 2) by (apply (poly_integrable _ _ 0 2 (strain_poly_at _ _ _)); lra).
  rewrite <- (C90_work_integral _ _ _ _ pr ltac:(lra) bent_beam bent_beam).
  rewrite (p_integral _ _ 0 2 pr (strain_poly_at _ _ _)). unfold p_between. cbn. field.
Qed.

(** C90. The stiffness of the script is the strain energy of the member, except that I2 resists the
    deflection along 2 and I3 that along 3. *)
Theorem C90_energy E G A I2 I3 J l f g (pr : Riemann_integrable (strain_density (Stiff (E * A) (G * J) (E * I3) (E * I2)) f g) 0 l) :
  l <> 0 -> beam_field f -> beam_field g ->
  form12 (meta_K E G A I2 I3 J l) (ends_of_field f l) (ends_of_field g l) = RiemannInt pr.
Proof. exact (c90_energy E G A I2 I3 J l f g pr). Qed.
Print Assumptions C90_energy.
Example C90_energy_example : form12 (meta_K 1 1 1 10 1 1 2) (ends_of_field bent 2) (ends_of_field bent 2) = 186.
Proof.
  assert (pr : Riemann_integrable (strain_density (Stiff (1*1) (1*1) (1*1) (1*10)) bent bent) 0 2) by (apply (poly_integrable _ _ 0 2 (strain_poly_at _ _ _)); lra).
  rewrite (C90_energy 1 1 1 10 1 1 2 bent bent pr ltac:(lra) bent_beam bent_beam).
  rewrite (p_integral _ _ 0 2 pr (strain_poly_at _ _ _)). unfold p_between. cbn. field.
Qed.

(** C90. As a statement on end displacements: the work of a member whose two inertias are exchanged. *)
Theorem C90_work E G A I2 I3 J l d e : l <> 0 ->
  form12 (meta_K E G A I2 I3 J l) d e = member_work (Stiff (E * A) (G * J) (E * I3) (E * I2)) l d e.
Proof. exact (c90_work E G A I2 I3 J l d e). Qed.
Print Assumptions C90_work.
Example C90_work_example : form12 (meta_K 1 1 1 10 1 1 1) (Ends (V3 0 1 0) zero3 zero3 zero3) (Ends (V3 0 1 0) zero3 zero3 zero3) = 120.
Proof. rewrite C90_work by lra. unfold member_work, bend. cbn. field. Qed.

(** C90, partial: entry by entry the matrix of the element when both inertias are equal. *)
Theorem C90_agree_partial E G A I J l i j : l <> 0 -> (i < 12)%nat -> (j < 12)%nat ->
  meta_K E G A I I J l i j = beam_K_mat E G A I I J l i j.
Proof. exact (c90_agree E G A I J l i j). Qed.
Print Assumptions C90_agree_partial.
Example C90_agree_partial_example : meta_K 1 1 1 2 2 1 2 1%nat 5%nat = beam_K_mat 1 1 1 2 2 1 2 1%nat 5%nat.
Proof. apply (C90_agree_partial 1 1 1 2 1 2 1%nat 5%nat); [lra|lia|lia]. Qed.

(** C90 is false of sections with different inertias. *)
Theorem C90_refuted : exists E G A I2 I3 J l i j, 0 < E /\ 0 < G /\ 0 < A /\ 0 < I2 /\ 0 < I3 /\ 0 < J /\ 0 < l
  /\ meta_K E G A I2 I3 J l i j <> beam_K_mat E G A I2 I3 J l i j.
Proof. exact c90_exchanged. Qed.
Print Assumptions C90_refuted.
(* existential: the witness is part of the statement *)

(** C91. What the mass matrix of the script is: the kinetic energy of a member with 4/l^2 times the
    mass along the axis and its inertia against twist, and with I/l^4 in place of the area across. *)
Theorem C91_integral rho A I2 I3 J l f g
  (pr : Riemann_integrable (motion_density (rho * A * (4 / l^2)) (rho * I2 / l^4) (rho * I3 / l^4) (rho * J * (4 / l^2)) f g) 0 l) :
  l <> 0 -> beam_field f -> beam_field g ->
  form12 (meta_M rho A I2 I3 J l) (ends_of_field f l) (ends_of_field g l) = RiemannInt pr.
Proof. exact (c91_integral rho A I2 I3 J l f g pr). Qed.
Print Assumptions C91_integral.
Example C91_integral_example : form12 (meta_M 1 1 16 16 1 2) (ends_of_field bent 2) (ends_of_field bent 2) = 40/3 + 32/5 + 128/7.
Proof.
  assert (pr : Riemann_integrable (motion_density (1 * 1 * (4 / 2^2)) (1 * 16 / 2^4) (1 * 16 / 2^4) (1 * 1 * (4 / 2^2)) bent bent) 0 2)
    by (apply (poly_integrable _ _ 0 2 (motion_poly_at _ _ _ _ _ _)); lra).
  rewrite (C91_integral 1 1 16 16 1 2 bent bent pr ltac:(lra) bent_beam bent_beam).
  rewrite (p_integral _ _ 0 2 pr (motion_poly_at _ _ _ _ _ _)). unfold p_between. cbn. field.
Qed.

(** C91. Moving along with both ends the member has this inertia. *)
Theorem C91_moved rho A I2 I3 J l t : l <> 0 ->
  form12 (meta_M rho A I2 I3 J l) (Ends t zero3 t zero3) (Ends t zero3 t zero3)
  = 4 * rho * A / l * vx t ^ 2 + rho * I2 / l^3 * vy t ^ 2 + rho * I3 / l^3 * vz t ^ 2.
Proof. exact (c91_moved rho A I2 I3 J l t). Qed.
Print Assumptions C91_moved.
Example C91_moved_example : form12 (meta_M 1 3 5 7 1 2) (Ends (V3 1 1 1) zero3 (V3 1 1 1) zero3) (Ends (V3 1 1 1) zero3 (V3 1 1 1) zero3) = 15/2.
Proof. rewrite C91_moved by lra. cbn. field. Qed.

(** C91 is false: a member moving along has not the mass of the member. *)
Theorem C91_refuted : exists rho A I2 I3 J l t, 0 < rho /\ 0 < A /\ 0 < I2 /\ 0 < I3 /\ 0 < J /\ 0 < l
  /\ form12 (meta_M rho A I2 I3 J l) (Ends t zero3 t zero3) (Ends t zero3 t zero3) <> rho * A * l * dot3 t t.
Proof. exact c91_exists. Qed.
Print Assumptions C91_refuted.
(* existential: the witness is part of the statement *)

(** C92. The four cubics take values and slopes at the ends of any length to the cubic with them. *)
Theorem C92_hermite p l xi : l <> 0 -> combine_with (hermite1 l xi) (hermite_data p l) = peval p (xi * l).
Proof. exact (c92_hermite p l xi). Qed.
Print Assumptions C92_hermite.
Example C92_hermite_example : combine_with (hermite1 2 (1/2)) (hermite_data (Poly 1 1 1 1) 2) = 4.
Proof. rewrite C92_hermite by lra. unfold peval; cbn. field. Qed.

(** C92. The sixteen products take values, slopes and mixed slopes at the corners of a square to the
    product of cubics with them. *)
Theorem C92_hermite2 p q l xi eta : l <> 0 ->
  combine_with (hermite2 l xi eta) (hermite_data2 p q l) = peval p (xi * l) * peval q (eta * l).
Proof. exact (c92_hermite2 p q l xi eta). Qed.
Print Assumptions C92_hermite2.
Example C92_hermite2_example : combine_with (hermite2 2 (1/2) (1/2)) (hermite_data2 (Poly 1 1 1 1) (Poly 0 0 0 5) 2) = 20.
Proof. rewrite C92_hermite2 by lra. unfold peval; cbn. field. Qed.

(** C92. The linear and bilinear functions reproduce all linear and bilinear fields; the corners are
    numbered (-1,-1), (-1,1), (1,-1), (1,1). *)
Theorem C92_lagrange a b c d xi eta :
  let F x y := a + b * x + c * y + d * x * y in
  combine_with (lagrange2 xi eta) [F (-1) (-1); F (-1) 1; F 1 (-1); F 1 1] = F xi eta
  /\ combine_with (lagrange1 xi) [a - b; a + b] = a + b * xi.
Proof. exact (c92_lagrange a b c d xi eta). Qed.
Print Assumptions C92_lagrange.
Example C92_lagrange_example : combine_with (lagrange2 (1/2) (1/3)) [1 - 2 - 3 + 4; 1 - 2 + 3 - 4; 1 + 2 - 3 - 4; 1 + 2 + 3 + 4] = 11/3.
Proof.
  pose proof (proj1 (C92_lagrange 1 2 3 4 (1/2) (1/3))) as H. cbv zeta in H.
  replace (11/3) with (1 + 2 * (1/2) + 3 * (1/3) + 4 * (1/2) * (1/3)) by field. rewrite <- H. f_equal. f_equal; [ring|]. f_equal; [ring|]. f_equal; [ring|]. f_equal; ring.
Qed.

(** C93. Stress and strain of the script are those of Hooke's law, both ways: a pulled bar stretches by
    s/E and thins by nu s/E. *)
Theorem C93_hooke E nu s e : E <> 0 -> 1 + nu <> 0 -> 1 - 2 * nu <> 0 ->
  hooke E nu s e <-> is_stress s (iso_sig E nu (iso_eps (c_xx e) (c_yy e) (c_zz e) (c_xy e) (c_yz e) (c_zx e))).
Proof. exact (c93_hooke E nu s e). Qed.
Print Assumptions C93_hooke.
Example C93_hooke_example : is_stress (Six 1 0 0 1 0 0) (iso_sig 1 (1/4) (iso_eps 1 (-1/4) (-1/4) (5/2) 0 0)).
Proof.
  apply (C93_hooke 1 (1/4) (Six 1 0 0 1 0 0) (Six 1 (-1/4) (-1/4) (5/2) 0 0)); try lra. unfold hooke; cbn. repeat split; lra.
Qed.

(** C93. No strain without work, for every Poisson ratio between -1 and 1/2. *)
Theorem C93_energy E nu s e : 0 < E -> -1 < nu < 1/2 -> hooke E nu s e ->
  0 <= work6 s e /\ (work6 s e = 0 -> e = Six 0 0 0 0 0 0).
Proof. exact (c93_energy E nu s e). Qed.
Print Assumptions C93_energy.
Example C93_energy_example : 0 <= work6 (Six 1 0 0 1 0 0) (Six 1 (-1/4) (-1/4) (5/2) 0 0).
Proof. apply (C93_energy 1 (1/4)); try lra. unfold hooke; cbn. repeat split; lra. Qed.

(** C93. The shear modulus of the material class is that of Hooke's law. *)
Theorem C93_shear E mu s e : E <> 0 -> 1 + mu <> 0 -> hooke E mu s e ->
  c_xy s = mat_iso_G E mu * c_xy e /\ c_yz s = mat_iso_G E mu * c_yz e /\ c_zx s = mat_iso_G E mu * c_zx e.
Proof. exact (c93_shear E mu s e). Qed.
Print Assumptions C93_shear.
Example C93_shear_example : 1 = mat_iso_G 1 (1/4) * (5/2).
Proof. apply (C93_shear 1 (1/4) (Six 1 0 0 1 0 0) (Six 1 (-1/4) (-1/4) (5/2) 0 0)); try lra. unfold hooke; cbn. repeat split; lra. Qed.

(** C93, partial: the second constant of the material class is that of Hooke's law after a factor mu. *)
Theorem C93_lamda_partial E mu s e : E <> 0 -> 1 + mu <> 0 -> 1 - 2 * mu <> 0 -> hooke E mu s e ->
  c_xx s = 2 * mat_iso_G E mu * c_xx e + mat_iso_lamda E mu * mu * (c_xx e + c_yy e + c_zz e).
Proof. exact (c93_lamda E mu s e). Qed.
Print Assumptions C93_lamda_partial.
Example C93_lamda_partial_example : 1 = 2 * mat_iso_G 1 (1/4) * 1 + mat_iso_lamda 1 (1/4) * (1/4) * (1 + -1/4 + -1/4).
Proof. apply (C93_lamda_partial 1 (1/4) (Six 1 0 0 1 0 0) (Six 1 (-1/4) (-1/4) (5/2) 0 0)); try lra. unfold hooke; cbn. repeat split; lra. Qed.

(** C93 is false of that constant as it stands. *)
Theorem C93_lamda_refuted : exists E mu s e, 0 < E /\ 0 < mu < 1/2 /\ hooke E mu s e
  /\ c_xx s <> 2 * mat_iso_G E mu * c_xx e + mat_iso_lamda E mu * (c_xx e + c_yy e + c_zz e).
Proof. exact c93_lamda_refuted. Qed.
Print Assumptions C93_lamda_refuted.
(* existential: the witness is part of the statement *)
