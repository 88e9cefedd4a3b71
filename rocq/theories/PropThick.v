(** Properties C88 and C89: the thick plate.
    Only statements, each closed by a lemma proved elsewhere, with the assumptions it
    rests on and an instance of its hypotheses. *)
From Coq Require Import Reals Lra Lia List String Arith Bool ZArith Sorting.Permutation Sorting.Sorted.
From Verif Require Import Base BaseFacts Csys Sections Element Load FeModel Assembly SpecApi SpecGeom SpecShell SpecAsm Kernels KernelProofs KernelProofs2 KernelProofs5 ShellProofs Demo Demo2 ShellDemo Thick SpecThick ThickProofs ThickProofs2 ThickProofs3 SpecKernel SpecThick.
Import ListNotations.
Local Open Scope string_scope.
Local Open Scope list_scope.
Local Open Scope R_scope.

(** C88. Along every side the kernel takes the plate as a beam with shear: the shear it uses is that of
    the beam, and the slopes at the middle are those of the beam along the side and the mean across. *)
Theorem C88_side E mu t xl d k W Psi g : 0 < E -> -1 < mu < 1 -> 0 < t -> (k < 4)%nat ->
  let (i, j) := side_ends k in let l := side_l xl i j in 0 < l ->
  beam_strip (bending_stiffness E mu t) (shear_stiffness E mu t) l
    (at_w d i) (along xl d i j i) (at_w d j) (along xl d i j j) W Psi g ->
  mvec 12 (tm_Gamma mu t xl) d k = g * l /\
  mvec 12 (tm_alpha mu t xl) d k = (Psi (l / 2) * side_x xl i j - (across xl d i j i + across xl d i j j) / 2 * side_y xl i j) / l /\
  mvec 12 (tm_beta mu t xl) d k = (Psi (l / 2) * side_y xl i j + (across xl d i j i + across xl d i j j) / 2 * side_x xl i j) / l.
Proof. exact (c88_side E mu t xl d k W Psi g). Qed.
Print Assumptions C88_side.
Example C88_side_example : exists W Psi g, beam_strip (bending_stiffness 3 0 1) (shear_stiffness 3 0 1) 2
    (at_w ramp 1) (along trapezoid ramp 1 2 1) (at_w ramp 2) (along trapezoid ramp 1 2 2) W Psi g
  /\ mvec 12 (tm_Gamma 0 1 trapezoid) ramp 0 = g * 2.
Proof.
  pose proof trapezoid_l as L.
  assert (P : 0 < side_l trapezoid 1 2) by (rewrite L; lra).
  destruct (c88_side_exists 3 0 1 trapezoid ramp 0 ltac:(lra) ltac:(lra) ltac:(lra) ltac:(lia) P) as (W & Psi & g & S).
  exists W, Psi, g. rewrite <- L. split; [exact S|].
  exact (proj1 (C88_side 3 0 1 trapezoid ramp 0 W Psi g ltac:(lra) ltac:(lra) ltac:(lra) ltac:(lia) P S)).
Qed.

(** C88. That beam exists for all values at the ends. *)
Theorem C88_side_exists E mu t xl d k : 0 < E -> -1 < mu < 1 -> 0 < t -> (k < 4)%nat ->
  let (i, j) := side_ends k in let l := side_l xl i j in 0 < l ->
  exists W Psi g, beam_strip (bending_stiffness E mu t) (shear_stiffness E mu t) l
    (at_w d i) (along xl d i j i) (at_w d j) (along xl d i j j) W Psi g.
Proof. exact (c88_side_exists E mu t xl d k). Qed.
Print Assumptions C88_side_exists.
Example C88_side_exists_example : exists W Psi g, beam_strip (bending_stiffness 2 0 1) (shear_stiffness 2 0 1) (side_l trapezoid 1 2)
    (at_w ramp 1) (along trapezoid ramp 1 2 1) (at_w ramp 2) (along trapezoid ramp 1 2 2) W Psi g.
Proof. apply (C88_side_exists 2 0 1 trapezoid ramp 0); try lra; try lia. rewrite trapezoid_l. lra. Qed.

(** C88. The shear of a thin plate vanishes with the square of the thickness. *)
Theorem C88_thin mu t xl d k : mu < 1 -> (k < 4)%nat -> let (i, j) := side_ends k in let l := side_l xl i j in 0 < l ->
  Rabs (mvec 12 (tm_Gamma mu t xl) d k)
  <= 6 / (5 * (1 - mu)) * (t / l)^2 * Rabs (2 * (at_w d j - at_w d i) - l * (along xl d i j i + along xl d i j j)).
Proof. exact (c88_thin mu t xl d k). Qed.
Print Assumptions C88_thin.
Example C88_thin_example : Rabs (mvec 12 (tm_Gamma 0 (1/10) trapezoid) ramp 0)
  <= 6 / (5 * (1 - 0)) * (1/10 / side_l trapezoid 1 2)^2
     * Rabs (2 * (at_w ramp 2 - at_w ramp 1) - side_l trapezoid 1 2 * (along trapezoid ramp 1 2 1 + along trapezoid ramp 1 2 2)).
Proof. apply (C88_thin 0 (1/10) trapezoid ramp 0); try lra; try lia. rewrite trapezoid_l. lra. Qed.

(** C88. Without thickness the slopes are those of the discrete Kirchhoff plate of the other element. *)
Theorem C88_kirchhoff mu xl d s r : four_sides xl ->
  eight_node (at_gx d) (mvec 12 (tm_alpha mu 0 xl) d) s r = quad_slope_x xl (as_rotations d) s r /\
  eight_node (at_gy d) (mvec 12 (tm_beta mu 0 xl) d) s r = quad_slope_y xl (as_rotations d) s r.
Proof. exact (c88_kirchhoff mu xl d s r). Qed.
Print Assumptions C88_kirchhoff.
Example C88_kirchhoff_example : eight_node (at_gx ramp) (mvec 12 (tm_alpha (1/5) 0 trapezoid) ramp) (1/3) (1/2)
  = quad_slope_x trapezoid (as_rotations ramp) (1/3) (1/2).
Proof. apply (C88_kirchhoff (1/5) trapezoid ramp (1/3) (1/2)). apply convex_four, trapezoid_convex. Qed.

(** C88. The shear strain is interpolated between the corners, where it has along both sides the shear
    of those sides. *)
Theorem C88_shear mu t xl d : convex4 xl -> exists gx gy,
  shear_of_sides xl (mvec 12 (tm_Gamma mu t xl) d) gx gy /\
  forall s r, mvec 12 (tm_Bs mu t xl s r) d 0 = four gx s r /\ mvec 12 (tm_Bs mu t xl s r) d 1 = four gy s r.
Proof. exact (c88_shear mu t xl d). Qed.
Print Assumptions C88_shear.
Example C88_shear_example : exists gx gy, shear_of_sides trapezoid (mvec 12 (tm_Gamma 0 1 trapezoid) ramp) gx gy
  /\ mvec 12 (tm_Bs 0 1 trapezoid (1/3) (1/2)) ramp 0 = four gx (1/3) (1/2).
Proof. destruct (C88_shear 0 1 trapezoid ramp trapezoid_convex) as (gx & gy & S & H). exists gx, gy. split; [exact S|]. apply H. Qed.

(** C88. The bending strain is minus the derivative in the plane of the interpolated slopes. *)
Theorem C88_bending mu t xl d s r : convex4 xl -> -1 <= s <= 1 -> -1 <= r <= 1 ->
  exists ax ay bx by',
  gradient xl (eight_node (at_gx d) (mvec 12 (tm_alpha mu t xl) d)) s r ax ay /\
  gradient xl (eight_node (at_gy d) (mvec 12 (tm_beta mu t xl) d)) s r bx by' /\
  mvec 12 (tm_Bb mu t xl s r) d 0 = - ax /\ mvec 12 (tm_Bb mu t xl s r) d 1 = - by' /\
  mvec 12 (tm_Bb mu t xl s r) d 2 = - (ay + bx).
Proof. exact (c88_bending_convex mu t xl d s r). Qed.
Print Assumptions C88_bending.
Example C88_bending_example : exists a b, gradient trapezoid (eight_node (at_gx ramp) (mvec 12 (tm_alpha 0 1 trapezoid) ramp)) (1/3) (1/2) a b
  /\ mvec 12 (tm_Bb 0 1 trapezoid (1/3) (1/2)) ramp 0 = - a.
Proof.
  destruct (C88_bending 0 1 trapezoid ramp (1/3) (1/2) trapezoid_convex ltac:(lra) ltac:(lra)) as (a & b & _ & _ & G & _ & E & _).
  exists a, b. split; assumption.
Qed.

(** C88. Constant curvature is met exactly by quadrilaterals of every shape without re-entrant corner,
    at every thickness. *)
Theorem C88_constant_curvature c2 E mu t xl w w' : inside_square c2 -> exact_square c2 -> convex4 xl ->
  work 12 (tmq_K c2 E mu t xl) (slope_values xl w') (slope_values xl w)
  = area4 xl * plane_stress (E * t^3 / 12) mu (curvature w') (curvature w).
Proof. exact (c88_constant_curvature c2 E mu t xl w w'). Qed.
Print Assumptions C88_constant_curvature.
Example C88_constant_curvature_example :
  work 12 (tmq_K gauss2 12 0 1 trapezoid) (slope_values trapezoid (Quadratic 0 0 0 1 0 0)) (slope_values trapezoid (Quadratic 5 6 7 1 2 3)) = 3.
Proof.
  rewrite C88_constant_curvature by (exact gauss2_inside || exact gauss2_exact || exact trapezoid_convex).
  unfold area4, turn, at_x, at_y, trapezoid, plane_stress, curvature; cbn [nth Nat.mul Nat.add w_xx w_yy w_xy]. field.
Qed.

(** C88. A rigid deflection causes no force. *)
Theorem C88_rigid c2 E mu t xl w : inside_square c2 -> convex4 xl -> plane_w w ->
  forall r, (r < 12)%nat -> force 12 (tmq_K c2 E mu t xl) (slope_values xl w) r = 0.
Proof. exact (c88_rigid c2 E mu t xl w). Qed.
Print Assumptions C88_rigid.
Example C88_rigid_example : forall r, (r < 12)%nat -> force 12 (tmq_K gauss2 2 0 1 trapezoid) (slope_values trapezoid (Quadratic 5 6 7 0 0 0)) r = 0.
Proof. apply C88_rigid; [exact gauss2_inside|exact trapezoid_convex|repeat split]. Qed.

(** C88. The matrix is symmetric. *)
Theorem C88_symmetric c2 E mu t xl i j : (i < 12)%nat -> (j < 12)%nat -> tmq_K c2 E mu t xl i j = tmq_K c2 E mu t xl j i.
Proof. exact (c88_symmetric c2 E mu t xl i j). Qed.
Print Assumptions C88_symmetric.
Example C88_symmetric_example : tmq_K gauss2 2 0 1 trapezoid 0%nat 4%nat = tmq_K gauss2 2 0 1 trapezoid 4%nat 0%nat.
Proof. apply C88_symmetric; lia. Qed.

(** C88. Its work is never negative. *)
Theorem C88_nonneg c2 E mu t xl : inside_square c2 -> convex4 xl -> 0 <= E -> -1 < mu < 1 -> 0 <= t ->
  forall x, 0 <= work 12 (tmq_K c2 E mu t xl) x x.
Proof. exact (c88_nonneg c2 E mu t xl). Qed.
Print Assumptions C88_nonneg.
Example C88_nonneg_example : forall x, 0 <= work 12 (tmq_K gauss2 2 0 1 trapezoid) x x.
Proof. apply C88_nonneg; try lra; [exact gauss2_inside|exact trapezoid_convex]. Qed.

(** C89. The whole element meets constant strain and curvature exactly in every plane quadrilateral, when the
    values at the rotations are the slopes w,x and w,y.  Missing: they are w,y and -w,x in every other
    element, and with these the statement is false; see C89_rigid_refuted. *)
Theorem C89_slopes_partial c2 t2 nm sec a b c d s u v w u' v' w' : inside_square c2 -> exact_square c2 ->
  mk_quad nm sec a b c d = Some s -> plane_quad (n_loc a) (n_loc b) (n_loc c) (n_loc d) ->
  work 24 (tmgq_K c2 t2 s) (slope_field (in_axes s) u' v' w') (slope_field (in_axes s) u v w)
  = quad_true_area (n_loc a) (n_loc b) (n_loc c) (n_loc d) *
    (with_membrane s * (ss_t sec * plane_stress (m_E (ss_mat sec)) (m_mu (ss_mat sec)) (strain u' v') (strain u v))
     + with_plate s * plane_stress (m_E (ss_mat sec) * ss_t sec ^ 3 / 12) (m_mu (ss_mat sec)) (curvature w') (curvature w)).
Proof. exact (c89_slopes c2 t2 nm sec a b c d s u v w u' v' w'). Qed.
Print Assumptions C89_slopes_partial.
Example C89_slopes_example : exists s, mk_quad "q" unit_sec n1 n2 n3 n4 = Some s /\
  work 24 (tmgq_K gauss2 tri_mid s) (slope_field (in_axes s) (Lin 0 1 0) (Lin 0 0 0) (Quadratic 0 0 0 1 0 0)) (slope_field (in_axes s) (Lin 0 1 0) (Lin 0 0 0) (Quadratic 0 0 0 1 0 0))
  = quad_true_area (n_loc n1) (n_loc n2) (n_loc n3) (n_loc n4) *
    (with_membrane s * (3 * plane_stress 2 0 [1; 0; 0 + 0] [1; 0; 0 + 0]) + with_plate s * plane_stress (2 * 3 ^ 3 / 12) 0 [-1; -0; -2 * 0] [-1; -0; -2 * 0]).
Proof.
  destruct square_made as (s & E & _). exists s. split; [exact E|].
  exact (C89_slopes_partial gauss2 tri_mid "q" unit_sec n1 n2 n3 n4 s _ _ _ _ _ _ gauss2_inside gauss2_exact E square_plane).
Qed.

(** C89. Translations, and rotations in the plane with drilling values zero, cause no force.  Missing: tilts,
    for which it is false. *)
Theorem C89_rigid_partial c2 t2 nm sec a b c d s p q th z : inside_square c2 ->
  mk_quad nm sec a b c d = Some s -> plane_quad (n_loc a) (n_loc b) (n_loc c) (n_loc d) ->
  forall r, (r < 24)%nat -> force 24 (tmgq_K c2 t2 s) (shell_field (in_axes s) (Lin p 0 (- th)) (Lin q th 0) (Quadratic z 0 0 0 0 0)) r = 0.
Proof. exact (c89_rigid_partial c2 t2 nm sec a b c d s p q th z). Qed.
Print Assumptions C89_rigid_partial.
Example C89_rigid_example : exists s, mk_quad "q" unit_sec n1 n2 n3 n4 = Some s /\
  forall r, (r < 24)%nat -> force 24 (tmgq_K gauss2 tri_mid s) (shell_field (in_axes s) (Lin 1 0 (-4)) (Lin 2 4 0) (Quadratic 3 0 0 0 0 0)) r = 0.
Proof.
  destruct square_made as (s & E & _). exists s. split; [exact E|].
  exact (C89_rigid_partial gauss2 tri_mid "q" unit_sec n1 n2 n3 n4 s 1 2 4 3 gauss2_inside E square_plane).
Qed.

(** C89. A tilt, which is a rigid motion, strains every square element with a plate. *)
Theorem C89_tilt c2 t2 nm sec a b c d s w : inside_square c2 -> exact_square c2 ->
  mk_quad nm sec a b c d = Some s -> plane_quad (n_loc a) (n_loc b) (n_loc c) (n_loc d) -> square3 (n_loc a) (n_loc b) (n_loc c) (n_loc d) ->
  with_plate s = 1 -> 0 < m_E (ss_mat sec) -> -1 < m_mu (ss_mat sec) < 1 -> 0 < ss_t sec -> plane_w w -> w_x w <> 0 \/ w_y w <> 0 ->
  0 < work 24 (tmgq_K c2 t2 s) (shell_field (in_axes s) (Lin 0 0 0) (Lin 0 0 0) w) (shell_field (in_axes s) (Lin 0 0 0) (Lin 0 0 0) w).
Proof. exact (c89_tilt c2 t2 nm sec a b c d s w). Qed.
Print Assumptions C89_tilt.
Example C89_tilt_example : exists s, mk_quad "q" unit_sec n1 n2 n3 n4 = Some s /\
  0 < work 24 (tmgq_K gauss2 tri_mid s) (shell_field (in_axes s) (Lin 0 0 0) (Lin 0 0 0) (Quadratic 0 3 4 0 0 0)) (shell_field (in_axes s) (Lin 0 0 0) (Lin 0 0 0) (Quadratic 0 3 4 0 0 0)).
Proof.
  destruct square_made as (s & E & P). exists s. split; [exact E|].
  apply (C89_tilt gauss2 tri_mid "q" unit_sec n1 n2 n3 n4 s (Quadratic 0 3 4 0 0 0) gauss2_inside gauss2_exact E square_plane square_square3 P); cbn; try lra. repeat split.
Qed.

(** C89. So that rigid motions do cause forces. *)
Theorem C89_rigid_refuted : exists s w, mk_quad "q" unit_sec n1 n2 n3 n4 = Some s /\ plane_w w /\
  forall c2 t2, inside_square c2 -> exact_square c2 ->
  exists r, (r < 24)%nat /\ force 24 (tmgq_K c2 t2 s) (shell_field (in_axes s) (Lin 0 0 0) (Lin 0 0 0) w) r <> 0.
Proof. exact c89_rigid_refuted. Qed.
Print Assumptions C89_rigid_refuted.


(** C89. The element matrix is symmetric. *)
Theorem C89_symmetric c2 t2 nm sec a b c d s x y : mk_quad nm sec a b c d = Some s ->
  work 24 (tmgq_K c2 t2 s) x y = work 24 (tmgq_K c2 t2 s) y x.
Proof. exact (c89_symmetric c2 t2 nm sec a b c d s x y). Qed.
Print Assumptions C89_symmetric.
Example C89_symmetric_example : exists s, mk_quad "q" unit_sec n1 n2 n3 n4 = Some s /\ work 24 (tmgq_K gauss2 tri_mid s) ramp (fun _ => 1) = work 24 (tmgq_K gauss2 tri_mid s) (fun _ => 1) ramp.
Proof. destruct square_made as (s & E & _). exists s. split; [exact E|]. exact (C89_symmetric gauss2 tri_mid _ _ _ _ _ _ s _ _ E). Qed.

(** C89. Its work is never negative. *)
Theorem C89_nonneg c2 t2 nm sec a b c d s x : inside_square c2 ->
  mk_quad nm sec a b c d = Some s -> plane_quad (n_loc a) (n_loc b) (n_loc c) (n_loc d) ->
  0 <= m_E (ss_mat sec) -> -1 < m_mu (ss_mat sec) < 1 -> 0 <= ss_t sec -> 0 <= work 24 (tmgq_K c2 t2 s) x x.
Proof. exact (c89_nonneg c2 t2 nm sec a b c d s x). Qed.
Print Assumptions C89_nonneg.
Example C89_nonneg_example : exists s, mk_quad "q" unit_sec n1 n2 n3 n4 = Some s /\ 0 <= work 24 (tmgq_K gauss2 tri_mid s) ramp ramp.
Proof. destruct square_made as (s & E & _). exists s. split; [exact E|]. apply (C89_nonneg gauss2 tri_mid _ _ _ _ _ _ s ramp gauss2_inside E square_plane); cbn; lra. Qed.
