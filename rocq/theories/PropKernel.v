(** Properties C22-C24 and C74-C77: the kernels of the shells.
    Only statements, each closed by a lemma proved elsewhere, with the assumptions it
    rests on and an instance of its hypotheses. *)
From Coq Require Import Reals Lra Lia List String Arith Bool ZArith Sorting.Permutation Sorting.Sorted.
From Verif Require Import Base BaseFacts Csys CsysFacts Sections Element Load FeModel Assembly Solver Post Api SpecApi WfFacts HidFacts SpecGeom SpecBeam SpecShell ShellFacts ShellGeom AsmFacts AsmProofs AsmProofs2 Demo Demo2 ShellDemo ShellProofs Kernels KernelProofs KernelProofs2 KernelProofs3 KernelProofs4 KernelProofs5 KernelProofs6 SpecKernel SpecAsm.
Import ListNotations.
Local Open Scope string_scope.
Local Open Scope list_scope.
Local Open Scope R_scope.

(** C22 with the kernels of the code, whatever the quadrature points and weights: the
    assembled stiffness is symmetric, shells included. *)
Theorem C22_code ext ops w m K c2 t2 : w = final ext init ops -> x_ker ext = code_kernels c2 t2 ->
  assembled_model w = Some m -> stiffness ext w = Some K ->
  forall p q, coo_get K p q = coo_get K q p.
Proof. exact (c22_code ext ops w m K c2 t2). Qed.
Print Assumptions C22_code.
Example C22_code_example : exists m K, assembled_model (final gauss_ext init shell_built) = Some m
  /\ stiffness gauss_ext (final gauss_ext init shell_built) = Some K /\ List.length (f_shells m) = 1%nat /\ forall p q, coo_get K p q = coo_get K q p.
Proof.
  destruct (shell_built_model gauss_ext) as (m & s & H1 & H2 & _ & _ & _ & _ & _ & _ & _ & K & HK). exists m, K.
  split; [exact H1|]. split; [exact HK|]. split; [rewrite H2; reflexivity|]. exact (C22_code gauss_ext shell_built _ m K _ _ eq_refl eq_refl H1 HK).
Qed.

(** C23 with the kernels of the code: for quadrature points inside the reference square and
    weights that are not negative the assembled stiffness is positive semidefinite, if quadrilaterals
    are plane and without re-entrant corner and triangles have a stored area that is not negative. *)
Theorem C23_code ext ops w m K c2 t2 : w = final ext init ops -> x_ker ext = code_kernels c2 t2 ->
  inside_square c2 -> positive_weights t2 ->
  assembled_model w = Some m -> stiffness ext w = Some K ->
  (forall k b, In (k, b) (f_beams m) -> props_nonneg (b_prop b)) ->
  (forall k s, In (k, s) (f_shells m) -> shell_fit s) ->
  forall x, 0 <= form (size m) K x x.
Proof. exact (c23_code ext ops w m K c2 t2). Qed.
Print Assumptions C23_code.
Example C23_code_example : exists m K, assembled_model (final gauss_ext init shell_built) = Some m
  /\ stiffness gauss_ext (final gauss_ext init shell_built) = Some K /\ List.length (f_shells m) = 1%nat /\ forall x, 0 <= form (size m) K x x.
Proof.
  destruct (shell_built_model gauss_ext) as (m & s & H1 & H2 & H3 & _ & HQ & _ & HT & HE & HM & K & HK). exists m, K.
  split; [exact H1|]. split; [exact HK|]. split; [rewrite H2; reflexivity|].
  apply (C23_code gauss_ext shell_built _ m K gauss2 tri_mid eq_refl eq_refl gauss2_inside (proj1 tri_mid_ok) H1 HK).
  - rewrite H3. intros k b [].
  - rewrite H2. intros k s' [E|[]]. injection E as <- <-. unfold shell_fit. rewrite HT, HE, HM, (proj1 (mk_quad_some _ _ _ _ _ _ _ HQ)).
    split; [lra|]. split; [lra|]. split; [lra|]. exact square_plane.
Qed.

(** C24 with shells. A rigid motion meets no resistance, if it turns no membrane in its own
    plane.  Missing: motions that do; for them the statement is false (C48_rotation_refuted,
    C74_drilling_refuted). *)
Theorem C24_shells_partial ext ops w m K c2 t2 t r x : w = final ext init ops -> never_readds_nodes ext ops ->
  x_ker ext = code_kernels c2 t2 -> inside_square c2 ->
  assembled_model w = Some m -> stiffness ext w = Some K ->
  (forall k s, In (k, s) (f_shells m) -> proper_shape s /\ unturned r s) ->
  rigid_motion m t r x -> forall q, row (size m) K x q = 0.
Proof. exact (c24_shells_no_force ext ops w m K c2 t2 t r x). Qed.
Print Assumptions C24_shells_partial.
Example C24_shells_example : exists m K x, assembled_model (final gauss_ext init shell_built) = Some m
  /\ stiffness gauss_ext (final gauss_ext init shell_built) = Some K /\ List.length (f_shells m) = 1%nat
  /\ rigid_motion m (V3 1 2 3) (V3 4 5 0) x /\ forall q, row (size m) K x q = 0.
Proof.
  destruct (shell_built_model gauss_ext) as (m & s & H1 & H2 & H3 & _ & HQ & _ & HT & HE & HM & K & HK). exists m, K, (rigid_vec m (V3 1 2 3) (V3 4 5 0)).
  split; [exact H1|]. split; [exact HK|]. split; [rewrite H2; reflexivity|].
  assert (R : rigid_motion m (V3 1 2 3) (V3 4 5 0) (rigid_vec m (V3 1 2 3) (V3 4 5 0))).
  { apply rigid_vec_motion. exact (assembled_good gauss_ext shell_built _ m eq_refl (shell_built_fresh _) H1). }
  split; [exact R|].
  refine (C24_shells_partial gauss_ext shell_built _ m K gauss2 tri_mid (V3 1 2 3) (V3 4 5 0) _ eq_refl (shell_built_fresh _) eq_refl gauss2_inside H1 HK _ R).
  rewrite H2. intros k s' [E|[]]. injection E as <- <-. unfold proper_shape, unturned. rewrite (proj1 (mk_quad_some _ _ _ _ _ _ _ HQ)).
  split; [exact square_plane|]. intros _. cbn [map]. unfold dot3, normal3, cross, vsub, n_loc, n1, n2, n3, n4, node_at; cbn [n_csys cs_O vx vy vz]. ring.
Qed.

(** C24 with shells. The nodal forces of any deformation have no resultant, and no moment about
    a direction that turns no membrane in its own plane. *)
Theorem C24_shells_balance_partial ext ops w m K c2 t2 : w = final ext init ops -> never_readds_nodes ext ops ->
  x_ker ext = code_kernels c2 t2 -> inside_square c2 ->
  assembled_model w = Some m -> stiffness ext w = Some K ->
  (forall k s, In (k, s) (f_shells m) -> proper_shape s) ->
  forall y, resultant_force m (row (size m) K y) = zero3
    /\ forall r, (forall k s, In (k, s) (f_shells m) -> unturned r s) -> dot3 r (resultant_moment m (row (size m) K y)) = 0.
Proof. exact (c24_shells_balance ext ops w m K c2 t2). Qed.
Print Assumptions C24_shells_balance_partial.
Example C24_shells_balance_example : exists m K, assembled_model (final gauss_ext init shell_built) = Some m
  /\ stiffness gauss_ext (final gauss_ext init shell_built) = Some K /\ List.length (f_shells m) = 1%nat
  /\ forall y, resultant_force m (row (size m) K y) = zero3.
Proof.
  destruct (shell_built_model gauss_ext) as (m & s & H1 & H2 & H3 & _ & HQ & _ & HT & HE & HM & K & HK). exists m, K.
  split; [exact H1|]. split; [exact HK|]. split; [rewrite H2; reflexivity|]. intros y.
  refine (proj1 (C24_shells_balance_partial gauss_ext shell_built _ m K gauss2 tri_mid eq_refl (shell_built_fresh _) eq_refl gauss2_inside H1 HK _ y)).
  rewrite H2. intros k s' [E|[]]. injection E as <- <-. unfold proper_shape. rewrite (proj1 (mk_quad_some _ _ _ _ _ _ _ HQ)). exact square_plane.
Qed.

(** C74. Whatever the corners (without re-entrant one), the membrane of the quadrilateral gives the
    work of a constant strain exactly: thickness times area times the plane-stress energy, for
    every quadrature that is exact for linear functions. *)
Theorem C74_constant_strain c2 t2 E mu t xl u v u' v' : inside_square c2 -> exact_square c2 -> convex4 xl ->
  work 12 (k_gq12 (code_kernels c2 t2) E mu t xl) (membrane_values xl u' v' 0) (membrane_values xl u v 0)
  = t * area4 xl * plane_stress E mu (strain u' v') (strain u v).
Proof. exact (c74_constant_strain c2 t2 E mu t xl u v u' v'). Qed.
Print Assumptions C74_constant_strain.
Example C74_constant_strain_example : inside_square gauss2 /\ exact_square gauss2 /\ convex4 trapezoid
  /\ work 12 (k_gq12 (code_kernels gauss2 tri_mid) 2 0 1 trapezoid) (membrane_values trapezoid (Lin 0 1 0) (Lin 0 0 0) 0) (membrane_values trapezoid (Lin 0 1 0) (Lin 0 0 0) 0) = 6.
Proof.
  split; [exact gauss2_inside|]. split; [exact gauss2_exact|]. split; [exact trapezoid_convex|].
  rewrite C74_constant_strain by (exact gauss2_inside || exact gauss2_exact || exact trapezoid_convex).
  unfold area4, turn, at_x, at_y, trapezoid, plane_stress, strain; cbn [nth Nat.mul Nat.add l_x l_y]. field.
Qed.

(** C74. The same for the whole element in space, for every plane quadrilateral and constant
    strain with any rigid deflection: the work is thickness times true area times energy. *)
Theorem C74_element c2 t2 nm sec a b c d s u v w u' v' w' : inside_square c2 -> exact_square c2 ->
  mk_quad nm sec a b c d = Some s -> plane_quad (n_loc a) (n_loc b) (n_loc c) (n_loc d) -> plane_w w ->
  work 24 (shell_K (code_kernels c2 t2) s) (shell_field (in_axes s) u' v' w') (shell_field (in_axes s) u v w)
  = with_membrane s * (ss_t sec * quad_true_area (n_loc a) (n_loc b) (n_loc c) (n_loc d)
      * plane_stress (m_E (ss_mat sec)) (m_mu (ss_mat sec)) (strain u' v') (strain u v)).
Proof. exact (c74_element c2 t2 nm sec a b c d s u v w u' v' w'). Qed.
Print Assumptions C74_element.
Example C74_element_example : exists s, mk_quad "q" unit_sec n1 n2 n3 n4 = Some s /\ plane_quad (n_loc n1) (n_loc n2) (n_loc n3) (n_loc n4) /\ plane_w (Quadratic 1 2 3 0 0 0).
Proof.
  destruct (example_quad unit_sec) as (s & E). unfold mk_quad in *. change (n_loc n1) with (V3 0 0 0). change (n_loc n2) with (V3 1 0 0). change (n_loc n3) with (V3 1 1 0). change (n_loc n4) with (V3 0 1 0).
  rewrite square_csys_eq. eexists. split; [reflexivity|]. split; [exact square_plane|]. repeat split.
Qed.

(** C74. Translations and rotations cause no force when the drilling values stay zero.  Missing: the
    drilling values of a rotation are the rotation; see the next two. *)
Theorem C74_rigid_partial c2 t2 E mu t xl a b th : inside_square c2 -> convex4 xl ->
  forall r, (r < 12)%nat ->
  force 12 (k_gq12 (code_kernels c2 t2) E mu t xl) (membrane_values xl (Lin a 0 (- th)) (Lin b th 0) 0) r = 0.
Proof. exact (c74_rigid_partial c2 t2 E mu t xl a b th). Qed.
Print Assumptions C74_rigid_partial.
Example C74_rigid_example : inside_square gauss2 /\ convex4 trapezoid /\ forall r, (r < 12)%nat ->
  force 12 (k_gq12 (code_kernels gauss2 tri_mid) 2 0 1 trapezoid) (membrane_values trapezoid (Lin 5 0 (-3)) (Lin 7 3 0) 0) r = 0.
Proof. split; [exact gauss2_inside|]. split; [exact trapezoid_convex|]. exact (C74_rigid_partial gauss2 tri_mid 2 0 1 trapezoid 5 7 3 gauss2_inside trapezoid_convex). Qed.

(** C74. A rotation with its drilling values causes no force in a parallelogram when every
    quadrature point has xi^2 = 1/3 (the four-point Gauss rule). *)
Theorem C74_parallelogram_partial c2 t2 E mu t xl a b th : inside_square c2 -> convex4 xl -> is_parallelogram xl ->
  (forall p, In p c2 -> 3 * fst (fst p) ^ 2 = 1) ->
  forall r, (r < 12)%nat ->
  force 12 (k_gq12 (code_kernels c2 t2) E mu t xl) (membrane_values xl (Lin a 0 (- th)) (Lin b th 0) th) r = 0.
Proof. exact (c74_parallelogram_partial c2 t2 E mu t xl a b th). Qed.
Print Assumptions C74_parallelogram_partial.
Example C74_parallelogram_example : is_parallelogram (rectangle 2 1) /\ convex4 (rectangle 2 1) /\ inside_square gauss2 /\ (forall p, In p gauss2 -> 3 * fst (fst p) ^ 2 = 1).
Proof. split; [unfold is_parallelogram, at_x, at_y, rectangle; cbn [nth Nat.mul Nat.add]; lra|]. split; [apply rectangle_convex; lra|]. split; [exact gauss2_inside|exact gauss2_third]. Qed.

(** C74. In general it does: there is a quadrilateral that resists an in-plane rotation under
    every quadrature (the shape functions of u and v take the drilling terms with xi where
    the corner's own coordinate belongs). *)
Theorem C74_drilling_refuted : exists xl, convex4 xl /\ forall c2 t2, inside_square c2 -> exact_square c2 ->
  let x := membrane_values xl (Lin 0 0 (-1)) (Lin 0 1 0) 1 in
  0 < work 12 (k_gq12 (code_kernels c2 t2) 1 0 1 xl) x x.
Proof. exact c74_drilling_refuted. Qed.
Print Assumptions C74_drilling_refuted.
(* existential: the witness is part of the statement *)

(** C75. The plate of the triangle interpolates the slopes of the discrete Kirchhoff theory, and
    its strain matrix is the derivative of that field: for all corner values, at every point. *)
Theorem C75_slopes xl d x y : turn xl 0 1 2 <> 0 ->
  let B := dkt_B xl (tri_s xl x y) (tri_r xl x y) in
  derivable_pt_lim (fun x => - tri_slope_x xl d x y) x (mvec 9 B d 0)
  /\ derivable_pt_lim (fun y => - tri_slope_y xl d x y) y (mvec 9 B d 1)
  /\ exists a b, derivable_pt_lim (fun y => - tri_slope_x xl d x y) y a
       /\ derivable_pt_lim (fun x => - tri_slope_y xl d x y) x b /\ mvec 9 B d 2 = a + b.
Proof. exact (c75_slopes xl d x y). Qed.
Print Assumptions C75_slopes.
Example C75_slopes_example : turn [0; 0; 2; 0; 1; 3] 0 1 2 <> 0.
Proof. unfold turn, at_x, at_y; cbn [nth Nat.mul Nat.add]. lra. Qed.

(** C75. Constant curvature is met exactly. *)
Theorem C75_constant_curvature c2 t2 E mu t xl w w' : turn xl 0 1 2 <> 0 ->
  work 9 (k_dkt (code_kernels c2 t2) E mu t xl) (plate_values xl w') (plate_values xl w)
  = weights t2 * plane_stress (E * t^3 / 12) mu (curvature w') (curvature w).
Proof. exact (c75_constant_curvature c2 t2 E mu t xl w w'). Qed.
Print Assumptions C75_constant_curvature.
Example C75_constant_curvature_example : turn [0; 0; 2; 0; 1; 3] 0 1 2 = 6 /\ weights tri_mid = 1/2
  /\ 6 * work 9 (k_dkt (code_kernels gauss2 tri_mid) 12 0 1 [0; 0; 2; 0; 1; 3]) (plate_values [0; 0; 2; 0; 1; 3] (Quadratic 0 0 0 1 0 0)) (plate_values [0; 0; 2; 0; 1; 3] (Quadratic 0 0 0 1 0 0)) = 3.
Proof.
  assert (T : turn [0; 0; 2; 0; 1; 3] 0 1 2 = 6) by (unfold turn, at_x, at_y; cbn [nth Nat.mul Nat.add]; lra).
  split; [exact T|]. split; [exact (proj2 tri_mid_ok)|]. rewrite C75_constant_curvature by (rewrite T; lra). rewrite (proj2 tri_mid_ok).
  unfold plane_stress, curvature; cbn [nth w_xx w_yy w_xy]. field.
Qed.

(** C75. A rigid deflection causes no force. *)
Theorem C75_rigid c2 t2 E mu t xl w : turn xl 0 1 2 <> 0 -> plane_w w ->
  forall r, (r < 9)%nat -> force 9 (k_dkt (code_kernels c2 t2) E mu t xl) (plate_values xl w) r = 0.
Proof. exact (c75_rigid c2 t2 E mu t xl w). Qed.
Print Assumptions C75_rigid.
Example C75_rigid_example : plane_w (Quadratic 1 2 3 0 0 0) /\ forall r, (r < 9)%nat ->
  force 9 (k_dkt (code_kernels gauss2 tri_mid) 12 0 1 [0; 0; 2; 0; 1; 3]) (plate_values [0; 0; 2; 0; 1; 3] (Quadratic 1 2 3 0 0 0)) r = 0.
Proof. split; [repeat split|]. apply C75_rigid; [exact C75_slopes_example|repeat split]. Qed.

(** C75. The whole triangular element in space: the work of a constant curvature is the stored
    area times the energy, for every quadrature whose weights add up to the area 1/2 of the
    reference triangle.  The stored area: C45. *)
Theorem C75_element c2 t2 nm sec a b c s w w' : weights t2 = 1/2 ->
  mk_tria nm sec a b c = Some s -> triangle (n_loc a) (n_loc b) (n_loc c) ->
  work 18 (shell_K (code_kernels c2 t2) s) (shell_field (along_axes s) (Lin 0 0 0) (Lin 0 0 0) w') (shell_field (along_axes s) (Lin 0 0 0) (Lin 0 0 0) w)
  = sh_area s * plane_stress (m_E (ss_mat sec) * ss_t sec ^ 3 / 12) (m_mu (ss_mat sec)) (curvature w') (curvature w).
Proof. exact (c75_element c2 t2 nm sec a b c s w w'). Qed.
Print Assumptions C75_element.
Example C75_element_example : weights tri_mid = 1/2 /\ exists s, mk_tria "t" unit_sec (node_at "A" 0 0 0) (node_at "B" 1 0 0) (node_at "C" 0 1 0) = Some s
  /\ triangle (V3 0 0 0) (V3 1 0 0) (V3 0 1 0).
Proof. split; [exact (proj2 tri_mid_ok)|]. destruct (example_tria unit_sec) as (s & E & A). exists s. split; [exact E|exact unit_triangle]. Qed.

(** C76. The plate of the quadrilateral interpolates the slopes of the discrete Kirchhoff
    theory, for all corner values. *)
Theorem C76_slopes xl d s r : four_sides xl ->
  rsum 12 (fun c => ev (dkq_Hx xl c) s r * d c) = - quad_slope_x xl d s r
  /\ rsum 12 (fun c => ev (dkq_Hy xl c) s r * d c) = - quad_slope_y xl d s r.
Proof. exact (c76_slopes xl d s r). Qed.
Print Assumptions C76_slopes.
Example C76_slopes_example : four_sides trapezoid.
Proof. apply convex_four, trapezoid_convex. Qed.

(** C76. A rigid deflection causes no force. *)
Theorem C76_rigid c2 t2 E mu t xl w : convex4 xl -> plane_w w ->
  forall r, (r < 12)%nat -> force 12 (k_dkq (code_kernels c2 t2) E mu t xl) (plate_values xl w) r = 0.
Proof. exact (c76_rigid c2 t2 E mu t xl w). Qed.
Print Assumptions C76_rigid.
Example C76_rigid_example : plane_w (Quadratic 1 2 3 0 0 0) /\ forall r, (r < 12)%nat ->
  force 12 (k_dkq (code_kernels gauss2 tri_mid) 12 0 1 trapezoid) (plate_values trapezoid (Quadratic 1 2 3 0 0 0)) r = 0.
Proof. split; [repeat split|]. apply C76_rigid; [exact trapezoid_convex|repeat split]. Qed.

(** C76. In a square in space constant strain and constant curvature are met exactly by the whole
    element.  Missing: other shapes; see the next two. *)
Theorem C76_square_partial c2 t2 nm sec a b c d s u v w u' v' w' : inside_square c2 -> exact_square c2 ->
  mk_quad nm sec a b c d = Some s -> plane_quad (n_loc a) (n_loc b) (n_loc c) (n_loc d) -> square3 (n_loc a) (n_loc b) (n_loc c) (n_loc d) ->
  work 24 (shell_K (code_kernels c2 t2) s) (shell_field (in_axes s) u' v' w') (shell_field (in_axes s) u v w)
  = quad_true_area (n_loc a) (n_loc b) (n_loc c) (n_loc d) *
    (with_membrane s * (ss_t sec * plane_stress (m_E (ss_mat sec)) (m_mu (ss_mat sec)) (strain u' v') (strain u v))
     + with_plate s * plane_stress (m_E (ss_mat sec) * ss_t sec ^ 3 / 12) (m_mu (ss_mat sec)) (curvature w') (curvature w)).
Proof. exact (c76_square_element c2 t2 nm sec a b c d s u v w u' v' w'). Qed.
Print Assumptions C76_square_partial.
Example C76_square_example : (exists s, mk_quad "q" unit_sec n1 n2 n3 n4 = Some s) /\ plane_quad (n_loc n1) (n_loc n2) (n_loc n3) (n_loc n4)
  /\ square3 (n_loc n1) (n_loc n2) (n_loc n3) (n_loc n4).
Proof.
  destruct C74_element_example as (s & E & P & _). split; [exists s; exact E|]. split; [exact P|].
  split; [split; [exact square_triangle|]|]; [|split]; unfold n_loc, n1, n2, n3, n4, node_at, vsub, dot3; cbn [n_csys cs_O vx vy vz]; try f_equal; ring.
Qed.

(** C76. In an a by b rectangle along the axes the curvature in x is taken a/b times, that in y b/a
    times: the inverse of the Jacobian has its diagonal entries exchanged. *)
Theorem C76_rectangle c2 t2 E mu t a b w w' : inside_square c2 -> exact_square c2 -> 0 < a -> 0 < b ->
  work 12 (k_dkq (code_kernels c2 t2) E mu t (rectangle a b)) (plate_values (rectangle a b) w') (plate_values (rectangle a b) w)
  = a * b * plane_stress (E * t^3 / 12) mu (stretched a b w') (stretched a b w).
Proof. exact (c76_rectangle c2 t2 E mu t a b w w'). Qed.
Print Assumptions C76_rectangle.
Example C76_rectangle_example : work 12 (k_dkq (code_kernels gauss2 tri_mid) 12 0 1 (rectangle 2 1)) (plate_values (rectangle 2 1) (Quadratic 0 0 0 1 0 0)) (plate_values (rectangle 2 1) (Quadratic 0 0 0 1 0 0)) = 8.
Proof.
  rewrite C76_rectangle by (exact gauss2_inside || exact gauss2_exact || lra). unfold plane_stress, stretched; cbn [nth w_xx w_xy w_yy]. field.
Qed.

(** C76. So constant curvature is not met in general, whatever the quadrature. *)
Theorem C76_refuted : exists xl w, convex4 xl /\ forall c2 t2, inside_square c2 -> exact_square c2 ->
  work 12 (k_dkq (code_kernels c2 t2) 12 0 1 xl) (plate_values xl w) (plate_values xl w)
  <> area4 xl * plane_stress (12 * 1^3 / 12) 0 (curvature w) (curvature w).
Proof. exact c76_refuted. Qed.
Print Assumptions C76_refuted.
(* existential: the witness is part of the statement *)

(** C77. Without re-entrant corner the Jacobians of both quadrilateral kernels are positive
    on the whole reference square; the closed formula of the plate is the determinant. *)
Theorem C77_jacobian xl : convex4 xl -> forall xi eta, -1 <= xi <= 1 -> -1 <= eta <= 1 ->
  0 < det2 (gq_J xl xi eta) /\ 0 < det2 (dkq_J xl xi eta) /\ dkq_detJ xl xi eta = det2 (dkq_J xl xi eta).
Proof. exact (c77_jacobian xl). Qed.
Print Assumptions C77_jacobian.
Example C77_jacobian_example : convex4 trapezoid.
Proof. exact trapezoid_convex. Qed.

(** C77. The weighted Jacobians add up to the area of the quadrilateral. *)
Theorem C77_area c2 xl : exact_square c2 ->
  lsum (map (fun p => snd p * det2 (gq_J xl (fst (fst p)) (snd (fst p)))) c2) = area4 xl
  /\ lsum (map (fun p => snd p * det2 (dkq_J xl (fst (fst p)) (snd (fst p)))) c2) = area4 xl.
Proof. exact (c77_area c2 xl). Qed.
Print Assumptions C77_area.
Example C77_area_example : exact_square gauss2 /\ area4 trapezoid = 3.
Proof. split; [exact gauss2_exact|]. unfold area4, turn, at_x, at_y, trapezoid; cbn [nth Nat.mul Nat.add]. lra. Qed.

(** C77. A plane quadrilateral in space without re-entrant corner has none in the axes of its
    element either, and keeps its area. *)
Theorem C77_quad nm sec a b c d s : mk_quad nm sec a b c d = Some s -> plane_quad (n_loc a) (n_loc b) (n_loc c) (n_loc d) ->
  convex4 (in_axes s) /\ area4 (in_axes s) = quad_true_area (n_loc a) (n_loc b) (n_loc c) (n_loc d).
Proof. exact (c77_quad nm sec a b c d s). Qed.
Print Assumptions C77_quad.
Example C77_quad_example : exists s, mk_quad "q" unit_sec n1 n2 n3 n4 = Some s /\ convex4 (in_axes s) /\ area4 (in_axes s) = quad_true_area (n_loc n1) (n_loc n2) (n_loc n3) (n_loc n4).
Proof. destruct C74_element_example as (s & E & P & _). exists s. split; [exact E|]. exact (C77_quad _ _ _ _ _ _ s E P). Qed.

(** C77. So does a triangle. *)
Theorem C77_tria nm sec a b c s : mk_tria nm sec a b c = Some s -> triangle (n_loc a) (n_loc b) (n_loc c) ->
  turn (along_axes s) 0 1 2 = 2 * triangle_area (n_loc a) (n_loc b) (n_loc c).
Proof. exact (c77_tria nm sec a b c s). Qed.
Print Assumptions C77_tria.
Example C77_tria_example : exists s, mk_tria "t" unit_sec (node_at "A" 0 0 0) (node_at "B" 1 0 0) (node_at "C" 0 1 0) = Some s /\ triangle (V3 0 0 0) (V3 1 0 0) (V3 0 1 0).
Proof. destruct (example_tria unit_sec) as (s & E & _). exists s. split; [exact E|exact unit_triangle]. Qed.

(** C77. The symbolic derivatives used by the kernels are derivatives. *)
Theorem C77_derivative_xi e eta xi : derivable_pt_lim (fun x => ev e x eta) xi (ev (dxi e) xi eta).
Proof. exact (dxi_correct e eta xi). Qed.
Print Assumptions C77_derivative_xi.
Example C77_derivative_example : ev (dxi (Mul Xi (Mul Xi Eta))) 3 5 = 30.
Proof. cbn. ring. Qed.

(** C77. In the other direction. *)
Theorem C77_derivative_eta e xi eta : derivable_pt_lim (fun y => ev e xi y) eta (ev (deta e) xi eta).
Proof. exact (deta_correct e xi eta). Qed.
Print Assumptions C77_derivative_eta.
Example C77_derivative_eta_example : ev (deta (Mul Xi (Mul Eta Eta))) 3 5 = 30.
Proof. cbn. ring. Qed.
