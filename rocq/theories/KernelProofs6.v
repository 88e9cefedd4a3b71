(** Whole shell elements with the kernels of the code (C74-C77). *)
From Coq Require Import Reals Lra Lia List String Arith Bool.
From Verif Require Import Base BaseFacts Csys Sections Element Load FeModel Assembly Solver Post Api
  SpecApi WfFacts HidFacts SpecGeom CsysFacts SpecBeam BeamFacts SpecShell ShellGeom SpecKernel SpecAsm AsmFacts AsmProofs AsmProofs2 ShellFacts
  Kernels KernelProofs KernelProofs2 ShellProofs KernelProofs3 KernelProofs5 SpecKernel.
Import ListNotations.
Local Open Scope R_scope.

Lemma work_ext n K x x' y y' : (forall i, (i < n)%nat -> x i = x' i) -> (forall i, (i < n)%nat -> y i = y' i) -> work n K x y = work n K x' y'.
Proof. intros HX HY. unfold work. apply rsum_ext; intros i Hi. apply rsum_ext; intros j Hj. now rewrite HX, HY. Qed.
Lemma field_membrane xl u v w r : (r < 12)%nat -> membrane_q (shell_field xl u v w) r = membrane_values xl u v 0 r.
Proof. intros H. do 12 (destruct r as [|r]; [reflexivity|]). lia. Qed.
Lemma field_plate xl u v w r : (r < 12)%nat -> plate_x (shell_field xl u v w) r = plate_values xl w r.
Proof. intros H. do 12 (destruct r as [|r]; [reflexivity|]). lia. Qed.
Lemma field_membrane_t xl u v w r : (r < 6)%nat -> membrane_t (shell_field xl u v w) r
  = match (r mod 2)%nat with O => lin_at u (at_x xl (r / 2)) (at_y xl (r / 2)) | _ => lin_at v (at_x xl (r / 2)) (at_y xl (r / 2)) end.
Proof. intros H. do 6 (destruct r as [|r]; [reflexivity|]). lia. Qed.
Lemma work_zero n x y : work n zero_mat x y = 0.
Proof. unfold work, zero_mat. apply rsum_0; intros. apply rsum_0; intros. ring. Qed.

Lemma quad_parts ker s u v w u' v' w' : List.length (sh_nodes s) = 4%nat ->
  work 24 (shell_K ker s) (shell_field (in_axes s) u' v' w') (shell_field (in_axes s) u v w)
  = with_membrane s * work 12 (k_gq12 ker (m_E (ss_mat (sh_sec s))) (m_mu (ss_mat (sh_sec s))) (ss_t (sh_sec s)) (in_axes s))
      (membrane_values (in_axes s) u' v' 0) (membrane_values (in_axes s) u v 0)
  + with_plate s * work 12 (k_dkq ker (m_E (ss_mat (sh_sec s))) (m_mu (ss_mat (sh_sec s))) (ss_t (sh_sec s)) (in_axes s))
      (plate_values (in_axes s) w') (plate_values (in_axes s) w).
Proof.
  intros H. unfold shell_K. rewrite H. cbn [Nat.eqb]. unfold quad_K. rewrite quad_K_axes. unfold work at 1.
  change 24%nat with (6 * 4)%nat. rewrite place_quad_form. change (3 * 4)%nat with 12%nat.
  unfold with_membrane, with_plate. f_equal.
  - match goal with |- ?l = _ => change l with (work 12 (if (String.eqb (ss_type (sh_sec s)) "membrane" || String.eqb (ss_type (sh_sec s)) "shell")%bool then k_gq12 ker (m_E (ss_mat (sh_sec s))) (m_mu (ss_mat (sh_sec s))) (ss_t (sh_sec s)) (in_axes s) else zero_mat) (membrane_q (shell_field (in_axes s) u' v' w')) (membrane_q (shell_field (in_axes s) u v w))) end.
    destruct (_ || _)%bool; [|rewrite work_zero; ring]. rewrite Rmult_1_l. apply work_ext; intros; now apply field_membrane.
  - match goal with |- ?l = _ => change l with (work 12 (if (String.eqb (ss_type (sh_sec s)) "plate" || String.eqb (ss_type (sh_sec s)) "shell")%bool then k_dkq ker (m_E (ss_mat (sh_sec s))) (m_mu (ss_mat (sh_sec s))) (ss_t (sh_sec s)) (in_axes s) else zero_mat) (plate_x (shell_field (in_axes s) u' v' w')) (plate_x (shell_field (in_axes s) u v w))) end.
    destruct (_ || _)%bool; [|rewrite work_zero; ring]. rewrite Rmult_1_l. apply work_ext; intros; now apply field_plate.
Qed.

Lemma c77_quad nm sec a b c d s : mk_quad nm sec a b c d = Some s -> plane_quad (n_loc a) (n_loc b) (n_loc c) (n_loc d) ->
  convex4 (in_axes s) /\ area4 (in_axes s) = quad_true_area (n_loc a) (n_loc b) (n_loc c) (n_loc d).
Proof.
  intros H P. unfold mk_quad in H. destruct (quad_csys _ _ _ _) as [cs|] eqn:Q; [|discriminate]. apply some_inj in H. subst s.
  rewrite in_axes_coords. cbn [sh_csys sh_nodes map]. split; [now apply quad_axes_convex|now apply quad_area_axes].
Qed.
Lemma c77_jacobian xl : convex4 xl -> forall xi eta, -1 <= xi <= 1 -> -1 <= eta <= 1 ->
  0 < det2 (gq_J xl xi eta) /\ 0 < det2 (dkq_J xl xi eta) /\ dkq_detJ xl xi eta = det2 (dkq_J xl xi eta).
Proof. intros C xi eta X Y. split; [now apply gq_det_pos|]. split; [now apply dkq_det_pos|apply dkq_det]. Qed.
Lemma c77_area c2 xl : exact_square c2 ->
  lsum (map (fun p => snd p * det2 (gq_J xl (fst (fst p)) (snd (fst p)))) c2) = area4 xl
  /\ lsum (map (fun p => snd p * det2 (dkq_J xl (fst (fst p)) (snd (fst p)))) c2) = area4 xl.
Proof. intros X. split; [now apply gq_area|now apply dkq_area]. Qed.
Lemma c77_tria nm sec a b c s : mk_tria nm sec a b c = Some s -> triangle (n_loc a) (n_loc b) (n_loc c) ->
  turn (along_axes s) 0 1 2 = 2 * triangle_area (n_loc a) (n_loc b) (n_loc c).
Proof.
  intros H T. unfold mk_tria in H. destruct (tria_csys _ _ _) as [cs|] eqn:Q; [|discriminate]. apply some_inj in H. subst s.
  unfold triangle_area. replace (2 * (1 / 2 * length3 (normal3 (n_loc a) (n_loc b) (n_loc c)))) with (length3 (normal3 (n_loc a) (n_loc b) (n_loc c))) by lra.
  change (turn (tria_axes (Shell nm [a; b; c] sec cs (tria_area (n_loc a) (n_loc b) (n_loc c)))) 0 1 2 = length3 (normal3 (n_loc a) (n_loc b) (n_loc c))).
  eapply tria_turn; eauto.
Qed.

Lemma c74_element c2 t2 nm sec a b c d s u v w u' v' w' : inside_square c2 -> exact_square c2 ->
  mk_quad nm sec a b c d = Some s -> plane_quad (n_loc a) (n_loc b) (n_loc c) (n_loc d) -> plane_w w ->
  work 24 (shell_K (code_kernels c2 t2) s) (shell_field (in_axes s) u' v' w') (shell_field (in_axes s) u v w)
  = with_membrane s * (ss_t sec * quad_true_area (n_loc a) (n_loc b) (n_loc c) (n_loc d)
      * plane_stress (m_E (ss_mat sec)) (m_mu (ss_mat sec)) (strain u' v') (strain u v)).
Proof.
  intros Q X H P W. destruct (c77_quad _ _ _ _ _ _ _ H P) as (C & A). pose proof (mk_quad_some _ _ _ _ _ _ _ H) as (N & S).
  rewrite quad_parts by (rewrite N; reflexivity). rewrite S, c74_constant_strain, A by assumption.
  replace (work 12 (k_dkq _ _ _ _ _) _ _) with 0; [ring|]. symmetry. unfold work. apply rsum_0; intros i Hi.
  rewrite (rsum_ext 12 _ (fun j => plate_values (in_axes s) w' i * (k_dkq (code_kernels c2 t2) (m_E (ss_mat sec)) (m_mu (ss_mat sec)) (ss_t sec) (in_axes s) i j * plate_values (in_axes s) w j))) by (intros; ring).
  rewrite rsum_scal. pose proof (c76_rigid c2 t2 (m_E (ss_mat sec)) (m_mu (ss_mat sec)) (ss_t sec) _ w C W i Hi) as F. unfold force in F. rewrite F. ring.
Qed.
Lemma c76_element c2 t2 nm sec a b c d s u v w u' v' w' : inside_square c2 -> exact_square c2 ->
  mk_quad nm sec a b c d = Some s -> plane_quad (n_loc a) (n_loc b) (n_loc c) (n_loc d) -> square_like (in_axes s) ->
  work 24 (shell_K (code_kernels c2 t2) s) (shell_field (in_axes s) u' v' w') (shell_field (in_axes s) u v w)
  = quad_true_area (n_loc a) (n_loc b) (n_loc c) (n_loc d) *
    (with_membrane s * (ss_t sec * plane_stress (m_E (ss_mat sec)) (m_mu (ss_mat sec)) (strain u' v') (strain u v))
     + with_plate s * plane_stress (m_E (ss_mat sec) * ss_t sec ^ 3 / 12) (m_mu (ss_mat sec)) (curvature w') (curvature w)).
Proof.
  intros Q X H P SQ. destruct (c77_quad _ _ _ _ _ _ _ H P) as (C & A). pose proof (mk_quad_some _ _ _ _ _ _ _ H) as (N & S).
  rewrite quad_parts by (rewrite N; reflexivity). rewrite S, c74_constant_strain, c76_square, A by assumption. ring.
Qed.
(** squares *)
Lemma square_axes a b c d cs : square3 a b c d -> quad_csys a b c d = Some cs -> square_like (coords cs [a; b; c; d]).
Proof.
  intros ((T & P) & O & L) Q. destruct (c46_quad a b c d T) as (cs' & Q' & F & Z & _).
  rewrite Q in Q'. apply some_inj in Q'. subst cs'.
  assert (C : c = vadd b (vsub d a)).
  { apply vec3_eq; unfold vadd, vsub in *; cbn [vx vy vz] in *; injection P; lra. }
  unfold square_like, at_x, at_y, coords. cbn [flat_map app nth Nat.mul Nat.add]. unfold plane_x.
  split; [rewrite C; unfold dot3, vadd, vsub; cbn [vx vy vz]; ring|].
  split; [rewrite C; unfold dot3, vadd, vsub; cbn [vx vy vz]; ring|].
  set (e := vsub b a) in *. set (f := vsub d a) in *. set (q := dot3 e e) in *.
  assert (N : normal3 a b c = cross e f).
  { rewrite C. unfold e, f, normal3. apply vec3_eq; unfold cross, vadd, vsub; cbn [vx vy vz]; ring. }
  assert (Hq : length3 (cross e f) = q).
  { unfold length3. replace (vx (cross e f) ^ 2 + vy (cross e f) ^ 2 + vz (cross e f) ^ 2) with (dot3 e e * dot3 f f - dot3 e f * dot3 e f)
      by (unfold dot3, cross; cbn [vx vy vz]; ring).
    rewrite O, <- L. fold q. replace (q * q - 0 * 0) with (q * q) by ring. apply sqrt_square. unfold q, dot3. nra. }
  assert (Pq : 0 < q) by (rewrite <- Hq, <- N, length3_norm; apply norm_pos, T).
  rewrite N, Hq in Z. destruct F as [_ (_ & _ & ZX)].
  transitivity (dot3 e (cs_x cs)); [unfold e, dot3, vsub; cbn [vx vy vz]; ring|].
  transitivity (dot3 f (cs_y cs)); [|unfold f, dot3, vsub; cbn [vx vy vz]; ring].
  rewrite <- ZX, Z.
  replace (dot3 f (cross (vscale (/ q) (cross e f)) (cs_x cs))) with (/ q * (dot3 f f * dot3 e (cs_x cs) - dot3 e f * dot3 f (cs_x cs)))
    by (unfold dot3, cross, vscale; cbn [vx vy vz]; ring).
  rewrite O, <- L. field. lra.
Qed.
Lemma c76_square_element c2 t2 nm sec a b c d s u v w u' v' w' : inside_square c2 -> exact_square c2 ->
  mk_quad nm sec a b c d = Some s -> plane_quad (n_loc a) (n_loc b) (n_loc c) (n_loc d) -> square3 (n_loc a) (n_loc b) (n_loc c) (n_loc d) ->
  work 24 (shell_K (code_kernels c2 t2) s) (shell_field (in_axes s) u' v' w') (shell_field (in_axes s) u v w)
  = quad_true_area (n_loc a) (n_loc b) (n_loc c) (n_loc d) *
    (with_membrane s * (ss_t sec * plane_stress (m_E (ss_mat sec)) (m_mu (ss_mat sec)) (strain u' v') (strain u v))
     + with_plate s * plane_stress (m_E (ss_mat sec) * ss_t sec ^ 3 / 12) (m_mu (ss_mat sec)) (curvature w') (curvature w)).
Proof.
  intros Q X H P SQ. apply c76_element with (1 := Q) (2 := X) (3 := H) (4 := P).
  pose proof H as H'. unfold mk_quad in H'. destruct (quad_csys _ _ _ _) as [cs|] eqn:QC; [|discriminate]. apply some_inj in H'. subst s.
  rewrite in_axes_coords. cbn [sh_csys sh_nodes map]. now apply square_axes.
Qed.
Lemma c75_element c2 t2 nm sec a b c s w w' : weights t2 = 1/2 ->
  mk_tria nm sec a b c = Some s -> triangle (n_loc a) (n_loc b) (n_loc c) ->
  work 18 (shell_K (code_kernels c2 t2) s) (shell_field (along_axes s) (Lin 0 0 0) (Lin 0 0 0) w') (shell_field (along_axes s) (Lin 0 0 0) (Lin 0 0 0) w)
  = sh_area s * plane_stress (m_E (ss_mat sec) * ss_t sec ^ 3 / 12) (m_mu (ss_mat sec)) (curvature w') (curvature w).
Proof.
  intros X H T. pose proof (c77_tria _ _ _ _ _ _ H T) as A. pose proof (mk_tria_some _ _ _ _ _ _ H) as (N & S).
  assert (T0 : turn (along_axes s) 0 1 2 <> 0).
  { rewrite A. unfold triangle_area. assert (0 < length3 (normal3 (n_loc a) (n_loc b) (n_loc c))); [|lra]. rewrite length3_norm. apply norm_pos, T. }
  unfold shell_K. rewrite N. cbn [List.length Nat.eqb]. unfold tria_K. rewrite S. unfold work.
  change 18%nat with (6 * 3)%nat. rewrite place_tria_form. change (3 * 3)%nat with 9%nat. change (2 * 3)%nat with 6%nat.
  rewrite !form_scale.
  match goal with |- _ * ?m + _ * ?p = _ => replace m with 0; [replace p with (weights t2 * plane_stress (m_E (ss_mat sec) * ss_t sec ^ 3 / 12) (m_mu (ss_mat sec)) (curvature w') (curvature w))|] end.
  - rewrite X. lra.
  - rewrite <- (c75_constant_curvature c2 t2 _ _ _ (along_axes s)) by exact T0. unfold work.
    apply rsum_ext; intros i Hi. apply rsum_ext; intros j Hj. rewrite !field_plate by lia. reflexivity.
  - symmetry. apply rsum_0; intros i Hi. apply rsum_0; intros j Hj. rewrite (field_membrane_t _ _ _ w) by lia.
    unfold lin_at; cbn [l_0 l_x l_y]. destruct (j mod 2)%nat; ring.
Qed.
