(** The shell element with the thick plate (C89). *)
From Coq Require Import Reals Lra Lia List Arith String Bool.
From Verif Require Import Base BaseFacts Csys Sections Element Load FeModel Assembly Solver Post Api
  SpecApi WfFacts HidFacts SpecGeom CsysFacts SpecBeam BeamFacts SpecShell ShellGeom SpecKernel SpecAsm AsmFacts AsmProofs AsmProofs2 ShellFacts
  Kernels KernelProofs KernelProofs2 ShellProofs KernelProofs3 KernelProofs5 SpecKernel KernelProofs6 Demo Demo2 ShellDemo Thick SpecThick ThickProofs ThickProofs2.
Import ListNotations.
Local Open Scope string_scope.
Local Open Scope R_scope.

(** ** A tilt read as slopes *)
Lemma plate_at xl w i : (i < 4)%nat -> at_w (plate_values xl w) i = defl w (at_x xl i) (at_y xl i)
  /\ at_gx (plate_values xl w) i = slope_y w (at_x xl i) (at_y xl i) /\ at_gy (plate_values xl w) i = - slope_x w (at_x xl i) (at_y xl i).
Proof. intros H. destruct i as [|[|[|[|]]]]; try lia; repeat split; reflexivity. Qed.
Lemma tilt_gamma mu t xl w k : (k < 4)%nat -> four_sides xl -> plane_w w ->
  mvec 12 (tm_Gamma mu t xl) (plate_values xl w) k
  = 2 * tm_delta mu t xl k * ((w_x w - w_y w) * side_x xl (e0 k) (e1 k) + (w_x w + w_y w) * side_y xl (e0 k) (e1 k)).
Proof.
  intros Hk F (W1 & W2 & W3). pose proof (sides_pos xl k F Hk) as L. rewrite gamma_side by assumption. destruct (ends_lt k Hk) as [I J].
  unfold along. destruct (plate_at xl w _ I) as (-> & -> & ->). destruct (plate_at xl w _ J) as (-> & -> & ->).
  set (l := side_l xl (e0 k) (e1 k)) in *. unfold side_x, side_y, defl, slope_x, slope_y. rewrite W1, W2, W3. field. lra.
Qed.
Lemma two_equations a b c d x y : a * d - b * c <> 0 -> x * a + y * b = 0 -> x * c + y * d = 0 -> x = 0 /\ y = 0.
Proof.
  intros D E1 E2. split; apply (Rmult_eq_reg_r (a * d - b * c)); auto.
  - replace (x * (a * d - b * c)) with (d * (x * a + y * b) - b * (x * c + y * d)) by ring. rewrite E1, E2. ring.
  - replace (y * (a * d - b * c)) with (a * (x * c + y * d) - c * (x * a + y * b)) by ring. rewrite E1, E2. ring.
Qed.
Lemma delta_equal mu t xl l k : (k < 4)%nat -> equal_sides xl l ->
  tm_delta mu t xl k = (t / l)^2 / (5/6 * (1 - mu) + 2 * (t / l)^2).
Proof.
  intros Hk H. specialize (H k Hk). unfold tm_delta. rewrite tm_d_side by exact Hk. unfold e0, e1.
  destruct (side_ends k) as [i j]. cbn [fst snd]. now rewrite H.
Qed.
Lemma tilt_corners mu t xl w l : convex4 xl -> equal_sides xl l -> plane_w w ->
  let z := 2 * ((t / l)^2 / (5/6 * (1 - mu) + 2 * (t / l)^2)) in
  let G := mvec 12 (tm_Gamma mu t xl) (plate_values xl w) in
  forall i, (i < 4)%nat -> corner_sx xl G i = z * (w_x w - w_y w) /\ corner_sy xl G i = z * (w_x w + w_y w).
Proof.
  intros C EQ W z G. pose proof (corner_shear xl G C) as S. pose proof (convex_four xl C) as F.
  assert (HG : forall k, (k < 4)%nat -> G k = z * ((w_x w - w_y w) * side_x xl (e0 k) (e1 k) + (w_x w + w_y w) * side_y xl (e0 k) (e1 k))).
  { intros k Hk. unfold G. rewrite tilt_gamma by assumption. rewrite (delta_equal mu t xl l k Hk EQ). reflexivity. }
  destruct C as (T0 & T1 & T2 & T3).
  pose proof (S 0%nat ltac:(lia)) as S0. pose proof (S 1%nat ltac:(lia)) as S1. pose proof (S 2%nat ltac:(lia)) as S2. pose proof (S 3%nat ltac:(lia)) as S3.
  rewrite HG in S0, S1, S2, S3 by lia. cbn [side_ends nth e0 e1 fst snd] in S0, S1, S2, S3.
  set (gx := corner_sx xl G) in *. set (gy := corner_sy xl G) in *. clearbody gx gy. clear S HG.
  assert (H : forall i a b c d, a * d - b * c <> 0 ->
    gx i * a + gy i * b = z * ((w_x w - w_y w) * a + (w_x w + w_y w) * b) ->
    gx i * c + gy i * d = z * ((w_x w - w_y w) * c + (w_x w + w_y w) * d) ->
    gx i = z * (w_x w - w_y w) /\ gy i = z * (w_x w + w_y w)).
  { intros i a b c d D E1 E2.
    destruct (two_equations a b c d (gx i - z * (w_x w - w_y w)) (gy i - z * (w_x w + w_y w)) D); [lra|lra|split; lra]. }
  intros i Hi. destruct i as [|[|[|[|]]]]; [| | | |lia].
  - eapply (H 0%nat); [|apply S2|apply S3]. unfold side_x, side_y. unfold turn in T3. lra.
  - eapply (H 1%nat); [|apply S3|apply S0]. unfold side_x, side_y. unfold turn in T0. lra.
  - eapply (H 2%nat); [|apply S0|apply S1]. unfold side_x, side_y. unfold turn in T1. lra.
  - eapply (H 3%nat); [|apply S1|apply S2]. unfold side_x, side_y. unfold turn in T2. lra.
Qed.
Lemma four_const v c s r : (forall i, (i < 4)%nat -> v i = c) -> four v s r = c.
Proof. intros H. unfold four. rewrite !H by lia. field. Qed.
Lemma tilt_work c2 E mu t xl w l : inside_square c2 -> exact_square c2 -> convex4 xl -> equal_sides xl l -> plane_w w ->
  0 < E -> -1 < mu < 1 -> 0 < t -> w_x w <> 0 \/ w_y w <> 0 ->
  0 < work 12 (tmq_K c2 E mu t xl) (plate_values xl w) (plate_values xl w).
Proof.
  intros Q X C EQ W HE Hm Ht NZ. rewrite tmq_work. pose proof (convex_four xl C) as F.
  assert (L : 0 < l) by (specialize (EQ 0%nat ltac:(lia)); cbn in EQ; rewrite <- EQ; apply (sides_pos xl 0 F); lia).
  apply Rplus_lt_le_0_compat.
  - destruct X as (X & _). apply lsum_strict; [|unfold weights in X; rewrite X; lra].
    intros p Hp. unfold inside_square in Q. rewrite Forall_forall in Q. destruct (Q p Hp) as (PX & PY & W0). split; [exact W0|].
    pose proof (det_ok xl _ _ C PX PY) as HD. change (fst (fst p)) with (pt_xi p) in HD. change (snd (fst p)) with (pt_eta p) in HD.
    rewrite tm_shear_work. destruct (Bs_four mu t xl (plate_values xl w) (pt_xi p) (pt_eta p)) as [-> ->].
    rewrite (four_const _ _ _ _ (fun i Hi => proj1 (tilt_corners mu t xl w l C EQ W i Hi))).
    rewrite (four_const _ _ _ _ (fun i Hi => proj2 (tilt_corners mu t xl w l C EQ W i Hi))).
    set (z := 2 * _).
    assert (Z : 0 < z).
    { unfold z. assert (0 < (t / l)^2) by (apply pow_lt, Rdiv_lt_0_compat; assumption).
      apply Rmult_lt_0_compat; [lra|]. apply Rdiv_lt_0_compat; lra. }
    clearbody z. apply Rmult_lt_0_compat; [apply Rmult_lt_0_compat; [exact HD|]|].
    + replace (tm_C E mu t) with (E * t * (5/12) * / (1 + mu)) by (unfold tm_C; field; lra).
      assert (0 < / (1 + mu)) by (apply Rinv_0_lt_compat; lra). assert (0 < E * t) by now apply Rmult_lt_0_compat.
      apply Rmult_lt_0_compat; lra.
    + replace (_ + _) with (2 * z^2 * (w_x w ^2 + w_y w ^2)) by ring. apply Rmult_lt_0_compat; [pose proof (pow_lt z 2 Z); lra|].
      pose proof (pow2_ge_0 (w_x w)). pose proof (pow2_ge_0 (w_y w)). destruct NZ as [N|N]; apply sq_pos in N; lra.
  - apply lsum_pos; intros p Hp. unfold inside_square in Q; rewrite Forall_forall in Q; destruct (Q p Hp) as (PX & PY & W0). apply Rmult_le_pos; [exact W0|].
    pose proof (det_ok xl _ _ C PX PY) as HD; change (fst (fst p)) with (pt_xi p) in HD; change (snd (fst p)) with (pt_eta p) in HD.
    rewrite tm_bend_work. apply Rmult_le_pos; [lra|]. apply density_psd; [apply cube_nonneg; lra|assumption].
Qed.

(** ** The element *)
Lemma square_sides a b c d cs : square3 a b c d -> quad_csys a b c d = Some cs ->
  equal_sides (coords cs [a; b; c; d]) (sqrt (dot3 (vsub b a) (cs_x cs) ^ 2 + dot3 (vsub b a) (cs_y cs) ^ 2)).
Proof.
  intros ((T & P) & O & L) Q. destruct (c46_quad a b c d T) as (cs' & Q' & F & Z & _).
  rewrite Q in Q'. apply some_inj in Q'. subst cs'.
  assert (C : c = vadd b (vsub d a)).
  { apply vec3_eq; unfold vadd, vsub in *; cbn [vx vy vz] in *; injection P; lra. }
  set (e := vsub b a) in *. set (f := vsub d a) in *. set (q := dot3 e e) in *.
  assert (N : normal3 a b c = cross e f).
  { rewrite C. unfold e, f, normal3. apply vec3_eq; unfold cross, vadd, vsub; cbn [vx vy vz]; ring. }
  assert (Hq : length3 (cross e f) = q).
  { unfold length3. replace (vx (cross e f) ^ 2 + vy (cross e f) ^ 2 + vz (cross e f) ^ 2) with (dot3 e e * dot3 f f - dot3 e f * dot3 e f)
      by (unfold dot3, cross; cbn [vx vy vz]; ring).
    rewrite O, <- L. fold q. replace (q * q - 0 * 0) with (q * q) by ring. apply sqrt_square. unfold q, dot3. nra. }
  assert (Pq : 0 < q) by (rewrite <- Hq, <- N, length3_norm; apply norm_pos, T).
  rewrite N, Hq in Z. destruct F as [_ (_ & YZ & ZX)].
  assert (A : dot3 f (cs_y cs) = dot3 e (cs_x cs)).
  { rewrite <- ZX at 1. rewrite Z.
    replace (dot3 f (cross (vscale (/ q) (cross e f)) (cs_x cs))) with (/ q * (dot3 f f * dot3 e (cs_x cs) - dot3 e f * dot3 f (cs_x cs)))
      by (unfold dot3, cross, vscale; cbn [vx vy vz]; ring).
    rewrite O, <- L. field. lra. }
  assert (B : dot3 f (cs_x cs) = - dot3 e (cs_y cs)).
  { rewrite <- YZ at 1. rewrite Z.
    replace (dot3 f (cross (cs_y cs) (vscale (/ q) (cross e f)))) with (/ q * (dot3 e f * dot3 f (cs_y cs) - dot3 f f * dot3 e (cs_y cs)))
      by (unfold dot3, cross, vscale; cbn [vx vy vz]; ring).
    rewrite O, <- L. field. lra. }
  assert (U : forall v, dot3 (vsub b (cs_O cs)) v - dot3 (vsub a (cs_O cs)) v = dot3 e v) by (intros; unfold e, dot3, vsub; cbn [vx vy vz]; ring).
  assert (V : forall v, dot3 (vsub d (cs_O cs)) v - dot3 (vsub a (cs_O cs)) v = dot3 f v) by (intros; unfold f, dot3, vsub; cbn [vx vy vz]; ring).
  assert (U' : forall v, dot3 (vsub c (cs_O cs)) v - dot3 (vsub b (cs_O cs)) v = dot3 f v) by (intros; rewrite C; unfold f, dot3, vadd, vsub; cbn [vx vy vz]; ring).
  intros k Hk. unfold side_l, side_x, side_y, at_x, at_y, coords. destruct k as [|[|[|[|]]]]; try lia;
    cbn [side_ends nth flat_map app Nat.mul Nat.add]; unfold plane_x; f_equal.
  - rewrite !U', A, B. ring.
  - replace (dot3 (vsub d (cs_O cs)) (cs_x cs) - dot3 (vsub c (cs_O cs)) (cs_x cs)) with (- dot3 e (cs_x cs))
      by (pose proof (U (cs_x cs)); pose proof (U' (cs_x cs)); pose proof (V (cs_x cs)); lra).
    replace (dot3 (vsub d (cs_O cs)) (cs_y cs) - dot3 (vsub c (cs_O cs)) (cs_y cs)) with (- dot3 e (cs_y cs))
      by (pose proof (U (cs_y cs)); pose proof (U' (cs_y cs)); pose proof (V (cs_y cs)); lra). ring.
  - replace (dot3 (vsub a (cs_O cs)) (cs_x cs) - dot3 (vsub d (cs_O cs)) (cs_x cs)) with (- dot3 f (cs_x cs)) by (pose proof (V (cs_x cs)); lra).
    replace (dot3 (vsub a (cs_O cs)) (cs_y cs) - dot3 (vsub d (cs_O cs)) (cs_y cs)) with (- dot3 f (cs_y cs)) by (pose proof (V (cs_y cs)); lra).
    rewrite A, B. ring.
  - rewrite !U. reflexivity.
Qed.
Lemma c89_tilt c2 t2 nm sec a b c d s w : inside_square c2 -> exact_square c2 ->
  mk_quad nm sec a b c d = Some s -> plane_quad (n_loc a) (n_loc b) (n_loc c) (n_loc d) -> square3 (n_loc a) (n_loc b) (n_loc c) (n_loc d) ->
  with_plate s = 1 -> 0 < m_E (ss_mat sec) -> -1 < m_mu (ss_mat sec) < 1 -> 0 < ss_t sec -> plane_w w -> w_x w <> 0 \/ w_y w <> 0 ->
  0 < work 24 (tmgq_K c2 t2 s) (shell_field (in_axes s) (Lin 0 0 0) (Lin 0 0 0) w) (shell_field (in_axes s) (Lin 0 0 0) (Lin 0 0 0) w).
Proof.
  intros Q X H P SQ HP HE Hm Ht W NZ. destruct (c77_quad _ _ _ _ _ _ _ H P) as (C & A). pose proof (mk_quad_some _ _ _ _ _ _ _ H) as (N & S).
  unfold tmgq_K. rewrite quad_parts by (rewrite N; reflexivity). cbn [tmgq_kernels k_gq12 k_dkq]. rewrite HP, S.
  replace (integrate c2 _) with (k_gq12 (code_kernels c2 t2) (m_E (ss_mat sec)) (m_mu (ss_mat sec)) (ss_t sec) (in_axes s)) by reflexivity.
  rewrite c74_constant_strain by assumption.
  replace (plane_stress _ _ _ _) with 0 by (unfold plane_stress, strain; cbn [nth l_x l_y]; ring).
  rewrite Rmult_0_r, Rmult_0_r, Rplus_0_l, Rmult_1_l.
  assert (EQ : exists l, equal_sides (in_axes s) l).
  { unfold mk_quad in H. destruct (quad_csys _ _ _ _) as [cs|] eqn:QC; [|discriminate]. apply some_inj in H. subst s.
    rewrite in_axes_coords. cbn [sh_csys sh_nodes map]. eexists. now apply square_sides. }
  destruct EQ as (l & EQ). now apply (tilt_work c2 _ _ _ _ w l).
Qed.
(** ** With slopes in place of rotations *)
Lemma slopes_membrane xl u v w r : (r < 12)%nat -> membrane_q (slope_field xl u v w) r = membrane_values xl u v 0 r.
Proof. intros H. do 12 (destruct r as [|r]; [reflexivity|]). lia. Qed.
Lemma slopes_plate xl u v w r : (r < 12)%nat -> plate_x (slope_field xl u v w) r = slope_values xl w r.
Proof. intros H. do 12 (destruct r as [|r]; [reflexivity|]). lia. Qed.
Lemma quad_parts_any ker s x y : List.length (sh_nodes s) = 4%nat ->
  work 24 (shell_K ker s) x y
  = with_membrane s * work 12 (k_gq12 ker (m_E (ss_mat (sh_sec s))) (m_mu (ss_mat (sh_sec s))) (ss_t (sh_sec s)) (in_axes s)) (membrane_q x) (membrane_q y)
  + with_plate s * work 12 (k_dkq ker (m_E (ss_mat (sh_sec s))) (m_mu (ss_mat (sh_sec s))) (ss_t (sh_sec s)) (in_axes s)) (plate_x x) (plate_x y).
Proof.
  intros H. unfold shell_K. rewrite H. cbn [Nat.eqb]. unfold quad_K. rewrite quad_K_axes. unfold work at 1.
  change 24%nat with (6 * 4)%nat. rewrite place_quad_form. change (3 * 4)%nat with 12%nat.
  unfold with_membrane, with_plate. f_equal.
  - match goal with |- ?l = _ => change l with (work 12 (if (String.eqb (ss_type (sh_sec s)) "membrane" || String.eqb (ss_type (sh_sec s)) "shell")%bool then k_gq12 ker (m_E (ss_mat (sh_sec s))) (m_mu (ss_mat (sh_sec s))) (ss_t (sh_sec s)) (in_axes s) else zero_mat) (membrane_q x) (membrane_q y)) end.
    destruct (_ || _)%bool; [|rewrite work_zero; ring]. now rewrite Rmult_1_l.
  - match goal with |- ?l = _ => change l with (work 12 (if (String.eqb (ss_type (sh_sec s)) "plate" || String.eqb (ss_type (sh_sec s)) "shell")%bool then k_dkq ker (m_E (ss_mat (sh_sec s))) (m_mu (ss_mat (sh_sec s))) (ss_t (sh_sec s)) (in_axes s) else zero_mat) (plate_x x) (plate_x y)) end.
    destruct (_ || _)%bool; [|rewrite work_zero; ring]. now rewrite Rmult_1_l.
Qed.
Lemma c89_slopes c2 t2 nm sec a b c d s u v w u' v' w' : inside_square c2 -> exact_square c2 ->
  mk_quad nm sec a b c d = Some s -> plane_quad (n_loc a) (n_loc b) (n_loc c) (n_loc d) ->
  work 24 (tmgq_K c2 t2 s) (slope_field (in_axes s) u' v' w') (slope_field (in_axes s) u v w)
  = quad_true_area (n_loc a) (n_loc b) (n_loc c) (n_loc d) *
    (with_membrane s * (ss_t sec * plane_stress (m_E (ss_mat sec)) (m_mu (ss_mat sec)) (strain u' v') (strain u v))
     + with_plate s * plane_stress (m_E (ss_mat sec) * ss_t sec ^ 3 / 12) (m_mu (ss_mat sec)) (curvature w') (curvature w)).
Proof.
  intros Q X H P. destruct (c77_quad _ _ _ _ _ _ _ H P) as (C & A). pose proof (mk_quad_some _ _ _ _ _ _ _ H) as (N & S).
  unfold tmgq_K. rewrite quad_parts_any by (rewrite N; reflexivity). cbn [tmgq_kernels k_gq12 k_dkq]. rewrite S.
  rewrite (work_ext 12 _ _ (membrane_values (in_axes s) u' v' 0) _ (membrane_values (in_axes s) u v 0)) by (intros; now apply slopes_membrane).
  rewrite (work_ext 12 _ (plate_x _) (slope_values (in_axes s) w') _ (slope_values (in_axes s) w)) by (intros; now apply slopes_plate).
  rewrite c74_constant_strain, c88_constant_curvature, A by assumption. ring.
Qed.
(** ** What holds of the element as it is *)
Lemma plate_moved xl u v c r : (r < 12)%nat -> plate_x (shell_field xl u v (Quadratic c 0 0 0 0 0)) r = slope_values xl (Quadratic c 0 0 0 0 0) r.
Proof.
  intros H. do 12 (destruct r as [|r]; [unfold plate_x, shell_field, slope_values, slope_x, slope_y; cbn [Nat.div Nat.modulo Nat.divmod fst snd Nat.sub Nat.mul Nat.add w_x w_y w_xx w_xy w_yy]; try reflexivity; ring|]). lia.
Qed.
Lemma c89_rigid_partial c2 t2 nm sec a b c d s p q th z : inside_square c2 ->
  mk_quad nm sec a b c d = Some s -> plane_quad (n_loc a) (n_loc b) (n_loc c) (n_loc d) ->
  forall r, (r < 24)%nat -> force 24 (tmgq_K c2 t2 s) (shell_field (in_axes s) (Lin p 0 (- th)) (Lin q th 0) (Quadratic z 0 0 0 0 0)) r = 0.
Proof.
  intros Q H P r Hr. destruct (c77_quad _ _ _ _ _ _ _ H P) as (C & A). pose proof (mk_quad_some _ _ _ _ _ _ _ H) as (N & S).
  rewrite unit_work by assumption. unfold tmgq_K. rewrite quad_parts_any by (rewrite N; reflexivity). cbn [tmgq_kernels k_gq12 k_dkq]. rewrite S.
  set (e := fun i => if Nat.eqb i r then 1 else 0).
  rewrite (work_ext 12 _ (membrane_q e) (membrane_q e) _ (membrane_values (in_axes s) (Lin p 0 (- th)) (Lin q th 0) 0)) by (intros; auto; now apply field_membrane).
  rewrite (work_ext 12 _ (plate_x e) (plate_x e) _ (slope_values (in_axes s) (Quadratic z 0 0 0 0 0))) by (intros; auto; now apply plate_moved).
  assert (Z : forall K x y, (forall r, (r < 12)%nat -> force 12 K y r = 0) -> work 12 K x y = 0).
  { intros K x y HF. unfold work. apply rsum_0; intros i Hi. rewrite (rsum_ext 12 _ (fun j => x i * (K i j * y j))) by (intros; ring).
    rewrite rsum_scal. specialize (HF i Hi). unfold force in HF. rewrite HF. ring. }
  rewrite !Z; [ring| |].
  - apply c88_rigid; auto. repeat split.
  - intros i Hi. apply (c74_rigid_partial c2 t2); auto.
Qed.
Lemma work_sym n K x y : (forall i j, (i < n)%nat -> (j < n)%nat -> K i j = K j i) -> work n K x y = work n K y x.
Proof.
  intros H. unfold work. rewrite rsum_swap. apply rsum_ext; intros i Hi. apply rsum_ext; intros j Hj. rewrite (H j i) by assumption. ring.
Qed.
Lemma c89_symmetric c2 t2 nm sec a b c d s x y : mk_quad nm sec a b c d = Some s ->
  work 24 (tmgq_K c2 t2 s) x y = work 24 (tmgq_K c2 t2 s) y x.
Proof.
  intros H. pose proof (mk_quad_some _ _ _ _ _ _ _ H) as (N & S).
  unfold tmgq_K. rewrite !quad_parts_any by (rewrite N; reflexivity). cbn [tmgq_kernels k_gq12 k_dkq]. rewrite S.
  rewrite (work_sym 12 _ (membrane_q x)) by (intros; apply (integrate_sym 12); auto; intros; apply gq12_sym).
  rewrite (work_sym 12 _ (plate_x x)) by (intros; now apply c88_symmetric). reflexivity.
Qed.
Lemma c89_nonneg c2 t2 nm sec a b c d s x : inside_square c2 ->
  mk_quad nm sec a b c d = Some s -> plane_quad (n_loc a) (n_loc b) (n_loc c) (n_loc d) ->
  0 <= m_E (ss_mat sec) -> -1 < m_mu (ss_mat sec) < 1 -> 0 <= ss_t sec -> 0 <= work 24 (tmgq_K c2 t2 s) x x.
Proof.
  intros Q H P HE Hm Ht. destruct (c77_quad _ _ _ _ _ _ _ H P) as (C & A). pose proof (mk_quad_some _ _ _ _ _ _ _ H) as (N & S).
  unfold tmgq_K. rewrite quad_parts_any by (rewrite N; reflexivity). cbn [tmgq_kernels k_gq12 k_dkq]. rewrite S.
  assert (0 <= with_membrane s) by (unfold with_membrane; destruct (_ || _)%bool; lra).
  assert (0 <= with_plate s) by (unfold with_plate; destruct (_ || _)%bool; lra).
  apply Rplus_le_le_0_compat; apply Rmult_le_pos; auto.
  - apply (code_gq12_psd c2 t2); auto.
  - now apply c88_nonneg.
Qed.
Lemma rsum_nonzero n (f : nat -> R) : rsum n f <> 0 -> exists i, (i < n)%nat /\ f i <> 0.
Proof.
  induction n as [|n IH]; cbn [rsum]; [intros H; elim H; reflexivity|]. intros H.
  destruct (Req_EM_T (f n) 0) as [E|E]; [|exists n; split; [lia|exact E]].
  destruct IH as (i & Hi & Hf); [intros Z; apply H; lra|]. exists i. split; [lia|exact Hf].
Qed.
Lemma work_force n K x y : 0 < work n K x y -> exists r, (r < n)%nat /\ force n K y r <> 0.
Proof.
  intros H. unfold work in H. assert (N : rsum n (fun i => rsum n (fun j => x i * K i j * y j)) <> 0) by lra.
  apply rsum_nonzero in N as (i & Hi & Hf). exists i. split; [exact Hi|]. intros Z. apply Hf.
  rewrite (rsum_ext n _ (fun j => x i * (K i j * y j))) by (intros; ring). rewrite rsum_scal. unfold force in Z. rewrite Z. ring.
Qed.
Lemma square_square3 : square3 (n_loc n1) (n_loc n2) (n_loc n3) (n_loc n4).
Proof.
  split; [split; [exact square_triangle|]|]; [|split]; unfold n_loc, n1, n2, n3, n4, node_at, vsub, dot3; cbn [n_csys cs_O vx vy vz]; try f_equal; ring.
Qed.
Lemma square_made : exists s, mk_quad "q" unit_sec n1 n2 n3 n4 = Some s /\ with_plate s = 1.
Proof. unfold mk_quad, n1, n2, n3, n4, node_at, n_loc. cbn [n_csys cs_O]. rewrite square_csys_eq. eexists. split; reflexivity. Qed.
Lemma c89_rigid_refuted : exists s w, mk_quad "q" unit_sec n1 n2 n3 n4 = Some s /\ plane_w w /\
  forall c2 t2, inside_square c2 -> exact_square c2 ->
  exists r, (r < 24)%nat /\ force 24 (tmgq_K c2 t2 s) (shell_field (in_axes s) (Lin 0 0 0) (Lin 0 0 0) w) r <> 0.
Proof.
  destruct square_made as (s & H & HP). exists s, (Quadratic 0 0 1 0 0 0). split; [exact H|]. split; [repeat split|].
  intros c2 t2 Q X. eapply work_force. eapply (c89_tilt c2 t2 "q" unit_sec n1 n2 n3 n4 s (Quadratic 0 0 1 0 0 0)); auto.
  - exact square_plane.
  - exact square_square3.
  - cbn; lra.
  - cbn; lra.
  - cbn; lra.
  - repeat split.
  - right. cbn. lra.
Qed.
(** for the examples *)
Definition ramp (c : nat) : R := INR c.
Lemma trapezoid_l : side_l trapezoid 1 2 = 2.
Proof.
  unfold side_l, side_x, side_y, at_x, at_y, trapezoid. cbn [nth Nat.mul Nat.add].
  replace ((2 - 2)^2 + (2 - 0)^2) with (2 * 2) by ring. apply sqrt_square. lra.
Qed.
