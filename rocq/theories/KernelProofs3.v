(** Shells with the kernels of the code: axes and convexity, semidefiniteness and rigid
    motions of whole models (C22-C24, C74-C77). *)
From Coq Require Import Reals Lra Lia List String Arith Bool.
From Verif Require Import Base BaseFacts Csys Sections Element Load FeModel Assembly Solver Post Api
  SpecApi WfFacts HidFacts SpecGeom CsysFacts SpecBeam BeamFacts SpecShell ShellGeom SpecKernel SpecAsm AsmFacts AsmProofs AsmProofs2 ShellFacts
  Kernels KernelProofs KernelProofs2 ShellProofs.
Import ListNotations.
Local Open Scope R_scope.

(** ** In the axes of the element *)
Definition coords (c : csys) (l : list vec3) : list R :=
  flat_map (fun p => [plane_x (cs_O c) (cs_x c) p; plane_x (cs_O c) (cs_y c) p]) l.
Lemma area_in_axes ex ey ez o a b c : frame ex ey ez ->
  (plane_x o ex b - plane_x o ex a) * (plane_x o ey c - plane_x o ey a)
  - (plane_x o ex c - plane_x o ex a) * (plane_x o ey b - plane_x o ey a) = dot3 (normal3 a b c) ez.
Proof.
  intros [_ (XY & _ & _)]. rewrite <- XY. unfold plane_x, normal3, dot3, cross, vsub; cbn [vx vy vz]. ring.
Qed.
Lemma dot_scaled k n : dot3 (vscale k n) n = k * (vx n ^ 2 + vy n ^ 2 + vz n ^ 2).
Proof. unfold dot3, vscale; cbn [vx vy vz]. ring. Qed.
Lemma length_one n : length3 n = 1 -> vx n ^ 2 + vy n ^ 2 + vz n ^ 2 = 1.
Proof.
  unfold length3. intros H. assert (0 <= vx n ^ 2 + vy n ^ 2 + vz n ^ 2) by nra.
  rewrite <- (sqrt_sqrt _ H0), H. ring.
Qed.
Lemma length_scaled k n : 0 < k -> length3 n = 1 -> length3 (vscale k n) = k.
Proof.
  intros Hk Hn. apply length_one in Hn. unfold length3, vscale; cbn [vx vy vz].
  replace ((k * vx n) ^ 2 + (k * vy n) ^ 2 + (k * vz n) ^ 2) with (k * k * (vx n ^ 2 + vy n ^ 2 + vz n ^ 2)) by ring.
  rewrite Hn, Rmult_1_r. apply sqrt_square. lra.
Qed.
Lemma plane_quad_triangle a b c d : plane_quad a b c d -> triangle a b c.
Proof.
  intros (n & Hn & (k & Hk & E) & _) H. unfold triangle in *. rewrite E in H.
  pose proof (length_scaled k n Hk Hn) as L. rewrite H in L. unfold length3, zero3 in L. cbn [vx vy vz] in L.
  replace (0^2 + 0^2 + 0^2) with 0 in L by ring. rewrite sqrt_0 in L. lra.
Qed.

Lemma quad_axes_convex a b c d cs : plane_quad a b c d -> quad_csys a b c d = Some cs -> convex4 (coords cs [a; b; c; d]).
Proof.
  intros P Q. destruct (c46_quad a b c d (plane_quad_triangle _ _ _ _ P)) as (cs' & Q' & F & Z & _).
  rewrite Q in Q'. apply some_inj in Q'. subst cs'.
  destruct P as (n & Hn & (k1 & H1 & E1) & (k2 & H2 & E2) & (k3 & H3 & E3) & (k4 & H4 & E4)).
  assert (Zn : cs_z cs = n).
  { rewrite Z, E1, length_scaled by assumption. apply vec3_eq; unfold vscale; cbn [vx vy vz]; field; lra. }
  pose proof (length_one n Hn) as N1.
  assert (G : forall p q r k, normal3 p q r = vscale k n ->
     (plane_x (cs_O cs) (cs_x cs) q - plane_x (cs_O cs) (cs_x cs) p) * (plane_x (cs_O cs) (cs_y cs) r - plane_x (cs_O cs) (cs_y cs) p)
     - (plane_x (cs_O cs) (cs_x cs) r - plane_x (cs_O cs) (cs_x cs) p) * (plane_x (cs_O cs) (cs_y cs) q - plane_x (cs_O cs) (cs_y cs) p) = k).
  { intros p q r k E. rewrite (area_in_axes _ _ _ _ _ _ _ F), Zn, E, dot_scaled, N1. ring. }
  unfold convex4, turn, at_x, at_y, coords. cbn [flat_map app nth Nat.mul Nat.add].
  rewrite (G _ _ _ _ E1), (G _ _ _ _ E2), (G _ _ _ _ E3), (G _ _ _ _ E4). auto.
Qed.
Lemma quad_area_axes a b c d cs : plane_quad a b c d -> quad_csys a b c d = Some cs ->
  area4 (coords cs [a; b; c; d]) = quad_true_area a b c d.
Proof.
  intros P Q. destruct (c46_quad a b c d (plane_quad_triangle _ _ _ _ P)) as (cs' & Q' & F & Z & _).
  rewrite Q in Q'. apply some_inj in Q'. subst cs'.
  destruct P as (n & Hn & (k1 & H1 & E1) & _ & (k3 & H3 & E3) & _).
  assert (Zn : cs_z cs = n).
  { rewrite Z, E1, length_scaled by assumption. apply vec3_eq; unfold vscale; cbn [vx vy vz]; field; lra. }
  pose proof (length_one n Hn) as N1.
  unfold area4, turn, at_x, at_y, coords. cbn [flat_map app nth Nat.mul Nat.add].
  rewrite !(area_in_axes _ _ _ _ _ _ _ F), Zn, E1.
  assert (E3' : normal3 a c d = vscale k3 n).
  { rewrite <- E3. apply vec3_eq; unfold normal3, cross, vsub; cbn [vx vy vz]; ring. }
  rewrite E3', !dot_scaled, N1. unfold quad_true_area.
  assert (X : cross (vsub c a) (vsub d b) = vscale (k1 + k3) n).
  { transitivity (vadd (normal3 a b c) (normal3 a c d)).
    - apply vec3_eq; unfold normal3, vadd, cross, vsub; cbn [vx vy vz]; ring.
    - rewrite E1, E3'. apply vec3_eq; unfold vadd, vscale; cbn [vx vy vz]; ring. }
  rewrite X, length_scaled by (auto; lra). lra.
Qed.

Lemma in_axes_coords s : in_axes s = coords (sh_csys s) (map n_loc (sh_nodes s)).
Proof. unfold in_axes, coords. induction (sh_nodes s) as [|n l IH]; [reflexivity|]. cbn [flat_map map]. rewrite IH. reflexivity. Qed.
Lemma quad_K_axes s : flat_map (fun n => local_xy (sh_csys s) (vsub (n_loc n) (cs_O (sh_csys s)))) (sh_nodes s) = in_axes s.
Proof. reflexivity. Qed.
(** the triangle keeps the coordinates about the origin of space *)
Definition tria_axes (s : shell) : list R := flat_map (fun n => local_xy (sh_csys s) (n_loc n)) (sh_nodes s).
Lemma tria_turn a b c cs s : triangle a b c -> tria_csys a b c = Some cs -> sh_csys s = cs -> map n_loc (sh_nodes s) = [a; b; c] ->
  turn (tria_axes s) 0 1 2 = length3 (normal3 a b c).
Proof.
  intros T Q EC EN. destruct (c46_tria_partial a b c T) as (A & B).
  destruct (Rlt_dec (length3 (vadd (vscale (/ length3 (normal3 a b c)) (normal3 a b c)) (V3 0 0 1))) (1 / 1000000000)) as [L|L].
  { rewrite (B L) in Q. discriminate. }
  destruct (A ltac:(lra)) as (cs' & Q' & F & Z & _). rewrite Q in Q'. apply some_inj in Q'. subst cs' cs.
  destruct (sh_nodes s) as [|n1 [|n2 [|n3 [|]]]] eqn:N; try discriminate. cbn [map] in EN. injection EN as E1 E2 E3.
  unfold tria_axes. rewrite N. unfold turn, at_x, at_y. cbn [flat_map app nth Nat.mul Nat.add local_xy].
  rewrite E1, E2, E3.
  transitivity (dot3 (normal3 a b c) (cs_z (sh_csys s))).
  { destruct F as [_ (XY & _ & _)]. rewrite <- XY. unfold normal3, dot3, cross, vsub; cbn [vx vy vz]. ring. }
  rewrite Z. set (m := normal3 a b c). assert (P : 0 < length3 m) by (rewrite length3_norm; apply norm_pos; exact T).
  assert (S : vx m ^ 2 + vy m ^ 2 + vz m ^ 2 = length3 m * length3 m).
  { unfold length3. rewrite sqrt_sqrt; [reflexivity|]. nra. }
  unfold dot3, vscale; cbn [vx vy vz].
  replace (vx m * (/ length3 m * vx m) + vy m * (/ length3 m * vy m) + vz m * (/ length3 m * vz m))
    with (/ length3 m * (vx m ^ 2 + vy m ^ 2 + vz m ^ 2)) by ring.
  rewrite S. field. lra.
Qed.

(** ** Semidefinite *)
Lemma code_psd c2 t2 : inside_square c2 -> positive_weights t2 -> psd_kernels (code_kernels c2 t2).
Proof. intros Q2 Q3. constructor; intros; [apply code_gq12_psd|apply code_dkq_psd|apply code_dkt_psd]; assumption. Qed.

Lemma fit_admissible m k s : shell_ok m k s -> shell_fit s -> shell_admissible s.
Proof.
  intros OK (H1 & H2 & H3 & H4). unfold shell_admissible. split; [exact H1|]. split; [exact H2|]. split; [exact H3|].
  destruct (so_shape _ _ _ OK) as [(a & b & c & EN & EC & _)|(a & b & c & d & EN & EC & _)]; rewrite EN in *; cbn [map List.length] in *.
  - split; [auto|discriminate].
  - split; [discriminate|]. intros _. rewrite in_axes_coords, EN. cbn [map]. eapply quad_axes_convex; eauto.
Qed.

Lemma c22_code ext ops w m K c2 t2 : w = final ext init ops -> x_ker ext = code_kernels c2 t2 ->
  assembled_model w = Some m -> stiffness ext w = Some K ->
  forall p q, coo_get K p q = coo_get K q p.
Proof. intros Hw Hk Hm HK. apply (c22_symmetric ext ops w m K Hw Hm HK). right. rewrite Hk. apply code_symmetric. Qed.

Lemma c23_code ext ops w m K c2 t2 : w = final ext init ops -> x_ker ext = code_kernels c2 t2 ->
  inside_square c2 -> positive_weights t2 ->
  assembled_model w = Some m -> stiffness ext w = Some K ->
  (forall k b, In (k, b) (f_beams m) -> props_nonneg (b_prop b)) ->
  (forall k s, In (k, s) (f_shells m) -> shell_fit s) ->
  forall x, 0 <= form (size m) K x x.
Proof.
  intros Hw Hk Q2 Q3 Hm HK HB HS. apply (c23_psd ext ops w m K Hw Hm HK HB). right.
  rewrite Hk. split; [apply code_psd; assumption|]. intros k s Hs.
  destruct (stiffness_inv _ _ _ _ _ Hw Hm HK) as (a & Ha & Em & EK & W).
  eapply fit_admissible; [apply (wf_shell _ W); exact Hs|eapply HS; exact Hs].
Qed.

(** ** Rigid motions *)
Lemma spin_x ex ey ez w v : frame ex ey ez -> dot3 ex (cross w v) = dot3 ey w * dot3 v ez - dot3 ez w * dot3 v ey.
Proof. intros [_ (_ & YZ & _)]. rewrite <- YZ at 1. unfold dot3, cross; cbn [vx vy vz]. ring. Qed.
Lemma spin_y ex ey ez w v : frame ex ey ez -> dot3 ey (cross w v) = dot3 ez w * dot3 v ex - dot3 ex w * dot3 v ez.
Proof. intros [_ (_ & _ & ZX)]. rewrite <- ZX at 1. unfold dot3, cross; cbn [vx vy vz]. ring. Qed.
Lemma spin_z ex ey ez w v : frame ex ey ez -> dot3 ez (cross w v) = dot3 ex w * dot3 v ey - dot3 ey w * dot3 v ex.
Proof. intros [_ (XY & _ & _)]. rewrite <- XY at 1. unfold dot3, cross; cbn [vx vy vz]. ring. Qed.
Lemma moved_from t w o p : moved t w p = vadd (moved t w o) (cross w (vsub p o)).
Proof. unfold moved. apply vec3_eq; unfold vadd, cross, vsub; cbn [vx vy vz]; ring. Qed.
Lemma dot_add a u v : dot3 a (vadd u v) = dot3 a u + dot3 a v.
Proof. unfold dot3, vadd; cbn [vx vy vz]. ring. Qed.

Lemma rigid_values m s t w x i n b : rigid_motion m t w x -> nth_error (sh_nodes s) i = Some n -> cur m n ->
  (b < 3)%nat ->
  shell_values m s x (6 * i + b) = dot3 (axis_of (sh_csys s) b) (moved t w (n_loc n))
  /\ shell_values m s x (6 * i + (3 + b)) = dot3 (axis_of (sh_csys s) b) w.
Proof.
  intros R H C Hb. destruct (rigid_at _ _ _ _ _ R C) as [E1 E2]. unfold shell_values.
  rewrite !mod6', !div6' by lia. rewrite H. split.
  - replace (Nat.ltb b 3) with true by (symmetry; apply Nat.ltb_lt; lia). rewrite E1. reflexivity.
  - replace (Nat.ltb (3 + b) 3) with false by (symmetry; apply Nat.ltb_ge; lia). rewrite E2.
    replace (3 + b - 3)%nat with b by lia. reflexivity.
Qed.

Definition rigid_plate (c : csys) (o t w : vec3) : quadratic :=
  Quadratic (dot3 (cs_z c) (moved t w o)) (- dot3 (cs_y c) w) (dot3 (cs_x c) w) 0 0 0.

(** quadrilaterals *)
Lemma quad_plate_rigid m s a b c d t w x : rigid_motion m t w x -> sh_nodes s = [a; b; c; d] ->
  cur m a -> cur m b -> cur m c -> cur m d -> frame (cs_x (sh_csys s)) (cs_y (sh_csys s)) (cs_z (sh_csys s)) ->
  forall r, (r < 12)%nat ->
  plate_x (shell_values m s x) r = plate_values (in_axes s) (rigid_plate (sh_csys s) (cs_O (sh_csys s)) t w) r.
Proof.
  intros R EN Ca Cb Cc Cd F r Hr.
  assert (G : forall i n, nth_error (sh_nodes s) i = Some n -> cur m n ->
     shell_values m s x (6 * i + 2) = dot3 (cs_z (sh_csys s)) (moved t w (n_loc n))
     /\ shell_values m s x (6 * i + 3) = dot3 (cs_x (sh_csys s)) w /\ shell_values m s x (6 * i + 4) = dot3 (cs_y (sh_csys s)) w).
  { intros i n H C. split; [|split].
    - apply (rigid_values m s t w x i n 2 R H C ltac:(lia)).
    - apply (rigid_values m s t w x i n 0 R H C ltac:(lia)).
    - apply (rigid_values m s t w x i n 1 R H C ltac:(lia)). }
  assert (Z : forall n, dot3 (cs_z (sh_csys s)) (moved t w (n_loc n))
     = defl (rigid_plate (sh_csys s) (cs_O (sh_csys s)) t w) (plane_x (cs_O (sh_csys s)) (cs_x (sh_csys s)) (n_loc n)) (plane_x (cs_O (sh_csys s)) (cs_y (sh_csys s)) (n_loc n))).
  { intros n. rewrite (moved_from t w (cs_O (sh_csys s)) (n_loc n)), dot_add, (spin_z _ _ _ _ _ F).
    unfold defl, rigid_plate, plane_x; cbn [w_0 w_x w_y w_xx w_xy w_yy]. ring. }
  rewrite EN in G.
  destruct (G 0%nat a eq_refl Ca) as (A1 & A2 & A3). destruct (G 1%nat b eq_refl Cb) as (B1 & B2 & B3).
  destruct (G 2%nat c eq_refl Cc) as (C1 & C2 & C3). destruct (G 3%nat d eq_refl Cd) as (D1 & D2 & D3).
  rewrite Z in A1, B1, C1, D1.
  unfold plate_x, plate_values, in_axes. rewrite EN. unfold at_x, at_y.
  do 12 (destruct r as [|r]; [cbn -[shell_values defl plane_x rigid_plate slope_x slope_y];
     cbn -[shell_values defl plane_x rigid_plate slope_x slope_y] in *;
     first [exact A1|exact B1|exact C1|exact D1
           |rewrite ?A2, ?B2, ?C2, ?D2, ?A3, ?B3, ?C3, ?D3; unfold slope_x, slope_y, rigid_plate; cbn [w_0 w_x w_y w_xx w_xy w_yy]; ring]|]).
  lia.
Qed.

Lemma quad_heights a b c d cs : plane_quad a b c d -> quad_csys a b c d = Some cs ->
  forall p, In p [a; b; c; d] -> dot3 (vsub p (cs_O cs)) (cs_z cs) = 0.
Proof.
  intros P Q. destruct (c46_quad a b c d (plane_quad_triangle _ _ _ _ P)) as (cs' & Q' & F & Z & HO).
  rewrite Q in Q'. apply some_inj in Q'. subst cs'.
  destruct P as (n & Hn & (k1 & H1 & E1) & _ & (k3 & H3 & E3) & _).
  assert (Zn : cs_z cs = n).
  { rewrite Z, E1, length_scaled by assumption. apply vec3_eq; unfold vscale; cbn [vx vy vz]; field; lra. }
  assert (K : forall k v, 0 < k -> dot3 v (vscale k n) = 0 -> dot3 v n = 0).
  { intros k v Hk H. apply Rmult_eq_reg_l with k; [|lra]. rewrite Rmult_0_r, <- H. unfold dot3, vscale; cbn [vx vy vz]. ring. }
  assert (B : dot3 (vsub b a) n = 0) by (apply (K k1); [assumption|]; rewrite <- E1; unfold dot3, normal3, cross, vsub; cbn [vx vy vz]; ring).
  assert (C : dot3 (vsub c a) n = 0) by (apply (K k1); [assumption|]; rewrite <- E1; unfold dot3, normal3, cross, vsub; cbn [vx vy vz]; ring).
  assert (D : dot3 (vsub d c) n = 0) by (apply (K k3); [assumption|]; rewrite <- E3; unfold dot3, normal3, cross, vsub; cbn [vx vy vz]; ring).
  rewrite HO, Zn. clear - B C D. intros p [<-|[<-|[<-|[<-|[]]]]]; unfold dot3, vsub, vscale, vadd in *; cbn [vx vy vz] in *; lra.
Qed.

Definition rigid_u (c : csys) (o t w : vec3) : lin := Lin (dot3 (cs_x c) (moved t w o)) 0 0.
Definition rigid_v (c : csys) (o t w : vec3) : lin := Lin (dot3 (cs_y c) (moved t w o)) 0 0.
Lemma quad_membrane_rigid m s a b c d t w x : rigid_motion m t w x -> sh_nodes s = [a; b; c; d] ->
  cur m a -> cur m b -> cur m c -> cur m d -> frame (cs_x (sh_csys s)) (cs_y (sh_csys s)) (cs_z (sh_csys s)) ->
  (forall n, In n (sh_nodes s) -> dot3 (vsub (n_loc n) (cs_O (sh_csys s))) (cs_z (sh_csys s)) = 0) ->
  dot3 (cs_z (sh_csys s)) w = 0 ->
  forall r, (r < 12)%nat ->
  membrane_q (shell_values m s x) r
  = membrane_values (in_axes s) (rigid_u (sh_csys s) (cs_O (sh_csys s)) t w) (rigid_v (sh_csys s) (cs_O (sh_csys s)) t w) 0 r.
Proof.
  intros R EN Ca Cb Cc Cd F HZ W r Hr.
  assert (G : forall i n, nth_error (sh_nodes s) i = Some n -> cur m n ->
     shell_values m s x (6 * i + 0) = dot3 (cs_x (sh_csys s)) (moved t w (cs_O (sh_csys s)))
     /\ shell_values m s x (6 * i + 1) = dot3 (cs_y (sh_csys s)) (moved t w (cs_O (sh_csys s)))
     /\ shell_values m s x (6 * i + 5) = 0).
  { intros i n H C. specialize (HZ n (nth_error_In _ _ H)). split; [|split].
    - rewrite (proj1 (rigid_values m s t w x i n 0 R H C ltac:(lia))). cbn [axis_of].
      rewrite (moved_from t w (cs_O (sh_csys s)) (n_loc n)), dot_add, (spin_x _ _ _ _ _ F), HZ, W. ring.
    - rewrite (proj1 (rigid_values m s t w x i n 1 R H C ltac:(lia))). cbn [axis_of].
      rewrite (moved_from t w (cs_O (sh_csys s)) (n_loc n)), dot_add, (spin_y _ _ _ _ _ F), HZ, W. ring.
    - etransitivity; [exact (proj2 (rigid_values m s t w x i n 2 R H C ltac:(lia)))|exact W]. }
  rewrite EN in G.
  destruct (G 0%nat a eq_refl Ca) as (A1 & A2 & A3). destruct (G 1%nat b eq_refl Cb) as (B1 & B2 & B3).
  destruct (G 2%nat c eq_refl Cc) as (C1 & C2 & C3). destruct (G 3%nat d eq_refl Cd) as (D1 & D2 & D3).
  unfold membrane_q, membrane_values, lin_at, rigid_u, rigid_v. cbn [l_0 l_x l_y].
  do 12 (destruct r as [|r]; [cbn -[shell_values moved]; cbn -[shell_values moved] in *;
     rewrite ?A1, ?A2, ?A3, ?B1, ?B2, ?B3, ?C1, ?C2, ?C3, ?D1, ?D2, ?D3; ring|]).
  lia.
Qed.

(** triangles *)
Lemma tria_csys_frame a b c cs : triangle a b c -> tria_csys a b c = Some cs ->
  frame (cs_x cs) (cs_y cs) (cs_z cs) /\ cs_z cs = vscale (/ length3 (normal3 a b c)) (normal3 a b c).
Proof.
  intros T Q. destruct (c46_tria_partial a b c T) as (A & B).
  destruct (Rlt_dec (length3 (vadd (vscale (/ length3 (normal3 a b c)) (normal3 a b c)) (V3 0 0 1))) (1 / 1000000000)) as [L|L].
  { rewrite (B L) in Q. discriminate. }
  destruct (A ltac:(lra)) as (cs' & Q' & F & Z & _). rewrite Q in Q'. apply some_inj in Q'. subst cs'. auto.
Qed.
Lemma tria_plate_rigid m s a b c t w x : rigid_motion m t w x -> sh_nodes s = [a; b; c] ->
  cur m a -> cur m b -> cur m c -> frame (cs_x (sh_csys s)) (cs_y (sh_csys s)) (cs_z (sh_csys s)) ->
  forall r, (r < 9)%nat ->
  plate_x (shell_values m s x) r = plate_values (tria_axes s) (rigid_plate (sh_csys s) zero3 t w) r.
Proof.
  intros R EN Ca Cb Cc F r Hr.
  assert (G : forall i n, nth_error (sh_nodes s) i = Some n -> cur m n ->
     shell_values m s x (6 * i + 2) = dot3 (cs_z (sh_csys s)) (moved t w (n_loc n))
     /\ shell_values m s x (6 * i + 3) = dot3 (cs_x (sh_csys s)) w /\ shell_values m s x (6 * i + 4) = dot3 (cs_y (sh_csys s)) w).
  { intros i n H C. split; [|split].
    - apply (rigid_values m s t w x i n 2 R H C ltac:(lia)).
    - apply (rigid_values m s t w x i n 0 R H C ltac:(lia)).
    - apply (rigid_values m s t w x i n 1 R H C ltac:(lia)). }
  assert (Z : forall n, dot3 (cs_z (sh_csys s)) (moved t w (n_loc n))
     = defl (rigid_plate (sh_csys s) zero3 t w) (dot3 (n_loc n) (cs_x (sh_csys s))) (dot3 (n_loc n) (cs_y (sh_csys s)))).
  { intros n. rewrite (moved_from t w zero3 (n_loc n)), dot_add, (spin_z _ _ _ _ _ F).
    unfold defl, rigid_plate; cbn [w_0 w_x w_y w_xx w_xy w_yy].
    replace (vsub (n_loc n) zero3) with (n_loc n) by (apply vec3_eq; unfold vsub, zero3; cbn [vx vy vz]; ring). ring. }
  rewrite EN in G.
  destruct (G 0%nat a eq_refl Ca) as (A1 & A2 & A3). destruct (G 1%nat b eq_refl Cb) as (B1 & B2 & B3).
  destruct (G 2%nat c eq_refl Cc) as (C1 & C2 & C3).
  rewrite Z in A1, B1, C1.
  unfold plate_x, plate_values, tria_axes, local_xy. rewrite EN. unfold at_x, at_y.
  do 9 (destruct r as [|r]; [cbn -[shell_values defl rigid_plate slope_x slope_y dot3];
     cbn -[shell_values defl rigid_plate slope_x slope_y dot3] in *;
     first [exact A1|exact B1|exact C1
           |rewrite ?A2, ?B2, ?C2, ?A3, ?B3, ?C3; unfold slope_x, slope_y, rigid_plate; cbn [w_0 w_x w_y w_xx w_xy w_yy]; ring]|]).
  lia.
Qed.
Lemma tria_membrane_rigid m s a b c t w x : rigid_motion m t w x -> sh_nodes s = [a; b; c] ->
  cur m a -> cur m b -> cur m c -> frame (cs_x (sh_csys s)) (cs_y (sh_csys s)) (cs_z (sh_csys s)) ->
  cs_z (sh_csys s) = vscale (/ length3 (normal3 (n_loc a) (n_loc b) (n_loc c))) (normal3 (n_loc a) (n_loc b) (n_loc c)) ->
  dot3 (cs_z (sh_csys s)) w = 0 ->
  forall r, (r < 6)%nat ->
  membrane_t (shell_values m s x) r
  = match (r mod 2)%nat with O => dot3 (cs_x (sh_csys s)) (moved t w (n_loc a)) | _ => dot3 (cs_y (sh_csys s)) (moved t w (n_loc a)) end.
Proof.
  intros R EN Ca Cb Cc F HZ W r Hr.
  assert (HB : forall n, In n (sh_nodes s) -> dot3 (vsub (n_loc n) (n_loc a)) (cs_z (sh_csys s)) = 0).
  { rewrite EN, HZ. set (k := / _). clearbody k. intros n [<-|[<-|[<-|[]]]]; unfold dot3, vscale, normal3, cross, vsub; cbn [vx vy vz]; ring. }
  assert (G : forall i n, nth_error (sh_nodes s) i = Some n -> cur m n ->
     shell_values m s x (6 * i + 0) = dot3 (cs_x (sh_csys s)) (moved t w (n_loc a))
     /\ shell_values m s x (6 * i + 1) = dot3 (cs_y (sh_csys s)) (moved t w (n_loc a))).
  { intros i n H C. specialize (HB n (nth_error_In _ _ H)). split.
    - rewrite (proj1 (rigid_values m s t w x i n 0 R H C ltac:(lia))). cbn [axis_of].
      rewrite (moved_from t w (n_loc a) (n_loc n)), dot_add, (spin_x _ _ _ _ _ F), HB, W. ring.
    - rewrite (proj1 (rigid_values m s t w x i n 1 R H C ltac:(lia))). cbn [axis_of].
      rewrite (moved_from t w (n_loc a) (n_loc n)), dot_add, (spin_y _ _ _ _ _ F), HB, W. ring. }
  rewrite EN in G.
  destruct (G 0%nat a eq_refl Ca) as (A1 & A2). destruct (G 1%nat b eq_refl Cb) as (B1 & B2).
  destruct (G 2%nat c eq_refl Cc) as (C1 & C2).
  unfold membrane_t.
  do 6 (destruct r as [|r]; [cbn -[shell_values moved]; cbn -[shell_values moved] in *; assumption|]). lia.
Qed.
Lemma t9_translation E mu xl y tx ty : forall x, (forall r, (r < 6)%nat -> x r = match (r mod 2)%nat with O => tx | _ => ty end) ->
  rsum 6 (fun i => rsum 6 (fun j => y i * t9_BDB E mu xl i j * x j)) = 0.
Proof.
  intros x H. unfold t9_BDB. rewrite BDB_form. apply rsum_0; intros a _. apply rsum_0; intros b Hb.
  assert (Z : mvec 6 (t9_B xl) x b = 0); [|rewrite Z; ring].
  unfold mvec. rewrite (rsum_ext 6 _ (fun j => t9_B xl b j * match (j mod 2)%nat with O => tx | _ => ty end)) by (intros; rewrite H by assumption; reflexivity).
  unfold t9_B. set (g := 1/2/t9_area xl). clearbody g. destruct b as [|[|[|b]]]; [| | |lia]; cbn [rsum]; cbn; ring.
Qed.

Lemma form_as_force n (K : mat) y x : (forall r, (r < n)%nat -> force n K x r = 0) ->
  rsum n (fun i => rsum n (fun j => y i * K i j * x j)) = 0.
Proof.
  intros H. apply rsum_0; intros i Hi. specialize (H i Hi). unfold force in H.
  rewrite (rsum_ext n _ (fun j => y i * (K i j * x j))) by (intros; ring). rewrite rsum_scal, H. ring.
Qed.
Lemma force_ext n (K : mat) x x' r : (forall i, (i < n)%nat -> x i = x' i) -> force n K x r = force n K x' r.
Proof. intros H. unfold force. apply rsum_ext; intros. rewrite H by assumption. reflexivity. Qed.

Lemma shell_rigid c2 t2 m k s t w x y : inside_square c2 -> shell_ok m k s -> (forall n, In n (sh_nodes s) -> cur m n) ->
  proper_shape s -> unturned w s -> rigid_motion m t w x ->
  shell_work (code_kernels c2 t2) m y x s = 0.
Proof.
  intros Q OK C P U R. unfold shell_work, unturned, proper_shape in *.
  destruct (so_shape _ _ _ OK) as [(a & b & c & EN & EC & _)|(a & b & c & d & EN & EC & _)]; rewrite EN in P; cbn [map] in P.
  - destruct (tria_csys_frame _ _ _ _ P EC) as (F & HZ).
    assert (W : dot3 (cs_z (sh_csys s)) w = 0).
    { assert (HM : has_membrane s = true) by (unfold has_membrane; rewrite EN; reflexivity). specialize (U HM). rewrite EN in U. cbn [map] in U.
      rewrite HZ. set (k0 := / _). clearbody k0. unfold dot3, vscale in *; cbn [vx vy vz] in *.
      transitivity (k0 * (vx (normal3 (n_loc a) (n_loc b) (n_loc c)) * vx w + vy (normal3 (n_loc a) (n_loc b) (n_loc c)) * vy w + vz (normal3 (n_loc a) (n_loc b) (n_loc c)) * vz w)); [ring|].
      rewrite U. ring. }
    assert (Ca : cur m a) by (apply C; rewrite EN; cbn; tauto). assert (Cb : cur m b) by (apply C; rewrite EN; cbn; tauto).
    assert (Cc : cur m c) by (apply C; rewrite EN; cbn; tauto).
    unfold shell_K. rewrite EN. cbn [List.length Nat.eqb]. unfold tria_K. change (flat_map _ (sh_nodes s)) with (tria_axes s).
    rewrite place_tria_form, !form_scale.
    rewrite (t9_translation _ _ _ _ _ _ _ (tria_membrane_rigid m s a b c t w x R EN Ca Cb Cc F HZ W)).
    rewrite (form_as_force (3*3)); [ring|]. intros r Hr.
    rewrite (force_ext _ _ _ _ r (tria_plate_rigid m s a b c t w x R EN Ca Cb Cc F)).
    apply c75_rigid; [|split; [|split]; reflexivity|exact Hr].
    rewrite (tria_turn _ _ _ _ s P EC eq_refl) by (rewrite EN; reflexivity).
    assert (0 < length3 (normal3 (n_loc a) (n_loc b) (n_loc c))) by (rewrite length3_norm; apply norm_pos; exact P). lra.
  - destruct (c46_quad _ _ _ (n_loc d) (plane_quad_triangle _ _ _ _ P)) as (cs' & Q' & F & HZ & _).
    rewrite EC in Q'. apply some_inj in Q'. subst cs'.
    assert (CV : convex4 (in_axes s)).
    { rewrite in_axes_coords, EN. cbn [map]. eapply quad_axes_convex; eauto. }
    assert (Ca : cur m a) by (apply C; rewrite EN; cbn; tauto). assert (Cb : cur m b) by (apply C; rewrite EN; cbn; tauto).
    assert (Cc : cur m c) by (apply C; rewrite EN; cbn; tauto). assert (Cd : cur m d) by (apply C; rewrite EN; cbn; tauto).
    unfold shell_K. rewrite EN. cbn [List.length Nat.eqb]. unfold quad_K. rewrite quad_K_axes.
    rewrite place_quad_form. rewrite (form_as_force (3*4)), (form_as_force (3*4)); [ring| |].
    + intros r Hr. destruct (_ || _)%bool.
      * rewrite (force_ext _ _ _ _ r (quad_plate_rigid m s a b c d t w x R EN Ca Cb Cc Cd F)).
        apply c76_rigid; [exact CV|split; [|split]; reflexivity|exact Hr].
      * unfold force, zero_mat. apply rsum_0; intros; ring.
    + intros r Hr. destruct (_ || _)%bool eqn:TY.
      * assert (W : dot3 (cs_z (sh_csys s)) w = 0).
        { assert (HM : has_membrane s = true) by (unfold has_membrane; rewrite EN; exact TY). specialize (U HM). rewrite EN in U. cbn [map] in U.
          rewrite HZ. set (k0 := / _). clearbody k0. unfold dot3, vscale in *; cbn [vx vy vz] in *.
          transitivity (k0 * (vx (normal3 (n_loc a) (n_loc b) (n_loc c)) * vx w + vy (normal3 (n_loc a) (n_loc b) (n_loc c)) * vy w + vz (normal3 (n_loc a) (n_loc b) (n_loc c)) * vz w)); [ring|].
          rewrite U. ring. }
        assert (HH : forall n, In n (sh_nodes s) -> dot3 (vsub (n_loc n) (cs_O (sh_csys s))) (cs_z (sh_csys s)) = 0).
        { intros n Hn. apply (quad_heights _ _ _ _ _ P EC). rewrite EN in Hn. apply (in_map n_loc) in Hn. exact Hn. }
        rewrite (force_ext _ _ _ _ r (quad_membrane_rigid m s a b c d t w x R EN Ca Cb Cc Cd F HH W)).
        replace (rigid_u (sh_csys s) (cs_O (sh_csys s)) t w) with (Lin (dot3 (cs_x (sh_csys s)) (moved t w (cs_O (sh_csys s)))) 0 (- 0))
          by (unfold rigid_u; f_equal; ring).
        apply (c74_rigid_partial c2 t2 _ _ _ _ _ _ 0 Q CV r Hr).
      * unfold force, zero_mat. apply rsum_0; intros; ring.
Qed.

Lemma shells_rigid_form ext ops w m K c2 t2 t r x : w = final ext init ops -> never_readds_nodes ext ops ->
  x_ker ext = code_kernels c2 t2 -> inside_square c2 ->
  assembled_model w = Some m -> stiffness ext w = Some K ->
  (forall k s, In (k, s) (f_shells m) -> proper_shape s /\ unturned r s) ->
  rigid_motion m t r x -> forall y, bil K y x = 0 /\ bil K x y = 0.
Proof.
  intros Hw N Hk Q Hm HK HS R y. destruct (stiffness_inv _ _ _ _ _ Hw Hm HK) as (a & Ha & Em & EK & W).
  pose proof (assembled_good _ _ _ _ Hw N Hm) as (_ & _ & EC & ES).
  subst m. destruct (assemble_K_bil _ _ _ x y W EK) as [E1 _]. destruct (assemble_K_bil _ _ _ y x W EK) as [E2 _].
  assert (S : symmetric_kernels (x_ker ext)) by (rewrite Hk; apply code_symmetric).
  assert (Z : bil K y x = 0).
  { rewrite E2. rewrite (lsum_zero (beam_work (a_model a) y x)), (lsum_zero (shell_work (x_ker ext) (a_model a) y x)); [lra| |].
    - intros s Hs. apply in_dvals_ex in Hs as [k Hks]. rewrite Hk. destruct (HS _ _ Hks).
      eapply shell_rigid; eauto. apply (wf_shell _ W), Hks.
    - intros b Hb. apply in_dvals_ex in Hb as [k Hkb]. rewrite beam_work_sym.
      destruct (EC _ _ Hkb). eapply rigid_beam_work; eauto. apply (wf_beam _ W), Hkb. }
  split; [exact Z|]. rewrite E1, (works_sym (x_ker ext) _ x y W) by (right; exact S). rewrite <- E2. exact Z.
Qed.
Lemma c24_shells_no_force ext ops w m K c2 t2 t r x : w = final ext init ops -> never_readds_nodes ext ops ->
  x_ker ext = code_kernels c2 t2 -> inside_square c2 ->
  assembled_model w = Some m -> stiffness ext w = Some K ->
  (forall k s, In (k, s) (f_shells m) -> proper_shape s /\ unturned r s) ->
  rigid_motion m t r x -> forall q, row (size m) K x q = 0.
Proof.
  intros Hw N Hk Q Hm HK HS R q. destruct (stiffness_inv _ _ _ _ _ Hw Hm HK) as (a & Ha & Em & EK & W).
  rewrite <- Em in W. destruct (assemble_K_bil _ _ _ x x W EK) as [_ IR]. rewrite Em in IR. rewrite row_bil by exact IR.
  apply (shells_rigid_form _ _ _ _ _ _ _ _ _ _ Hw N Hk Q Hm HK HS R (AsmFacts.delta q)).
Qed.
Lemma unturned_zero s : unturned zero3 s.
Proof.
  intros _. destruct (map n_loc (sh_nodes s)) as [|a [|b [|c l]]]; auto. unfold dot3, zero3; cbn [vx vy vz]. ring.
Qed.
Lemma unturned_scale k r s : unturned r s -> unturned (vscale k r) s.
Proof.
  intros H HM. specialize (H HM). destruct (map n_loc (sh_nodes s)) as [|a [|b [|c l]]]; auto.
  unfold dot3, vscale in *; cbn [vx vy vz] in *.
  transitivity (k * (vx (normal3 a b c) * vx r + vy (normal3 a b c) * vy r + vz (normal3 a b c) * vz r)); [ring|]. rewrite H. ring.
Qed.
Lemma c24_shells_balance ext ops w m K c2 t2 : w = final ext init ops -> never_readds_nodes ext ops ->
  x_ker ext = code_kernels c2 t2 -> inside_square c2 ->
  assembled_model w = Some m -> stiffness ext w = Some K ->
  (forall k s, In (k, s) (f_shells m) -> proper_shape s) ->
  forall y, resultant_force m (row (size m) K y) = zero3
    /\ forall r, (forall k s, In (k, s) (f_shells m) -> unturned r s) -> dot3 r (resultant_moment m (row (size m) K y)) = 0.
Proof.
  intros Hw N Hk Q Hm HK HS y. pose proof (assembled_good _ _ _ _ Hw N Hm) as G.
  destruct (stiffness_inv _ _ _ _ _ Hw Hm HK) as (a & Ha & Em & EK & W).
  rewrite <- Em in W. destruct (assemble_K_bil _ _ _ y y W EK) as [_ IR]. rewrite Em in IR.
  assert (Z : forall t r, (forall k s, In (k, s) (f_shells m) -> unturned r s) ->
     dot3 t (resultant_force m (row (size m) K y)) + dot3 r (resultant_moment m (row (size m) K y)) = 0).
  { intros t r U. rewrite <- rigid_power by exact G.
    transitivity (bil K (rigid_vec m t r) y).
    - rewrite <- (bil_quad (size m) (size m)) by exact IR. reflexivity.
    - apply (shells_rigid_form _ _ _ _ _ _ _ t r _ Hw N Hk Q Hm HK); [intros k s Hs; split; [eapply HS; eauto|eapply U; eauto]|].
      apply rigid_vec_motion, G. }
  split.
  - apply dot_all_zero; intros t. specialize (Z t zero3 (fun _ s _ => unturned_zero s)). unfold dot3 in *; cbn [zero3 vx vy vz] in *. lra.
  - intros r U. specialize (Z zero3 r U). unfold dot3 in *; cbn [zero3 vx vy vz] in *. lra.
Qed.
