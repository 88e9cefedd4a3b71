(** A level plate turned by a quarter about the vertical keeps its axes, and its stiffness
    is another one. *)
From Coq Require Import Reals Lra Lia List String Arith Bool.
From Verif Require Import Base BaseFacts Csys Sections Element Kernels Load FeModel Assembly SpecGeom CsysFacts SpecBeam BeamFacts ShellGeom ShellProofs SpecSame SameProofs Demo Demo2 SpecKernel KernelProofs2 KernelProofs5 SpecIso IsoProofs IsoProofs2 SameTria.
Import ListNotations.
Local Open Scope string_scope.
Local Open Scope list_scope.
Local Open Scope R_scope.

Definition slim_sec : ssection := SSec (Mat 7850 12 0 1) 1 "plate".
Lemma level_axes p q u v k : 0 < k -> cross (vsub p q) (vsub q u) = V3 0 0 k ->
  exists cs, quad_csys p q u v = Some cs /\ cs_O cs = vdiv (vadd (vadd (vadd p q) u) v) 4 /\ cs_x cs = V3 1 0 0 /\ cs_y cs = V3 0 1 0 /\ cs_z cs = V3 0 0 1.
Proof.
  intros K E. unfold quad_csys. set (o := vdiv _ 4).
  assert (N : shell_normal p q u = V3 0 0 1).
  { unfold shell_normal. rewrite E. assert (X : norm (V3 0 0 k) = k) by (unfold norm, dot3; cbn [vx vy vz]; replace (0 * 0 + 0 * 0 + k * k) with (k * k) by ring; apply sqrt_square; lra).
    rewrite X. apply vec3_eq; unfold vdiv; cbn [vx vy vz]; field; lra. }
  rewrite N. assert (Z : Rltb (norm (vsub (V3 0 0 1) (V3 0 0 1))) abs_tol = true).
  { apply Rltb_true. unfold norm, dot3, vsub. cbn [vx vy vz]. replace ((0 - 0) * (0 - 0) + (0 - 0) * (0 - 0) + (1 - 1) * (1 - 1)) with 0 by ring. rewrite sqrt_0. unfold abs_tol. lra. }
  rewrite Z. cbn [orb]. unfold create_by_normal. rewrite (norm_is (V3 0 0 1)), (norm_is (V3 0 1 0)) by (unfold dot3; cbn [vx vy vz]; ring).
  replace (vdiv (V3 0 0 1) 1) with (V3 0 0 1) by (apply vec3_eq; unfold vdiv; cbn [vx vy vz]; field).
  replace (vdiv (V3 0 1 0) 1) with (V3 0 1 0) by (apply vec3_eq; unfold vdiv; cbn [vx vy vz]; field).
  rewrite !far_off by (unfold dot3, vsub, vadd; cbn [vx vy vz]; lra). cbn [orb].
  replace (cross (V3 0 1 0) (V3 0 0 1)) with (V3 1 0 0) by (apply vec3_eq; unfold cross; cbn [vx vy vz]; ring).
  rewrite (norm_is (V3 1 0 0)) by (unfold dot3; cbn [vx vy vz]; ring).
  replace (vdiv (V3 1 0 0) 1) with (V3 1 0 0) by (apply vec3_eq; unfold vdiv; cbn [vx vy vz]; field).
  replace (cross (V3 0 0 1) (V3 1 0 0)) with (V3 0 1 0) by (apply vec3_eq; unfold cross; cbn [vx vy vz]; ring).
  unfold cartesian. rewrite !vadd_vsub.
  replace (cross (V3 1 0 0) (V3 0 1 0)) with (V3 0 0 1) by (apply vec3_eq; unfold cross; cbn [vx vy vz]; ring).
  assert (M : Rltb (max_abs (V3 0 0 1)) abs_tol = false).
  { apply Rltb_false. unfold max_abs, abs_tol. cbn [vx vy vz]. rewrite Rabs_R1, Rabs_R0. unfold Rmax. repeat destruct (Rle_dec _ _); lra. }
  rewrite M. rewrite (norm_is (V3 0 0 1)), (norm_is (V3 1 0 0)) by (unfold dot3; cbn [vx vy vz]; ring).
  eexists. split; [reflexivity|]. cbn [cs_O cs_x cs_y cs_z]. repeat split; apply vec3_eq; unfold vdiv, cross; cbn [vx vy vz]; field.
Qed.
Lemma level_made x1 y1 x2 y2 x3 y3 x4 y4 k : 0 < k -> cross (vsub (V3 x1 y1 0) (V3 x2 y2 0)) (vsub (V3 x2 y2 0) (V3 x3 y3 0)) = V3 0 0 k -> x1 + x2 + x3 + x4 = 0 -> y1 + y2 + y3 + y4 = 0 ->
  exists s, mk_quad "q" slim_sec (node_at "A" x1 y1 0) (node_at "B" x2 y2 0) (node_at "C" x3 y3 0) (node_at "D" x4 y4 0) = Some s
  /\ cs_x (sh_csys s) = V3 1 0 0 /\ cs_y (sh_csys s) = V3 0 1 0 /\ cs_z (sh_csys s) = V3 0 0 1
  /\ forall ker, shell_K ker s 2%nat 2%nat = k_dkq ker 12 0 1 [x1; y1; x2; y2; x3; y3; x4; y4] 0%nat 0%nat.
Proof.
  intros K E SX SY. destruct (level_axes _ _ _ (V3 x4 y4 0) k K E) as (cs & Q & O & X & Y & Z). unfold mk_quad, node_at, n_loc. cbn [n_csys cs_O]. rewrite Q. eexists. split; [reflexivity|].
  cbn [sh_csys]. repeat split; auto. intros ker. unfold shell_K, quad_K. cbn [sh_nodes List.length Nat.eqb sh_sec sh_csys sh_area ss_t ss_mat ss_type m_E m_mu slim_sec String.eqb Ascii.eqb Bool.eqb orb].
  unfold place_quad, pairs. cbn [seq list_prod map app fold_left fst snd]. unfold assign. cbn [Nat.leb Nat.ltb Nat.mul Nat.add Nat.sub andb].
  f_equal. cbn [flat_map]. unfold local_xy, n_loc. cbn [n_csys cs_O]. rewrite O, X, Y.
  assert (C : vdiv (vadd (vadd (vadd (V3 x1 y1 0) (V3 x2 y2 0)) (V3 x3 y3 0)) (V3 x4 y4 0)) 4 = V3 0 0 0) by (apply vec3_eq; unfold vdiv, vadd; cbn [vx vy vz]; lra).
  rewrite C. unfold dot3, vsub. cbn [vx vy vz app]. repeat f_equal; ring.
Qed.
(** refuted: a quarter turn of a level plate about the vertical changes the force that lifts its
    first corner by one, the axes of the plate being the global ones before and after *)
Lemma m111_level_refuted : exists p q u v s s', convex4 [vx p; vy p; vx q; vy q; vx u; vy u; vx v; vy v]
  /\ mk_quad "q" slim_sec (node_at "A" (vx p) (vy p) 0) (node_at "B" (vx q) (vy q) 0) (node_at "C" (vx u) (vy u) 0) (node_at "D" (vx v) (vy v) 0) = Some s
  /\ mk_quad "q" slim_sec (node_at "A" (- vy p) (vx p) 0) (node_at "B" (- vy q) (vx q) 0) (node_at "C" (- vy u) (vx u) 0) (node_at "D" (- vy v) (vx v) 0) = Some s'
  /\ cs_x (sh_csys s) = V3 1 0 0 /\ cs_y (sh_csys s) = V3 0 1 0 /\ cs_z (sh_csys s) = V3 0 0 1
  /\ cs_x (sh_csys s') = V3 1 0 0 /\ cs_y (sh_csys s') = V3 0 1 0 /\ cs_z (sh_csys s') = V3 0 0 1
  /\ shell_K (code_kernels gauss2 tri_mid) s' 2%nat 2%nat <> shell_K (code_kernels gauss2 tri_mid) s 2%nat 2%nat.
Proof.
  destruct (level_made (-1) (-2) 1 (-2) 1 2 (-1) 2 8) as (s & E & X & Y & Z & K); [lra|apply vec3_eq; unfold cross, vsub; cbn [vx vy vz]; ring|ring|ring|].
  destruct (level_made 2 (-1) 2 1 (-2) 1 (-2) (-1) 8) as (s' & E' & X' & Y' & Z' & K'); [lra|apply vec3_eq; unfold cross, vsub; cbn [vx vy vz]; ring|ring|ring|].
  exists (V3 (-1) (-2) 0), (V3 1 (-2) 0), (V3 1 2 0), (V3 (-1) 2 0), s, s'. cbn [vx vy vz]. replace (- -2) with 2 by ring. replace (- (2)) with (-2) by ring.
  split; [unfold convex4, turn, at_x, at_y; cbn; lra|]. split; [exact E|]. split; [exact E'|]. repeat (split; [assumption|]).
  rewrite K, K'. destruct plank_sums as [P P']. unfold plank in P. rewrite P, P'. lra.
Qed.
