(** A triangle turned by half a turn about the vertical loses its stiffness: its stored area
    changes sign. *)
From Coq Require Import Reals Lra Lia List String Arith Bool.
From Verif Require Import Base BaseFacts Csys Sections Element Load FeModel Assembly SpecGeom CsysFacts SpecBeam BeamFacts ShellGeom ShellProofs SpecSame SameProofs Demo.
Import ListNotations.
Local Open Scope string_scope.
Local Open Scope list_scope.
Local Open Scope R_scope.

Lemma norm_is v : dot3 v v = 1 -> norm v = 1.
Proof. intros H. unfold norm, dot3 in *. rewrite H. apply sqrt_1. Qed.
Lemma far_off v : 1 <= dot3 v v -> Rltb (norm v) abs_tol = false.
Proof.
  intros H. apply Rltb_false. unfold abs_tol. assert (X : 1 <= norm v) by (rewrite <- sqrt_1; unfold norm, dot3 in *; apply sqrt_le_1_alt; exact H). lra.
Qed.
Lemma standing_axes k : k = 1 \/ k = -1 -> exists cs, tria_csys (V3 0 0 0) (V3 k 0 0) (V3 0 0 1) = Some cs /\ cs_x cs = V3 k 0 0 /\ cs_y cs = V3 0 0 1 /\ cs_z cs = V3 0 (-k) 0.
Proof.
  intros K. assert (KK : k * k = 1) by (destruct K; subst; ring).
  assert (N : shell_normal (V3 0 0 0) (V3 k 0 0) (V3 0 0 1) = V3 0 (- k) 0).
  { unfold shell_normal. replace (cross (vsub (V3 0 0 0) (V3 k 0 0)) (vsub (V3 k 0 0) (V3 0 0 1))) with (V3 0 (- k) 0) by (apply vec3_eq; unfold cross, vsub; cbn [vx vy vz]; destruct K; subst; ring).
    rewrite norm_is by (unfold dot3; cbn [vx vy vz]; nra). apply vec3_eq; unfold vdiv; cbn [vx vy vz]; field. }
  unfold tria_csys. rewrite N, far_off by (unfold dot3, vsub; cbn [vx vy vz]; nra).
  unfold create_by_normal. rewrite !(norm_is (V3 0 (- k) 0)), (norm_is (V3 0 0 1)) by (unfold dot3; cbn [vx vy vz]; nra).
  replace (vdiv (V3 0 (- k) 0) 1) with (V3 0 (- k) 0) by (apply vec3_eq; unfold vdiv; cbn [vx vy vz]; field).
  replace (vdiv (V3 0 0 1) 1) with (V3 0 0 1) by (apply vec3_eq; unfold vdiv; cbn [vx vy vz]; field).
  rewrite !far_off by (unfold dot3, vsub, vadd; cbn [vx vy vz]; nra). cbn [orb].
  replace (cross (V3 0 0 1) (V3 0 (- k) 0)) with (V3 k 0 0) by (apply vec3_eq; unfold cross; cbn [vx vy vz]; ring).
  rewrite (norm_is (V3 k 0 0)) by (unfold dot3; cbn [vx vy vz]; nra).
  replace (vdiv (V3 k 0 0) 1) with (V3 k 0 0) by (apply vec3_eq; unfold vdiv; cbn [vx vy vz]; field).
  replace (cross (V3 0 (- k) 0) (V3 k 0 0)) with (V3 0 0 1) by (apply vec3_eq; unfold cross; cbn [vx vy vz]; nra).
  set (o := V3 _ _ _). unfold cartesian. rewrite !vadd_vsub.
  replace (cross (V3 k 0 0) (V3 0 0 1)) with (V3 0 (- k) 0) by (apply vec3_eq; unfold cross; cbn [vx vy vz]; ring).
  assert (M : Rltb (max_abs (V3 0 (- k) 0)) abs_tol = false).
  { apply Rltb_false. unfold max_abs, abs_tol. cbn [vx vy vz]. rewrite Rabs_Ropp. assert (Rabs k = 1) as -> by (destruct K; subst; [apply Rabs_R1|unfold Rabs; destruct (Rcase_abs _); lra]).
    rewrite Rabs_R0. unfold Rmax. repeat destruct (Rle_dec _ _); lra. }
  rewrite M. rewrite (norm_is (V3 0 (- k) 0)), (norm_is (V3 k 0 0)) by (unfold dot3; cbn [vx vy vz]; nra).
  eexists. split; [reflexivity|]. cbn [cs_x cs_y cs_z]. repeat split; apply vec3_eq; unfold vdiv, cross; cbn [vx vy vz]; try field; nra.
Qed.
Lemma standing_made k : k = 1 \/ k = -1 -> exists s, mk_tria "t" unit_sec (node_at "A" 0 0 0) (node_at "B" k 0 0) (node_at "C" 0 0 1) = Some s
  /\ cs_x (sh_csys s) = V3 k 0 0 /\ cs_y (sh_csys s) = V3 0 0 1 /\ cs_z (sh_csys s) = V3 0 (-k) 0
  /\ forall ker, shell_K ker s = place_tria (fun i j => - (3 * k) * t9_BDB 2 0 [0; 0; 1; 0; 0; 1] i j) (fun i j => - k * k_dkt ker 2 0 3 [0; 0; 1; 0; 0; 1] i j).
Proof.
  intros K. destruct (standing_axes k K) as (cs & E & X & Y & Z). unfold mk_tria, node_at, n_loc. cbn [n_csys cs_O]. rewrite E. eexists. split; [reflexivity|].
  cbn [sh_csys]. repeat split; auto. intros ker. unfold shell_K, tria_K. cbn [sh_nodes List.length Nat.eqb sh_sec sh_csys sh_area ss_t ss_mat m_E m_mu unit_sec flat_map].
  unfold local_xy, n_loc. cbn [n_csys cs_O]. rewrite X, Y. unfold dot3. cbn [vx vy vz app].
  assert (AR : tria_area (V3 0 0 0) (V3 k 0 0) (V3 0 0 1) = - k * / 2) by (unfold tria_area, det3, dot3, ones, cross, vsub; cbn [vx vy vz]; lra). rewrite AR.
  replace [0 * k + 0 * 0 + 0 * 0; 0 * 0 + 0 * 0 + 0 * 1; k * k + 0 * 0 + 0 * 0; k * 0 + 0 * 0 + 0 * 1; 0 * k + 0 * 0 + 1 * 0; 0 * 0 + 0 * 0 + 1 * 1] with [0; 0; 1; 0; 0; 1]
    by (repeat f_equal; destruct K; subst; ring).
  f_equal; apply FunctionalExtensionality.functional_extensionality; intros i; apply FunctionalExtensionality.functional_extensionality; intros j; field.
Qed.
(** refuted: half a turn about the vertical turns the axes of a standing triangle and changes the sign of
    its whole stiffness *)
Lemma m111_triangle_refuted : exists p q r s s', not_level p q r
  /\ mk_tria "t" unit_sec (node_at "A" (vx p) (vy p) (vz p)) (node_at "B" (vx q) (vy q) (vz q)) (node_at "C" (vx r) (vy r) (vz r)) = Some s
  /\ mk_tria "t" unit_sec (node_at "A" (- vx p) (- vy p) (vz p)) (node_at "B" (- vx q) (- vy q) (vz q)) (node_at "C" (- vx r) (- vy r) (vz r)) = Some s'
  /\ cs_x (sh_csys s') = turn_z (-1) 0 (cs_x (sh_csys s)) /\ cs_y (sh_csys s') = turn_z (-1) 0 (cs_y (sh_csys s)) /\ cs_z (sh_csys s') = turn_z (-1) 0 (cs_z (sh_csys s))
  /\ forall ker, shell_K ker s 0%nat 0%nat <> 0 /\ forall i j, shell_K ker s' i j = - shell_K ker s i j.
Proof.
  destruct (standing_made 1 (or_introl eq_refl)) as (s & E & X & Y & Z & K). destruct (standing_made (-1) (or_intror eq_refl)) as (s' & E' & X' & Y' & Z' & K').
  exists (V3 0 0 0), (V3 1 0 0), (V3 0 0 1), s, s'. cbn [vx vy vz]. rewrite !Ropp_0. split.
  - assert (N : shell_normal (V3 0 0 0) (V3 1 0 0) (V3 0 0 1) = V3 0 (- 1) 0).
    { unfold shell_normal. replace (cross (vsub (V3 0 0 0) (V3 1 0 0)) (vsub (V3 1 0 0) (V3 0 0 1))) with (V3 0 (- 1) 0) by (apply vec3_eq; unfold cross, vsub; cbn [vx vy vz]; ring).
      rewrite norm_is by (unfold dot3; cbn [vx vy vz]; ring). apply vec3_eq; unfold vdiv; cbn [vx vy vz]; field. }
    unfold not_level. rewrite <- normal_unit, N.
    assert (H : forall v, 1 <= dot3 v v -> 1/1000000000 <= norm v).
    { intros v H. apply Rle_trans with 1; [lra|]. rewrite <- sqrt_1. unfold norm, dot3 in *. apply sqrt_le_1_alt. exact H. }
    split; apply H; unfold dot3, vsub, vadd; cbn [vx vy vz]; lra.
  - split; [exact E|]. split; [exact E'|]. rewrite X, X', Y, Y', Z, Z'. unfold turn_z. cbn [vx vy vz].
    split; [f_equal; ring|]. split; [f_equal; ring|]. split; [f_equal; ring|]. intros ker. split.
    + rewrite K. unfold place_tria, pairs. cbn [seq list_prod map app fold_left fst snd]. unfold assign. cbn [Nat.leb Nat.ltb Nat.mul Nat.add Nat.sub andb].
      unfold t9_BDB, mmul, mT, t9_B, planeD, t9_b, t9_area, vnth. cbn [rsum nth Nat.mul Nat.add Nat.eqb Nat.div Nat.modulo]. cbn. lra.
    + intros i j. rewrite K, K'. unfold place_tria, pairs. cbn [seq list_prod map app fold_left fst snd].
      unfold assign. repeat destruct (_ && _)%bool; try ring. unfold zero_mat. ring.
Qed.
