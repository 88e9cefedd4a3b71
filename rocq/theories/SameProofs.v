(** Two histories that describe the same structure give the same answers (C110, C111). *)
From Coq Require Import Reals Lra Lia List String Arith Bool ZArith Sorting.Permutation FunctionalExtensionality.
From Verif Require Import Base BaseFacts Csys Sections Element Load FeModel Assembly Solver Post Api
  SpecApi ApiFacts WfFacts HidFacts ApiProofs1 LoadFacts SpecElim ElimFacts SpecGeom CsysFacts SpecBeam BeamFacts AsmFacts SpecAsm AsmProofs
  AsmTotal AsmProofs2 SpecLoad LoadProofs AsmProofs3 SpecSolve AsmSolve SpecMass MassProofs ShellFacts SpecStatics StaticsProofs StaticsProofs2
  SpecTold ToldProofs SpecToldLoad ToldLoadProofs SpecPost PostProofs SpecSame SpecIso.
From Verif Require SpecKernel.
Import ListNotations.
Local Open Scope R_scope.

(** ** Vectors given by node names *)
Definition spread (m : fem) (x : string -> nat -> R) (q : nat) : R :=
  match nth_error (dkeys (f_nodes m)) (q / 6) with Some k => x k (q mod 6)%nat | None => 0 end.
Definition named (m : fem) (u : nat -> R) (k : string) (j : nat) : R := u (6 * num m k + j)%nat.

Lemma num_key m k i : good m -> nth_error (dkeys (f_nodes m)) i = Some k -> num m k = i.
Proof. intros (_ & HP & _) H. apply num_some, HP, H. Qed.
Lemma key_num m k : good m -> In k (dkeys (f_nodes m)) -> nth_error (dkeys (f_nodes m)) (num m k) = Some k.
Proof. intros G H. apply In_nth_error in H as [i H]. rewrite (num_key _ _ _ G H). exact H. Qed.
Lemma spread_at m x k j : good m -> In k (dkeys (f_nodes m)) -> (j < 6)%nat -> spread m x (6 * num m k + j) = x k j.
Proof. intros G H J. unfold spread. rewrite div6, mod6 by exact J. rewrite (key_num _ _ G H). reflexivity. Qed.
Lemma spread_named m u q : good m -> (q < size m)%nat -> spread m (named m u) q = u q.
Proof.
  intros G H. unfold spread, named.
  assert (B : (q / 6 < List.length (dkeys (f_nodes m)))%nat).
  { unfold dkeys. rewrite map_length. unfold size in H. apply Nat.div_lt_upper_bound; [discriminate|exact H]. }
  destruct (nth_error (dkeys (f_nodes m)) (q / 6)) as [k|] eqn:E; [|apply nth_error_None in E; lia].
  rewrite (num_key _ _ _ G E). f_equal. symmetry. apply Nat.div_mod. discriminate.
Qed.
Definition dvec (x : string -> nat -> R) (k : string) : vec3 := V3 (x k 0%nat) (x k 1%nat) (x k 2%nat).
Definition rvec (x : string -> nat -> R) (k : string) : vec3 := V3 (x k 3%nat) (x k 4%nat) (x k 5%nat).
Lemma spread_disp m x k : good m -> In k (dkeys (f_nodes m)) ->
  disp_at (spread m x) (num m k) = dvec x k /\ rot_at (spread m x) (num m k) = rvec x k.
Proof.
  intros G H. unfold disp_at, rot_at, dvec, rvec. rewrite <- (Nat.add_0_r (6 * num m k)) at 1. rewrite !spread_at by (auto; lia). auto.
Qed.

(** ** Turning *)
Definition turned_by (c s : R) (x : string -> nat -> R) (k : string) (j : nat) : R :=
  nth j (turn_six c s [x k 0%nat; x k 1%nat; x k 2%nat; x k 3%nat; x k 4%nat; x k 5%nat]) 0.
Lemma turned_dvec c s x k : dvec (turned_by c s x) k = turn_z c s (dvec x k) /\ rvec (turned_by c s x) k = turn_z c s (rvec x k).
Proof. split; reflexivity. Qed.
Lemma turn_back c s x k j : c * c + s * s = 1 -> (j < 6)%nat -> turned_by c s (turned_by c (- s) x) k j = x k j.
Proof.
  intros H J. unfold turned_by, turn_six, turn_z. destruct j as [|[|[|[|[|[|]]]]]]; [..|lia]; cbn; try reflexivity.
  all: match goal with |- _ = ?r => transitivity ((c * c + s * s) * r); [ring|rewrite H; ring] end.
Qed.

Section Turn.
Variables c s : R.
Hypothesis U : c * c + s * s = 1.
Lemma turn_dot u v : dot3 (turn_z c s u) (turn_z c s v) = dot3 u v.
Proof.
  unfold dot3, turn_z; cbn [vx vy vz]. transitivity ((c * c + s * s) * (vx u * vx v + vy u * vy v) + vz u * vz v); [ring|rewrite U; ring].
Qed.
Lemma turn_cross u v : cross (turn_z c s u) (turn_z c s v) = turn_z c s (cross u v).
Proof.
  apply vec3_eq; unfold cross, turn_z; cbn [vx vy vz]; [ring|ring|].
  transitivity ((c * c + s * s) * (vx u * vy v - vy u * vx v)); [ring|rewrite U; ring].
Qed.
Lemma turn_scale k v : turn_z c s (vscale k v) = vscale k (turn_z c s v).
Proof. apply vec3_eq; cbn; ring. Qed.
Lemma turn_unit v : unit3 (turn_z c s v) = turn_z c s (unit3 v).
Proof.
  unfold unit3. rewrite turn_scale. f_equal. f_equal. f_equal.
  pose proof (turn_dot v v) as E. unfold dot3 in E. rewrite <- !Rsqr_pow2. unfold Rsqr. exact E.
Qed.
Lemma turn_sub d p q : vsub (vadd d (turn_z c s q)) (vadd d (turn_z c s p)) = turn_z c s (vsub q p).
Proof. apply vec3_eq; cbn; ring. Qed.
Lemma turn_distance d p q : distance (vadd d (turn_z c s p)) (vadd d (turn_z c s q)) = distance p q.
Proof.
  rewrite <- !norm_distance. rewrite turn_sub. unfold norm. f_equal.
  pose proof (turn_dot (vsub p q) (vsub p q)) as E. unfold dot3 in E. rewrite <- ?Rsqr_pow2. unfold Rsqr. exact E.
Qed.
Lemma turn_along ex ey ez v : along (turn_z c s ex) (turn_z c s ey) (turn_z c s ez) (turn_z c s v) = along ex ey ez v.
Proof. unfold along. rewrite !turn_dot. reflexivity. Qed.

Definition upright (p q p' q' : vec3) : Prop := (c = 1 /\ s = 0) \/ (not_steep p q /\ not_steep p' q').
Lemma plan_shift d p q : plan_offset (vadd d p) (vadd d q) = plan_offset p q.
Proof. unfold plan_offset. f_equal; f_equal; cbn; ring. Qed.
Lemma turn_id v : c = 1 -> s = 0 -> turn_z c s v = v.
Proof. intros -> ->. apply vec3_eq; cbn; ring. Qed.
Lemma turn_up d p q : upright p q (vadd d (turn_z c s p)) (vadd d (turn_z c s q)) ->
  up_for (vadd d (turn_z c s p)) (vadd d (turn_z c s q)) = turn_z c s (up_for p q).
Proof.
  unfold up_for. intros [[C S]|[N N']].
  - rewrite !(turn_id _ C S), plan_shift. reflexivity.
  - unfold not_steep in *. destruct (Rlt_dec _ _); [lra|]. destruct (Rlt_dec _ _); [lra|]. apply vec3_eq; cbn; ring.
Qed.
Lemma turn_axes d p q : let p' := vadd d (turn_z c s p) in let q' := vadd d (turn_z c s q) in upright p q p' q' ->
  axis_x p' q' = turn_z c s (axis_x p q) /\ axis_y p' q' = turn_z c s (axis_y p q) /\ axis_z p' q' = turn_z c s (axis_z p q).
Proof.
  intros p' q' H.
  assert (X : axis_x p' q' = turn_z c s (axis_x p q)) by (unfold axis_x, p', q'; rewrite turn_sub; apply turn_unit).
  assert (Z : axis_z p' q' = turn_z c s (axis_z p q)).
  { unfold axis_z. rewrite X. unfold p', q' in *. rewrite (turn_up d p q H), turn_cross. apply turn_unit. }
  split; [exact X|]. split; [|exact Z]. unfold axis_y. rewrite Z, X. apply turn_cross.
Qed.

(** ** Axes of a shell *)
Lemma turn_norm v : norm (turn_z c s v) = norm v.
Proof. unfold norm. rewrite turn_dot. reflexivity. Qed.
Lemma turn_vdiv v k : turn_z c s (vdiv v k) = vdiv (turn_z c s v) k.
Proof. apply vec3_eq; unfold turn_z, vdiv; cbn [vx vy vz]; unfold Rdiv; ring. Qed.
Lemma turn_vsub u v : vsub (turn_z c s u) (turn_z c s v) = turn_z c s (vsub u v).
Proof. apply vec3_eq; cbn; ring. Qed.
Lemma turn_vadd u v : vadd (turn_z c s u) (turn_z c s v) = turn_z c s (vadd u v).
Proof. apply vec3_eq; cbn; ring. Qed.
Lemma vadd_vsub o u : vsub (vadd o u) o = u.
Proof. apply vec3_eq; cbn; ring. Qed.
Definition turned_axes (cs cs' : csys) : Prop :=
  cs_x cs' = turn_z c s (cs_x cs) /\ cs_y cs' = turn_z c s (cs_y cs) /\ cs_z cs' = turn_z c s (cs_z cs).
Lemma cartesian_turn o o' u v cs cs' : cartesian o (vadd o u) (vadd o v) = Some cs ->
  cartesian o' (vadd o' (turn_z c s u)) (vadd o' (turn_z c s v)) = Some cs' ->
  cs_O cs = o /\ cs_O cs' = o' /\ turned_axes cs cs'.
Proof.
  unfold cartesian. rewrite !vadd_vsub. destruct (Rltb (max_abs (cross u v)) abs_tol); [discriminate|].
  destruct (Rltb _ abs_tol); [discriminate|]. intros E E'. apply some_inj in E, E'. subst cs cs'.
  unfold turned_axes. cbn [cs_O cs_x cs_y cs_z]. rewrite turn_cross, !turn_norm, <- !turn_vdiv, turn_cross. repeat split.
Qed.
Lemma by_normal_turn o o' n g cs cs' : turn_z c s g = g -> create_by_normal o n g = Some cs -> create_by_normal o' (turn_z c s n) g = Some cs' ->
  cs_O cs = o /\ cs_O cs' = o' /\ turned_axes cs cs'.
Proof.
  intros G. unfold create_by_normal.
  destruct (_ || _)%bool; [discriminate|]. destruct (_ || _)%bool; [discriminate|].
  replace (vdiv (turn_z c s n) (norm (turn_z c s n))) with (turn_z c s (vdiv n (norm n))) by (rewrite turn_norm; apply turn_vdiv).
  set (w := vdiv n (norm n)).
  replace (cross (vdiv g (norm g)) (turn_z c s w)) with (turn_z c s (cross (vdiv g (norm g)) w)).
  2:{ rewrite <- turn_cross, turn_vdiv, G. reflexivity. }
  set (u0 := cross (vdiv g (norm g)) w). rewrite turn_norm, <- turn_vdiv, turn_cross. apply cartesian_turn.
Qed.
Lemma normal_turn d p q r : shell_normal (vadd d (turn_z c s p)) (vadd d (turn_z c s q)) (vadd d (turn_z c s r)) = turn_z c s (shell_normal p q r).
Proof. unfold shell_normal. rewrite !turn_sub, turn_cross, turn_norm, turn_vdiv. reflexivity. Qed.
Lemma normal_unit p q r : shell_normal p q r = unit3 (cross (vsub p q) (vsub q r)).
Proof.
  unfold shell_normal, unit3, norm, dot3. set (n := cross _ _).
  replace (vx n ^ 2 + vy n ^ 2 + vz n ^ 2) with (vx n * vx n + vy n * vy n + vz n * vz n) by ring.
  apply vec3_eq; unfold vdiv, vscale; cbn [vx vy vz]; unfold Rdiv; ring.
Qed.
Lemma turn_up_z : turn_z c s (V3 0 0 1) = V3 0 0 1.
Proof. apply vec3_eq; cbn; ring. Qed.
Lemma level_turn n : norm (vsub (turn_z c s n) (V3 0 0 1)) = norm (vsub n (V3 0 0 1)) /\ norm (vadd (turn_z c s n) (V3 0 0 1)) = norm (vadd n (V3 0 0 1)).
Proof. rewrite <- turn_up_z at 1 3. rewrite turn_vsub, turn_vadd, !turn_norm. split; reflexivity. Qed.
Lemma tria_turn_axes d p q r cs cs' : ((c = 1 /\ s = 0) \/ not_level p q r) -> tria_csys p q r = Some cs ->
  tria_csys (vadd d (turn_z c s p)) (vadd d (turn_z c s q)) (vadd d (turn_z c s r)) = Some cs' ->
  cs_O cs' = vadd d (turn_z c s (cs_O cs)) /\ turned_axes cs cs'.
Proof.
  intros H. unfold tria_csys. rewrite normal_turn. set (n := shell_normal p q r). destruct (level_turn n) as [-> _]. set (o := V3 ((vx p + vx q + vx r) / 3) ((vy p + vy q + vy r) / 3) ((vz p + vz q + vz r) / 3)). set (o' := V3 (_ / 3) (_ / 3) (_ / 3)).
  assert (O : o' = vadd d (turn_z c s o)) by (unfold o', o; apply vec3_eq; unfold vadd, turn_z; cbn [vx vy vz]; field).
  destruct (Rltb (norm (vsub n (V3 0 0 1))) abs_tol) eqn:L.
  - destruct H as [[C S]|[H _]].
    + intros E E'. destruct (by_normal_turn o o' n _ cs cs' (turn_id _ C S) E E') as (-> & -> & A). split; [exact O|exact A].
    + exfalso. apply Rltb_true in L. unfold n in L. rewrite normal_unit in L. unfold abs_tol in L. lra.
  - intros E E'. destruct (by_normal_turn o o' n _ cs cs' turn_up_z E E') as (-> & -> & A). split; [exact O|exact A].
Qed.
Lemma quad_turn_axes d p q r t cs cs' : ((c = 1 /\ s = 0) \/ not_level p q r) -> quad_csys p q r t = Some cs ->
  quad_csys (vadd d (turn_z c s p)) (vadd d (turn_z c s q)) (vadd d (turn_z c s r)) (vadd d (turn_z c s t)) = Some cs' ->
  cs_O cs' = vadd d (turn_z c s (cs_O cs)) /\ turned_axes cs cs'.
Proof.
  intros H. unfold quad_csys. rewrite normal_turn. set (n := shell_normal p q r). destruct (level_turn n) as [-> ->].
  set (o' := vdiv (vadd (vadd (vadd (vadd d _) _) _) _) 4). set (o := vdiv (vadd (vadd (vadd p q) r) t) 4).
  assert (O : o' = vadd d (turn_z c s o)) by (unfold o', o; apply vec3_eq; unfold vadd, turn_z, vdiv; cbn [vx vy vz]; field).
  destruct (Rltb (norm (vsub n (V3 0 0 1))) abs_tol || Rltb (norm (vadd n (V3 0 0 1))) abs_tol)%bool eqn:L.
  - destruct H as [[C S]|[H H']].
    + intros E E'. destruct (by_normal_turn o o' n _ cs cs' (turn_id _ C S) E E') as (-> & -> & A). split; [exact O|exact A].
    + exfalso. apply Bool.orb_true_iff in L as [L|L]; apply Rltb_true in L; unfold n in L; rewrite normal_unit in L; unfold abs_tol in L; lra.
  - intros E E'. destruct (by_normal_turn o o' n _ cs cs' turn_up_z E E') as (-> & -> & A). split; [exact O|exact A].
Qed.

(** ** One member *)
Lemma twin_ends m m' d b b' x : good m -> good m' ->
  In (n_name (b_ni b)) (dkeys (f_nodes m)) -> In (n_name (b_nj b)) (dkeys (f_nodes m)) ->
  In (n_name (b_ni b)) (dkeys (f_nodes m')) -> In (n_name (b_nj b)) (dkeys (f_nodes m')) ->
  n_name (b_ni b') = n_name (b_ni b) -> n_name (b_nj b') = n_name (b_nj b) ->
  n_loc (b_ni b') = vadd d (turn_z c s (n_loc (b_ni b))) -> n_loc (b_nj b') = vadd d (turn_z c s (n_loc (b_nj b))) ->
  upright (n_loc (b_ni b)) (n_loc (b_nj b)) (n_loc (b_ni b')) (n_loc (b_nj b')) ->
  let p := n_loc (b_ni b) in let q := n_loc (b_nj b) in let p' := n_loc (b_ni b') in let q' := n_loc (b_nj b') in
  ends_along (axis_x p' q') (axis_y p' q') (axis_z p' q') (beam_ends m' b' (spread m' (turned_by c s x)))
  = ends_along (axis_x p q) (axis_y p q) (axis_z p q) (beam_ends m b (spread m x)).
Proof.
  intros G G' I1 I2 I1' I2' N1 N2 L1 L2 UP p q p' q'. unfold p', q'. rewrite L1, L2 in *. fold p q in UP |- *.
  destruct (turn_axes d p q UP) as (-> & -> & ->). unfold beam_ends, ends_at. rewrite N1, N2.
  destruct (spread_disp m' (turned_by c s x) _ G' I1') as [-> ->]. destruct (spread_disp m' (turned_by c s x) _ G' I2') as [-> ->].
  destruct (spread_disp m x _ G I1) as [-> ->]. destruct (spread_disp m x _ G I2) as [-> ->].
  destruct (turned_dvec c s x (n_name (b_ni b))) as [-> ->]. destruct (turned_dvec c s x (n_name (b_nj b))) as [-> ->].
  unfold ends_along. cbn [d_i r_i d_j r_j]. rewrite !turn_along. reflexivity.
Qed.
End Turn.

(** ** Sums over dictionaries with the same keys *)
Lemma lsum_keyed {A B} (d : dict A) (d' : dict B) (g : string * A -> R) (g' : string * B -> R) :
  NoDup (dkeys d) -> NoDup (dkeys d') ->
  (forall k, match dget k d, dget k d' with Some v, Some v' => g (k, v) = g' (k, v') | None, None => True | _, _ => False end) ->
  lsum (map g d) = lsum (map g' d').
Proof.
  intros N N' H.
  assert (X : forall C (e : dict C) (h : string * C -> R), NoDup (dkeys e) ->
    lsum (map h e) = lsum (map (fun k => match dget k e with Some v => h (k, v) | None => 0 end) (dkeys e))).
  { intros C e h Ne. unfold dkeys. rewrite map_map. apply lsum_map_ext. intros [k v] I. cbn [fst].
    rewrite (in_dget_nodup _ _ _ Ne I). reflexivity. }
  rewrite (X _ d g N), (X _ d' g' N').
  assert (P : Permutation (dkeys d) (dkeys d')).
  { apply NoDup_Permutation; auto. intros k. rewrite !dget_in_keys. specialize (H k).
    destruct (dget k d), (dget k d'); try contradiction; split; intros [v0 E0]; try discriminate; eauto. }
  rewrite <- (lsum_perm _ _ (Permutation_map (fun k => match dget k d' with Some v => g' (k, v) | None => 0 end) P)).
  apply lsum_map_ext. intros k _. specialize (H k). destruct (dget k d), (dget k d'); try contradiction; auto.
Qed.

(** Sums over dictionaries of which the second has more keys. *)
Lemma lsum_keyed_le {A B} (d : dict A) (d' : dict B) (g : string * A -> R) (g' : string * B -> R) :
  NoDup (dkeys d) -> NoDup (dkeys d') ->
  (forall k, match dget k d, dget k d' with Some v, Some v' => g (k, v) <= g' (k, v') | None, Some v' => 0 <= g' (k, v') | None, None => True | Some _, None => False end) ->
  lsum (map g d) <= lsum (map g' d').
Proof.
  revert d'. induction d as [|[k v] d IH]; intros d' N N' H.
  - cbn. assert (X : forall kv, In kv d' -> 0 <= g' kv).
    { intros [k v] I. specialize (H k). cbn [dget] in H. rewrite (in_dget_nodup _ _ _ N' I) in H. exact H. }
    clear -X. induction d' as [|kv d' IH]; cbn; [lra|]. specialize (IH (fun kv I => X kv (or_intror I))). pose proof (X kv (or_introl eq_refl)). lra.
  - pose proof (H k) as Hk. cbn [dget] in Hk. rewrite String.eqb_refl in Hk. destruct (dget k d') as [v'|] eqn:E; [|contradiction].
    apply dget_some_in in E. apply in_split in E as (d1 & d2 & ->).
    cbn [map lsum]. rewrite map_app, lsum_app. cbn [map lsum].
    unfold dkeys in N, N'. cbn [map fst] in N. inversion N as [|? ? NI N0]; subst. rewrite map_app in N'. cbn [map fst] in N'.
    assert (N1 : NoDup (dkeys (d1 ++ d2))) by (unfold dkeys; rewrite map_app; apply (NoDup_remove_1 _ _ _ N')).
    pose proof (NoDup_remove_2 _ _ _ N') as NI'.
    specialize (IH (d1 ++ d2) N0 N1). rewrite map_app, lsum_app in IH. enough (lsum (map g d) <= lsum (map g' d1) + lsum (map g' d2)) by lra.
    apply IH. intros k0. specialize (H k0). cbn [dget] in H.
    assert (DD : forall v0, dget k0 (d1 ++ d2) = Some v0 <-> In (k0, v0) (d1 ++ d2)).
    { intros v0. split; [apply dget_some_in|apply (in_dget_nodup _ _ _ N1)]. }
    destruct (String.eqb_spec k0 k) as [EQ|NE]; [rewrite EQ in *|].
    + assert (E1 : dget k d = None).
      { destruct (dget k d) as [v1|] eqn:E1; [|reflexivity]. exfalso. apply NI. apply dget_some_in in E1. apply (in_map fst) in E1. exact E1. }
      assert (E2 : dget k (d1 ++ d2) = None).
      { destruct (dget k (d1 ++ d2)) as [v1|] eqn:E2; [|reflexivity]. exfalso. apply NI'. apply dget_some_in in E2. apply (in_map fst) in E2. rewrite map_app in E2. exact E2. }
      rewrite E1, E2. exact I.
    + assert (E3 : dget k0 (d1 ++ (k, v') :: d2) = dget k0 (d1 ++ d2)).
      { destruct (dget k0 (d1 ++ d2)) as [v1|] eqn:E2.
        - apply in_dget_nodup; [unfold dkeys; rewrite map_app; exact N'|]. apply dget_some_in in E2. apply in_app_or in E2. apply in_or_app. cbn. tauto.
        - destruct (dget k0 (d1 ++ (k, v') :: d2)) as [v1|] eqn:E3; [|reflexivity]. apply dget_some_in in E3.
          assert (I : In (k0, v1) (d1 ++ d2)) by (apply in_app_or in E3; apply in_or_app; destruct E3 as [I|[I|I]]; [auto|congruence|auto]).
          apply DD in I. discriminate. }
      rewrite E3 in H. exact H.
Qed.
Lemma lsum_keyed_more {A B} (d : dict A) (d' : dict B) (g : string * A -> R) (g' : string * B -> R) :
  NoDup (dkeys d) -> NoDup (dkeys d') ->
  (forall k, match dget k d, dget k d' with Some v, Some v' => g (k, v) = g' (k, v') | None, Some v' => g' (k, v') = 0 | None, None => True | Some _, None => False end) ->
  lsum (map g d) = lsum (map g' d').
Proof.
  intros N N' H. apply Rle_antisym; [apply lsum_keyed_le; auto; intros k; specialize (H k); destruct (dget k d), (dget k d'); auto; lra|].
  apply Ropp_le_cancel.
  assert (OP : forall C (l : list C) f, - lsum (map f l) = lsum (map (fun x => - f x) l)).
  { intros C l f. induction l as [|x l IH]; cbn; [ring|]. rewrite <- IH. ring. }
  rewrite !OP. apply lsum_keyed_le; auto. intros k. specialize (H k). destruct (dget k d), (dget k d'); auto; lra.
Qed.

Record based (c s : R) (d : vec3) (m m' : fem) : Prop := {
  bt_node : forall k n, dget k (f_nodes m) = Some n -> option_map n_loc (dget k (f_nodes m')) = Some (vadd d (turn_z c s (n_loc n)));
  bt_shell : forall k, option_map (fun s => (map n_name (sh_nodes s), sh_sec s)) (dget k (f_shells m'))
                     = option_map (fun s => (map n_name (sh_nodes s), sh_sec s)) (dget k (f_shells m)) }.
Record twin (c s : R) (d : vec3) (m m' : fem) : Prop := {
  tw_base : based c s d m m';
  tw_node : forall k, In k (dkeys (f_nodes m')) -> In k (dkeys (f_nodes m));
  tw_beam : forall k, option_map (fun b => (n_name (b_ni b), n_name (b_nj b), b_prop b)) (dget k (f_beams m'))
                    = option_map (fun b => (n_name (b_ni b), n_name (b_nj b), b_prop b)) (dget k (f_beams m)) }.

Lemma based_told c s d m m' t t' : holds m t -> holds m' t' ->
  (forall k n, t_node t k = Some n -> option_map fst (t_node t' k) = Some (vadd d (turn_z c s (fst n)))) -> (forall k, t_shell t' k = t_shell t k) ->
  based c s d m m'.
Proof.
  intros (N & _ & _ & _ & _ & _ & S) (N' & _ & _ & _ & _ & _ & S') A1 A4. split; intros k.
  - intros n E. specialize (A1 k). rewrite <- N, <- N', E in A1. specialize (A1 _ eq_refl). destruct (dget k (f_nodes m')); [exact A1|discriminate].
  - rewrite S, S'. apply A4.
Qed.
Lemma twin_told c s d m m' t t' : holds m t -> holds m' t' -> alike c s d t t' -> twin c s d m m'.
Proof.
  intros H H' [A1 A2 A3 A4]. split; [apply (based_told c s d m m' t t' H H'); [|exact A4]; intros k n E; rewrite A1, E; reflexivity| |]; intros k.
  { destruct H as (N & _). destruct H' as (N' & _). specialize (A1 k). rewrite <- N, <- N' in A1. rewrite !dget_in_keys. intros [v E]. rewrite E in A1.
    destruct (dget k (f_nodes m)); [eauto|discriminate]. }
  destruct H as (_ & _ & _ & _ & _ & B & _). destruct H' as (_ & _ & _ & _ & _ & B' & _). rewrite B, B'. apply A3.
Qed.

Section Based.
Variables (c s : R) (d : vec3) (m m' : fem).
Hypothesis U : c * c + s * s = 1.
Hypothesis G : good m.
Hypothesis G' : good m'.
Hypothesis TW : based c s d m m'.

Lemma based_keys k : In k (dkeys (f_nodes m)) -> In k (dkeys (f_nodes m')).
Proof.
  rewrite !dget_in_keys. intros [v E]. pose proof (bt_node _ _ _ _ _ TW k v E) as H. destruct (dget k (f_nodes m')); [eauto|discriminate].
Qed.
Lemma based_cur n n' : cur m n -> cur m' n' -> n_name n' = n_name n -> n_loc n' = vadd d (turn_z c s (n_loc n)).
Proof.
  intros (x & E & L) (x' & E' & L') N. rewrite <- L, <- L'. rewrite N in E'. pose proof (bt_node _ _ _ _ _ TW (n_name n) _ E) as H.
  rewrite E' in H. cbn in H. now apply some_inj in H.
Qed.
Lemma cur_key n m0 : cur m0 n -> In (n_name n) (dkeys (f_nodes m0)).
Proof. intros (x & E & _). apply dget_in_keys. eauto. Qed.

Lemma based_member k b b' : In (k, b) (f_beams m) -> In (k, b') (f_beams m') -> n_name (b_ni b') = n_name (b_ni b) -> n_name (b_nj b') = n_name (b_nj b) ->
  upright c s (n_loc (b_ni b)) (n_loc (b_nj b)) (vadd d (turn_z c s (n_loc (b_ni b)))) (vadd d (turn_z c s (n_loc (b_nj b)))) ->
  distance (n_loc (b_ni b')) (n_loc (b_nj b')) = distance (n_loc (b_ni b)) (n_loc (b_nj b))
  /\ forall x, let p := n_loc (b_ni b) in let q := n_loc (b_nj b) in let p' := n_loc (b_ni b') in let q' := n_loc (b_nj b') in
        ends_along (axis_x p' q') (axis_y p' q') (axis_z p' q') (beam_ends m' b' (spread m' (turned_by c s x)))
        = ends_along (axis_x p q) (axis_y p q) (axis_z p q) (beam_ends m b (spread m x)).
Proof.
  intros E E' H1 H2 UP.
  destruct G as (_ & _ & EC & _). destruct G' as (_ & _ & EC' & _). destruct (EC _ _ E) as [C1 C2]. destruct (EC' _ _ E') as [C1' C2'].
  pose proof (based_cur _ _ C1 C1' H1) as L1. pose proof (based_cur _ _ C2 C2' H2) as L2.
  pose proof (cur_key _ _ C1) as I1. pose proof (cur_key _ _ C2) as I2.
  split; [rewrite L1, L2; apply turn_distance, U|].
  intros x. apply (twin_ends c s U m m' d b b' x G G'); auto; try (apply based_keys; assumption).
  rewrite L1, L2. exact UP.
Qed.

(** ** Shells *)
Definition follows_exactly (ker : kernels) (sh : shell) : Prop := (c = 1 /\ s = 0 /\ (d = zero3 \/ place_blind ker)) \/
  exists n1 n2 n3 n4, sh_nodes sh = [n1; n2; n3; n4] /\ not_level (n_loc n1) (n_loc n2) (n_loc n3).
Definition follows (ker : kernels) (sh : shell) : Prop := follows_exactly ker sh \/
  (List.length (sh_nodes sh) = 4%nat /\ ss_type (sh_sec sh) = "membrane"%string /\ direction_blind ker).
Lemma local_turn cs cs' p p' : turned_axes c s cs cs' -> p' = turn_z c s p -> local_xy cs' p' = local_xy cs p.
Proof. intros (A & B & _) ->. unfold local_xy. rewrite A, B, !turn_dot by exact U. reflexivity. Qed.
Lemma local_moved cs cs' p : turned_axes c s cs cs' ->
  local_xy cs' (vadd d (turn_z c s p)) = slid (dot3 d (cs_x cs')) (dot3 d (cs_y cs')) (local_xy cs p).
Proof.
  intros (A & B & _). unfold local_xy, slid. rewrite A, B. rewrite <- (turn_dot c s U p (cs_x cs)), <- (turn_dot c s U p (cs_y cs)).
  f_equal; [|f_equal]; unfold dot3, vadd; cbn [vx vy vz]; ring.
Qed.
Lemma t9_moved E mu a b x1 y1 x2 y2 x3 y3 : t9_BDB E mu (slid a b [x1; y1; x2; y2; x3; y3]) = t9_BDB E mu [x1; y1; x2; y2; x3; y3].
Proof.
  assert (A : t9_area (slid a b [x1; y1; x2; y2; x3; y3]) = t9_area [x1; y1; x2; y2; x3; y3]) by (unfold t9_area, vnth, slid; cbn [nth Nat.mul Nat.add]; f_equal; ring).
  assert (B : t9_b (slid a b [x1; y1; x2; y2; x3; y3]) = t9_b [x1; y1; x2; y2; x3; y3]).
  { apply functional_extensionality. intros [|[|i]]; unfold t9_b, vnth, slid; cbn [nth Nat.mul Nat.add]; ring. }
  unfold t9_BDB, t9_B. rewrite A, B. reflexivity.
Qed.
Lemma moved_none xl : slid 0 0 xl = xl.
Proof.
  assert (H : forall n l, (List.length l <= n)%nat -> slid 0 0 l = l).
  { induction n as [|n IH]; intros [|x [|y l]] L; cbn [List.length] in L; try reflexivity; try lia.
    cbn [slid]. rewrite IH by lia. f_equal; [ring|f_equal; ring]. }
  apply (H _ xl (le_n _)).
Qed.
Lemma based_shell ker sh sh' x : follows_exactly ker sh ->
  shell_ok m (sh_name sh) sh -> shell_ok m' (sh_name sh') sh' -> (forall n, In n (sh_nodes sh) -> cur m n) -> (forall n, In n (sh_nodes sh') -> cur m' n) ->
  map n_name (sh_nodes sh') = map n_name (sh_nodes sh) -> sh_sec sh' = sh_sec sh ->
  List.length (sh_nodes sh') = List.length (sh_nodes sh)
  /\ (forall r q, shell_K ker sh' r q = shell_K ker sh r q)
  /\ (forall r, (r < 6 * List.length (sh_nodes sh))%nat -> shell_values m' sh' (spread m' (turned_by c s x)) r = shell_values m sh (spread m x) r).
Proof.
  intros FO [_ SH _] [_ SH' _] CU CU' NM SE.
  assert (LE : List.length (sh_nodes sh') = List.length (sh_nodes sh)) by (rewrite <- (map_length n_name), NM; apply map_length).
  assert (LC : map n_loc (sh_nodes sh') = map (fun n => vadd d (turn_z c s (n_loc n))) (sh_nodes sh)).
  { revert NM CU CU'. generalize (sh_nodes sh), (sh_nodes sh'). clear -TW. intros l. induction l as [|n l IH]; intros [|n' l'] E CU CU'; try discriminate; [reflexivity|].
    cbn in E. injection E as E1 E2. cbn. f_equal.
    - apply (based_cur n n'); [apply CU; now left|apply CU'; now left|exact E1].
    - apply IH; [exact E2|intros; apply CU; now right|intros; apply CU'; now right]. }
  split; [exact LE|].
  assert (KA : turned_axes c s (sh_csys sh) (sh_csys sh') /\ forall r q, shell_K ker sh' r q = shell_K ker sh r q).
  { destruct SH as [(n1 & n2 & n3 & E & T1 & A1)|(n1 & n2 & n3 & n4 & E & T1 & A1)];
    destruct SH' as [(p1 & p2 & p3 & E' & T1' & A1')|(p1 & p2 & p3 & p4 & E' & T1' & A1')]; rewrite E, E' in LE; cbn [List.length] in LE; try discriminate;
    pose proof LC as LC0; rewrite E, E' in LC0; cbn [map] in LC0;
    pose proof (f_equal (fun l => nth 0 l zero3) LC0) as L1; pose proof (f_equal (fun l => nth 1 l zero3) LC0) as L2; pose proof (f_equal (fun l => nth 2 l zero3) LC0) as L3;
    pose proof (f_equal (fun l => nth 3 l zero3) LC0) as L4; cbn [nth] in L1, L2, L3, L4; clear LC0.
    - destruct FO as [(HC & HS & BL)|(q1 & q2 & q3 & q4 & Q & _)]; [|rewrite E in Q; discriminate]. pose proof (conj HC HS) as CS.
      rewrite L1, L2, L3 in T1', A1'. destruct (tria_turn_axes c s U d _ _ _ _ _ (or_introl CS) T1 T1') as [O AX]. split; [exact AX|].
      assert (AR : sh_area sh' = sh_area sh).
      { rewrite A1, A1'. unfold tria_area. rewrite !turn_sub. destruct CS as [C S]. rewrite !(turn_id c s U _ C S). reflexivity. }
      intros r q. unfold shell_K. rewrite E, E'. cbn [List.length Nat.eqb]. unfold tria_K. rewrite SE, AR, E, E'. cbn [flat_map]. rewrite L1, L2, L3.
      rewrite !(local_moved _ _ _ AX). set (a := dot3 d (cs_x (sh_csys sh'))). set (b := dot3 d (cs_y (sh_csys sh'))).
      unfold local_xy. cbn [app].
      change (slid a b [dot3 (n_loc n1) (cs_x (sh_csys sh)); dot3 (n_loc n1) (cs_y (sh_csys sh))] ++ slid a b [dot3 (n_loc n2) (cs_x (sh_csys sh)); dot3 (n_loc n2) (cs_y (sh_csys sh))] ++ slid a b [dot3 (n_loc n3) (cs_x (sh_csys sh)); dot3 (n_loc n3) (cs_y (sh_csys sh))] ++ [])
        with (slid a b [dot3 (n_loc n1) (cs_x (sh_csys sh)); dot3 (n_loc n1) (cs_y (sh_csys sh)); dot3 (n_loc n2) (cs_x (sh_csys sh)); dot3 (n_loc n2) (cs_y (sh_csys sh)); dot3 (n_loc n3) (cs_x (sh_csys sh)); dot3 (n_loc n3) (cs_y (sh_csys sh))]).
      rewrite t9_moved. f_equal. f_equal. apply functional_extensionality. intros i. apply functional_extensionality. intros j. f_equal.
      destruct BL as [Z|BL].
      + assert (a = 0 /\ b = 0) as [-> ->] by (unfold a, b; rewrite Z; unfold dot3, zero3; cbn [vx vy vz]; split; ring). rewrite moved_none. reflexivity.
      + apply BL.
    - assert (NL : (c = 1 /\ s = 0) \/ not_level (n_loc n1) (n_loc n2) (n_loc n3)).
      { destruct FO as [(HC & HS & _)|(q1 & q2 & q3 & q4 & Q & N)]; [left; split; assumption|right]. rewrite E in Q. injection Q as <- <- <- <-. exact N. }
      rewrite L1, L2, L3, L4 in T1'. destruct (quad_turn_axes c s U d _ _ _ _ _ _ NL T1 T1') as [O AX]. split; [exact AX|].
      intros r q. unfold shell_K. rewrite E, E'. cbn [List.length Nat.eqb]. unfold quad_K. rewrite SE, E, E'. cbn [flat_map]. rewrite L1, L2, L3, L4, O.
      rewrite !turn_sub. rewrite !(local_turn _ _ _ _ AX eq_refl). reflexivity. }
  destruct KA as [AX KE]. split; [exact KE|].
  intros r Hr. unfold shell_values.
  pose proof (f_equal (fun l => nth_error l (r / 6)) NM) as NE. cbn beta in NE. rewrite !nth_error_map in NE.
  destruct (nth_error (sh_nodes sh) (r / 6)) as [n|] eqn:En, (nth_error (sh_nodes sh') (r / 6)) as [n'|] eqn:En'; try discriminate.
  - cbn in NE. apply some_inj in NE. rewrite NE. apply nth_error_In in En. pose proof (cur_key _ _ (CU _ En)) as IK.
    destruct (spread_disp m x _ G IK) as [-> ->]. apply based_keys in IK. destruct (spread_disp m' (turned_by c s x) _ G' IK) as [-> ->].
    destruct (turned_dvec c s x (n_name n)) as [-> ->]. destruct AX as (AX & AY & AZ).
    assert (AO : forall i, axis_of (sh_csys sh') i = turn_z c s (axis_of (sh_csys sh) i)) by (intros [|[|i]]; cbn [axis_of]; assumption).
    rewrite !AO, !turn_dot by exact U. reflexivity.
  - exfalso. apply nth_error_None in En. assert (r / 6 < List.length (sh_nodes sh))%nat by (apply Nat.div_lt_upper_bound; [discriminate|exact Hr]). lia.
Qed.

(** A membrane need not keep its axes: two frames with the same third axis differ by a turn in the plane. *)
Lemma frames_spin x y z x' y' : frame x y z -> frame x' y' z -> let a := dot3 x' x in let b := dot3 x' y in
  a * a + b * b = 1 /\ forall p, dot3 p x' = a * dot3 p x + b * dot3 p y /\ dot3 p y' = - b * dot3 p x + a * dot3 p y.
Proof.
  intros [(XX & YY & ZZ & XY & YZ & ZX) (CXY & CYZ & CZX)] [(XX' & YY' & ZZ' & XY' & YZ' & ZX') (CXY' & CYZ' & CZX')] a b.
  assert (E : forall p, p = vadd (vscale (dot3 p x) x) (vadd (vscale (dot3 p y) y) (vscale (dot3 p z) z))).
  { intros p. assert (I : vscale (dot3 x (cross y z)) p = vadd (vscale (dot3 p (cross y z)) x) (vadd (vscale (dot3 p (cross z x)) y) (vscale (dot3 p (cross x y)) z)))
      by (apply vec3_eq; unfold vadd, vscale, dot3, cross; cbn [vx vy vz]; ring).
    rewrite CYZ, CZX, CXY, XX in I. rewrite <- I. apply vec3_eq; cbn; ring. }
  assert (EX : x' = vadd (vscale a x) (vscale b y)).
  { rewrite (E x') at 1. fold a b. replace (dot3 x' z) with 0 by (rewrite <- ZX'; unfold dot3; ring). apply vec3_eq; cbn; ring. }
  assert (EY : y' = vadd (vscale (- b) x) (vscale a y)).
  { rewrite <- CZX', EX. transitivity (vadd (vscale a (cross z x)) (vscale b (cross z y))); [apply vec3_eq; cbn; ring|].
    rewrite CZX. replace (cross z y) with (vscale (-1) (cross y z)) by (apply vec3_eq; cbn; ring). rewrite CYZ. apply vec3_eq; cbn; ring. }
  split.
  - rewrite <- XX'. rewrite EX. transitivity (a * a * dot3 x x + 2 * a * b * dot3 x y + b * b * dot3 y y); [rewrite XX, XY, YY; ring|unfold dot3; cbn; ring].
  - intros p. rewrite EX, EY. split; unfold dot3; cbn; ring.
Qed.
Lemma by_normal_frame o n g cs : create_by_normal o n g = Some cs -> let w := vdiv n (norm n) in
  cs_O cs = o /\ frame (cs_x cs) (cs_y cs) (cs_z cs) /\ cs_z cs = vdiv w (norm w).
Proof.
  intros H w. unfold create_by_normal in H. fold w in H. destruct (_ || _)%bool in H; [discriminate|].
  set (u0 := cross (vdiv g (norm g)) w) in H. set (u := vdiv u0 (norm u0)) in H.
  destruct (cartesian_some _ _ _ _ H) as (F & O & _). split; [exact O|]. split; [exact F|].
  unfold cartesian in H. rewrite !vadd_vsub in H. destruct (Rltb (max_abs (cross u (cross w u))) abs_tol) eqn:T; [discriminate|]. apply some_inj in H. subst cs. cbn [cs_z].
  assert (P : dot3 u w = 0) by (unfold u, u0, dot3, cross, vdiv; cbn [vx vy vz]; unfold Rdiv; ring).
  assert (C : cross u (cross w u) = vscale (dot3 u u) w).
  { transitivity (vsub (vscale (dot3 u u) w) (vscale (dot3 u w) u)); [apply vec3_eq; unfold cross, vsub, vscale, dot3; cbn [vx vy vz]; ring|rewrite P; apply vec3_eq; cbn; ring]. }
  rewrite C in *. apply Rltb_false in T.
  assert (Q : 0 <= dot3 u u) by (unfold dot3; nra). assert (Q' : 0 < dot3 u u).
  { destruct (Req_dec (dot3 u u) 0) as [Z|NZ]; [|lra]. exfalso. rewrite Z in T. unfold max_abs, vscale, abs_tol in T. cbn [vx vy vz] in T. rewrite !Rmult_0_l, Rabs_R0 in T. unfold Rmax in T. repeat destruct (Rle_dec _ _) in T; lra. }
  assert (N : norm (vscale (dot3 u u) w) = dot3 u u * norm w).
  { unfold norm. replace (dot3 (vscale (dot3 u u) w) (vscale (dot3 u u) w)) with ((dot3 u u * dot3 u u) * dot3 w w) by (unfold dot3, vscale; cbn [vx vy vz]; ring).
    rewrite sqrt_mult_alt by nra. rewrite sqrt_square by lra. reflexivity. }
  rewrite N. set (k := dot3 u u) in *. assert (D : forall z, k * z / (k * norm w) = z / norm w).
  { intros z. unfold Rdiv. rewrite Rinv_mult. transitivity (k * / k * (z * / norm w)); [ring|rewrite Rinv_r by lra; ring]. }
  apply vec3_eq; unfold vdiv, vscale; cbn [vx vy vz]; apply D.
Qed.
Lemma quad_frames p q r t cs cs' : quad_csys p q r t = Some cs ->
  quad_csys (vadd d (turn_z c s p)) (vadd d (turn_z c s q)) (vadd d (turn_z c s r)) (vadd d (turn_z c s t)) = Some cs' ->
  cs_O cs' = vadd d (turn_z c s (cs_O cs)) /\ frame (cs_x cs) (cs_y cs) (cs_z cs) /\ frame (cs_x cs') (cs_y cs') (cs_z cs') /\ cs_z cs' = turn_z c s (cs_z cs).
Proof.
  unfold quad_csys. rewrite normal_turn by exact U. set (n := shell_normal p q r).
  set (o' := vdiv (vadd (vadd (vadd (vadd d _) _) _) _) 4). set (o := vdiv (vadd (vadd (vadd p q) r) t) 4).
  assert (O : o' = vadd d (turn_z c s o)) by (unfold o', o; apply vec3_eq; unfold vadd, turn_z, vdiv; cbn [vx vy vz]; field).
  assert (X : forall g g' cs cs', create_by_normal o n g = Some cs -> create_by_normal o' (turn_z c s n) g' = Some cs' ->
    cs_O cs' = vadd d (turn_z c s (cs_O cs)) /\ frame (cs_x cs) (cs_y cs) (cs_z cs) /\ frame (cs_x cs') (cs_y cs') (cs_z cs') /\ cs_z cs' = turn_z c s (cs_z cs)).
  { intros g g' k k' H H'. destruct (by_normal_frame _ _ _ _ H) as (A & B & D). destruct (by_normal_frame _ _ _ _ H') as (A' & B' & D').
    split; [rewrite A, A'; exact O|]. split; [exact B|]. split; [exact B'|]. rewrite D, D'. rewrite !turn_norm, <- turn_vdiv, turn_norm by exact U. symmetry. apply turn_vdiv. }
  destruct (_ || _)%bool; destruct (_ || _)%bool; apply X.
Qed.
Lemma based_nodes_loc sh sh' : (forall n, In n (sh_nodes sh) -> cur m n) -> (forall n, In n (sh_nodes sh') -> cur m' n) ->
  map n_name (sh_nodes sh') = map n_name (sh_nodes sh) -> map n_loc (sh_nodes sh') = map (fun n => vadd d (turn_z c s (n_loc n))) (sh_nodes sh).
Proof.
  intros CU CU' NM. revert NM CU CU'. generalize (sh_nodes sh), (sh_nodes sh'). clear -TW. intros l. induction l as [|n l IH]; intros [|n' l'] E CU CU'; try discriminate; [reflexivity|].
  cbn in E. injection E as E1 E2. cbn. f_equal.
  - apply (based_cur n n'); [apply CU; now left|apply CU'; now left|exact E1].
  - apply IH; [exact E2|intros; apply CU; now right|intros; apply CU'; now right].
Qed.
Lemma turn_frame x y z : frame x y z -> frame (turn_z c s x) (turn_z c s y) (turn_z c s z).
Proof.
  intros [(A & B & C & D & E & F) (G1 & G2 & G3)]. split; [repeat split; rewrite turn_dot by exact U; assumption|].
  repeat split; rewrite turn_cross by exact U; congruence.
Qed.
Lemma based_membrane ker sh sh' x y : List.length (sh_nodes sh) = 4%nat -> ss_type (sh_sec sh) = "membrane"%string -> direction_blind ker ->
  shell_ok m (sh_name sh) sh -> shell_ok m' (sh_name sh') sh' -> (forall n, In n (sh_nodes sh) -> cur m n) -> (forall n, In n (sh_nodes sh') -> cur m' n) ->
  map n_name (sh_nodes sh') = map n_name (sh_nodes sh) -> sh_sec sh' = sh_sec sh ->
  shell_work ker m' (spread m' (turned_by c s x)) (spread m' (turned_by c s y)) sh' = shell_work ker m (spread m x) (spread m y) sh.
Proof.
  intros L4 TY DB [_ SH _] [_ SH' _] CU CU' NM SE. pose proof (based_nodes_loc sh sh' CU CU' NM) as LC.
  assert (LE : List.length (sh_nodes sh') = 4%nat) by (rewrite <- L4, <- (map_length n_name), NM; apply map_length).
  destruct SH as [(n1 & n2 & n3 & E & T1 & A1)|(n1 & n2 & n3 & n4 & E & T1 & A1)]; [rewrite E in L4; discriminate|].
  destruct SH' as [(p1 & p2 & p3 & E' & T1' & A1')|(p1 & p2 & p3 & p4 & E' & T1' & A1')]; [rewrite E' in LE; discriminate|].
  pose proof LC as LC0; rewrite E, E' in LC0; cbn [map] in LC0;
  pose proof (f_equal (fun l => nth 0 l zero3) LC0) as L1; pose proof (f_equal (fun l => nth 1 l zero3) LC0) as L2; pose proof (f_equal (fun l => nth 2 l zero3) LC0) as L3;
  pose proof (f_equal (fun l => nth 3 l zero3) LC0) as L5; cbn [nth] in L1, L2, L3, L5; clear LC0.
  rewrite L1, L2, L3, L5 in T1'. destruct (quad_frames _ _ _ _ _ _ T1 T1') as (O & F & F' & Z).
  set (cs := sh_csys sh) in *. set (cs' := sh_csys sh') in *. pose proof (turn_frame _ _ _ F) as FT. rewrite Z in F'.
  destruct (frames_spin _ _ _ _ _ FT F') as [AB SP]. set (a := dot3 (cs_x cs') (turn_z c s (cs_x cs))) in *. set (b := dot3 (cs_x cs') (turn_z c s (cs_y cs))) in *.
  assert (SPT : forall p, dot3 (turn_z c s p) (cs_x cs') = a * dot3 p (cs_x cs) + b * dot3 p (cs_y cs) /\ dot3 (turn_z c s p) (cs_y cs') = - b * dot3 p (cs_x cs) + a * dot3 p (cs_y cs)).
  { intros p. destruct (SP (turn_z c s p)) as [-> ->]. rewrite !turn_dot by exact U. split; reflexivity. }
  assert (ND : forall z, In z (sh_nodes sh) -> forall v, disp_at (spread m' (turned_by c s v)) (num m' (n_name z)) = turn_z c s (disp_at (spread m v) (num m (n_name z)))
    /\ rot_at (spread m' (turned_by c s v)) (num m' (n_name z)) = turn_z c s (rot_at (spread m v) (num m (n_name z)))).
  { intros z Hz v. pose proof (cur_key _ _ (CU _ Hz)) as IK. destruct (spread_disp m v _ G IK) as [-> ->]. apply based_keys in IK.
    destruct (spread_disp m' (turned_by c s v) _ G' IK) as [-> ->]. apply turned_dvec. }
  assert (VA : forall v i, (i < 12)%nat -> membrane_q (shell_values m' sh' (spread m' (turned_by c s v))) i = spin_membrane a (- b) (membrane_q (shell_values m sh (spread m v))) i).
  { intros v. 
    assert (N4 : n_name p1 = n_name n1 /\ n_name p2 = n_name n2 /\ n_name p3 = n_name n3 /\ n_name p4 = n_name n4) by (rewrite E, E' in NM; cbn in NM; injection NM; auto).
    destruct N4 as (N1 & N2 & N3 & N4).
    assert (VJ : forall j z z', nth_error (sh_nodes sh) j = Some z -> nth_error (sh_nodes sh') j = Some z' -> n_name z' = n_name z ->
      shell_values m' sh' (spread m' (turned_by c s v)) (6 * j) = a * shell_values m sh (spread m v) (6 * j) + b * shell_values m sh (spread m v) (6 * j + 1)
      /\ shell_values m' sh' (spread m' (turned_by c s v)) (6 * j + 1) = - b * shell_values m sh (spread m v) (6 * j) + a * shell_values m sh (spread m v) (6 * j + 1)
      /\ shell_values m' sh' (spread m' (turned_by c s v)) (6 * j + 5) = shell_values m sh (spread m v) (6 * j + 5)).
    { intros j z z' Hz Hz' HN. pose proof (nth_error_In _ _ Hz) as Iz. destruct (ND z Iz v) as [D1 D2].
      assert (Q0 : ((6 * j) / 6 = j)%nat) by (rewrite Nat.mul_comm; apply Nat.div_mul; discriminate).
      assert (Q : forall k, (k < 6)%nat -> ((6 * j + k) / 6 = j)%nat /\ ((6 * j + k) mod 6 = k)%nat).
      { intros k Hk. split; [rewrite (Nat.mul_comm 6 j), Nat.div_add_l by discriminate; rewrite Nat.div_small by exact Hk; lia|].
        rewrite Nat.add_comm, (Nat.mul_comm 6 j), Nat.mod_add by discriminate. apply Nat.mod_small; exact Hk. }
      assert (M0 : ((6 * j) mod 6 = 0)%nat) by (rewrite Nat.mul_comm; apply Nat.mod_mul; discriminate).
      unfold shell_values. rewrite Q0, M0. destruct (Q 1%nat ltac:(lia)) as [-> ->]. destruct (Q 5%nat ltac:(lia)) as [-> ->].
      rewrite Hz, Hz', HN, D1, D2. cbn [Nat.ltb Nat.leb Nat.sub axis_of]. fold cs cs'.
      assert (CM : forall u w, dot3 u w = dot3 w u) by (intros; unfold dot3; ring).
      rewrite !(CM (cs_x cs')), !(CM (cs_y cs')), !(CM (cs_x cs)), !(CM (cs_y cs)).
      destruct (SPT (disp_at (spread m v) (num m (n_name z)))) as [-> ->]. split; [reflexivity|]. split; [reflexivity|].
      rewrite Z, turn_dot by exact U. reflexivity. }
    destruct (VJ 0%nat n1 p1) as (W00 & W01 & W05); [rewrite E; reflexivity|rewrite E'; reflexivity|exact N1|].
    destruct (VJ 1%nat n2 p2) as (W10 & W11 & W15); [rewrite E; reflexivity|rewrite E'; reflexivity|exact N2|].
    destruct (VJ 2%nat n3 p3) as (W20 & W21 & W25); [rewrite E; reflexivity|rewrite E'; reflexivity|exact N3|].
    destruct (VJ 3%nat n4 p4) as (W30 & W31 & W35); [rewrite E; reflexivity|rewrite E'; reflexivity|exact N4|].
    intros i Hi. unfold spin_membrane, membrane_q. cbn [Nat.mul Nat.add] in *.
    do 12 (destruct i as [|i]; [cbn [Nat.modulo Nat.divmod Nat.div fst snd Nat.sub pred Nat.mul Nat.add]; first [rewrite W00|rewrite W01|rewrite W05|rewrite W10|rewrite W11|rewrite W15|rewrite W20|rewrite W21|rewrite W25|rewrite W30|rewrite W31|rewrite W35]; ring|]). lia. }
  unfold shell_work. rewrite LE, L4. unfold shell_K. rewrite LE, L4. cbn [Nat.eqb]. unfold quad_K. rewrite SE, TY. cbn [String.eqb Ascii.eqb Bool.eqb orb].
  rewrite !place_quad_form, !form_zero, !Rplus_0_r.
  match goal with |- rsum _ (fun i => rsum _ (fun j => _ * k_gq12 ker ?e ?mu ?t ?xl' i j * _)) = rsum _ (fun i0 => rsum _ (fun j0 => _ * k_gq12 ker _ _ _ ?xl i0 j0 * _)) =>
    assert (XL : xl' = spin a (- b) xl) end.
  { rewrite E, E'. cbn [flat_map]. rewrite L1, L2, L3, L5. fold cs cs'. rewrite O, !turn_sub. unfold local_xy. cbn [app spin].
    destruct (SPT (vsub (n_loc n1) (cs_O cs))) as [-> ->]. destruct (SPT (vsub (n_loc n2) (cs_O cs))) as [-> ->].
    destruct (SPT (vsub (n_loc n3) (cs_O cs))) as [-> ->]. destruct (SPT (vsub (n_loc n4) (cs_O cs))) as [-> ->].
    assert (MI : forall u v, a * u + b * v = a * u - - b * v) by (intros; ring). rewrite !MI. reflexivity. }
  rewrite XL. set (xl := flat_map _ _). 
  transitivity (SpecKernel.work 12 (k_gq12 ker (m_E (ss_mat (sh_sec sh))) (m_mu (ss_mat (sh_sec sh))) (ss_t (sh_sec sh)) (spin a (- b) xl))
     (spin_membrane a (- b) (membrane_q (shell_values m sh (spread m x)))) (spin_membrane a (- b) (membrane_q (shell_values m sh (spread m y))))).
  - unfold SpecKernel.work. apply rsum_ext. intros i Hi. apply rsum_ext. intros j Hj. rewrite !VA by assumption. reflexivity.
  - apply DB; [lra|]. unfold xl. rewrite E. reflexivity.
Qed.

Definition shells_follow (ker : kernels) : Prop := forall k sh, In (k, sh) (f_shells m) -> follows ker sh.
Lemma shells_stay ker : c = 1 -> s = 0 -> d = zero3 -> shells_follow ker.
Proof. intros C S D k sh _. left. left. auto. Qed.
Lemma based_shells ker x y : shells_follow ker ->
  lsum (map (shell_work ker m' (spread m' (turned_by c s x)) (spread m' (turned_by c s y))) (dvals (f_shells m')))
  = lsum (map (shell_work ker m (spread m x) (spread m y)) (dvals (f_shells m))).
Proof.
  intros H. unfold dvals. rewrite !map_map. symmetry. apply lsum_keyed; [apply G|apply G'|].
  intros k. pose proof (bt_shell _ _ _ _ _ TW k) as T. destruct (dget k (f_shells m)) as [sh|] eqn:E, (dget k (f_shells m')) as [sh'|] eqn:E'; try discriminate; [|exact I].
  cbn in T. apply some_inj in T.
  pose proof (f_equal fst T) as T1. pose proof (f_equal snd T) as T2. cbn in T1, T2. apply dget_some_in in E, E'. pose proof (H _ _ E) as HF.
  assert (SO : shell_ok m (sh_name sh) sh) by (pose proof (wf_shell _ (proj1 G) _ _ E) as O; rewrite (so_name _ _ _ O); exact O).
  assert (SO' : shell_ok m' (sh_name sh') sh') by (pose proof (wf_shell _ (proj1 G') _ _ E') as O; rewrite (so_name _ _ _ O); exact O).
  assert (CU : forall n, In n (sh_nodes sh) -> cur m n) by (intros n; apply (proj2 (proj2 (proj2 G)) _ _ _ E)).
  assert (CU' : forall n, In n (sh_nodes sh') -> cur m' n) by (intros n; apply (proj2 (proj2 (proj2 G')) _ _ _ E')).
  cbn [snd]. destruct HF as [HF|(L4 & TY & DB)]; [|symmetry; apply (based_membrane ker sh sh' x y); assumption].
  destruct (based_shell ker sh sh' x HF SO SO' CU CU' T1 T2) as (LE & KE & VX).
  destruct (based_shell ker sh sh' y HF SO SO' CU CU' T1 T2) as (_ & _ & VY).
  unfold shell_work. rewrite LE. apply rsum_ext. intros r Hr. apply rsum_ext. intros q Hq. rewrite KE, VX, VY by assumption. reflexivity.
Qed.

Lemma based_nodes p p' x : (forall k, dget k (p_nodal p') = option_map (turn_six c s) (dget k (p_nodal p))) ->
  (forall k, In k (dkeys (f_nodes m')) -> In k (dkeys (f_nodes m)) \/ dget k (p_nodal p) = None) ->
  lsum (map (node_power m' p' (spread m' (turned_by c s x))) (dkeys (f_nodes m'))) = lsum (map (node_power m p (spread m x)) (dkeys (f_nodes m))).
Proof.
  intros HN HK. unfold dkeys at 1 2. rewrite !map_map. symmetry. apply lsum_keyed_more; [apply G|apply G'|].
  intros k. destruct (dget k (f_nodes m)) as [n|] eqn:E, (dget k (f_nodes m')) as [n'|] eqn:E'; cbn [fst]; [| | |exact I].
  - assert (Hk : In k (dkeys (f_nodes m))) by (apply dget_in_keys; eauto). unfold node_power.
    destruct (spread_disp m x _ G Hk) as [-> ->]. apply based_keys in Hk. destruct (spread_disp m' (turned_by c s x) _ G' Hk) as [-> ->].
    destruct (turned_dvec c s x k) as [-> ->].
    assert (F : node_force p' k = turn_z c s (node_force p k) /\ node_moment p' k = turn_z c s (node_moment p k)).
    { unfold node_force, node_moment, triple, load_entry. rewrite HN. destruct (dget k (p_nodal p)); cbn [option_map]; split; apply vec3_eq; cbn; try reflexivity; ring. }
    destruct F as [-> ->]. rewrite !turn_dot by exact U. reflexivity.
  - pose proof (bt_node _ _ _ _ _ TW k n E) as H. rewrite E' in H. discriminate.
  - destruct (HK k) as [H|H]; [apply dget_in_keys; eauto|apply dget_in_keys in H as [v H]; congruence|].
    unfold node_power, node_force, node_moment, triple, load_entry. rewrite HN, H. cbn. unfold dot3. cbn [vx vy vz nth]. ring.
Qed.
End Based.

Section Twin.
Variables (c s : R) (d : vec3) (m m' : fem).
Hypothesis U : c * c + s * s = 1.
Hypothesis G : good m.
Hypothesis G' : good m'.
Hypothesis TW : twin c s d m m'.
Definition tilted : Prop := forall k b, In (k, b) (f_beams m) ->
  upright c s (n_loc (b_ni b)) (n_loc (b_nj b)) (vadd d (turn_z c s (n_loc (b_ni b)))) (vadd d (turn_z c s (n_loc (b_nj b)))).
Hypothesis TI : tilted.

Lemma twin_keys k : In k (dkeys (f_nodes m)) <-> In k (dkeys (f_nodes m')).
Proof. split; [apply (based_keys c s d m m' (tw_base _ _ _ _ _ TW))|apply (tw_node _ _ _ _ _ TW)]. Qed.
Lemma twin_beam k : match dget k (f_beams m), dget k (f_beams m') with
  | Some b, Some b' => b_prop b' = b_prop b
     /\ distance (n_loc (b_ni b')) (n_loc (b_nj b')) = distance (n_loc (b_ni b)) (n_loc (b_nj b))
     /\ forall x, let p := n_loc (b_ni b) in let q := n_loc (b_nj b) in let p' := n_loc (b_ni b') in let q' := n_loc (b_nj b') in
        ends_along (axis_x p' q') (axis_y p' q') (axis_z p' q') (beam_ends m' b' (spread m' (turned_by c s x)))
        = ends_along (axis_x p q) (axis_y p q) (axis_z p q) (beam_ends m b (spread m x))
  | None, None => True | _, _ => False end.
Proof.
  pose proof (tw_beam _ _ _ _ _ TW k) as H. destruct (dget k (f_beams m)) as [b|] eqn:E, (dget k (f_beams m')) as [b'|] eqn:E'; try discriminate; [|exact I].
  cbn in H. apply some_inj in H. apply dget_some_in in E, E'.
  pose proof (f_equal (fun z => fst (fst z)) H) as H1. pose proof (f_equal (fun z => snd (fst z)) H) as H2. pose proof (f_equal snd H) as H3. cbn in H1, H2, H3.
  destruct (based_member c s d m m' U G G' (tw_base _ _ _ _ _ TW) k b b' E E' H1 H2 (TI _ _ E)) as [D V]. auto.
Qed.

Lemma twin_beams x y : lsum (map (beam_work m' (spread m' (turned_by c s x)) (spread m' (turned_by c s y))) (dvals (f_beams m')))
  = lsum (map (beam_work m (spread m x) (spread m y)) (dvals (f_beams m))).
Proof.
  unfold dvals. rewrite !map_map. symmetry. apply lsum_keyed; [apply G|apply G'|].
  intros k. pose proof (twin_beam k) as H. destruct (dget k (f_beams m)), (dget k (f_beams m')); try contradiction; [|exact I].
  destruct H as (P & D & E). cbn [snd]. unfold beam_work. rewrite (E x), (E y), P, D. reflexivity.
Qed.

Lemma twin_shells ker x y : shells_follow c s d m ker ->
  lsum (map (shell_work ker m' (spread m' (turned_by c s x)) (spread m' (turned_by c s y))) (dvals (f_shells m')))
  = lsum (map (shell_work ker m (spread m x) (spread m y)) (dvals (f_shells m))).
Proof. apply (based_shells c s d m m' U G G' (tw_base _ _ _ _ _ TW)). Qed.

(** ** Loads *)
Lemma twin_power p p' x :
  (forall k, dget k (p_nodal p') = option_map (turn_six c s) (dget k (p_nodal p))) ->
  (forall k, dget k (p_dist p') = dget k (p_dist p)) -> (forall k, dget k (p_conc p') = dget k (p_conc p)) ->
  pattern_power m' p' (spread m' (turned_by c s x)) = pattern_power m p (spread m x).
Proof.
  intros HN HD HC. unfold pattern_power. f_equal.
  - apply (based_nodes c s d m m' U G G' (tw_base _ _ _ _ _ TW)); [assumption|]. intros k Hk. left. apply twin_keys, Hk.
  - symmetry. apply lsum_keyed; [apply G|apply G'|].
    intros k. pose proof (twin_beam k) as H. destruct (dget k (f_beams m)), (dget k (f_beams m')); try contradiction; [|exact I].
    destruct H as (P & D & E). unfold member_power. cbn [fst snd]. rewrite (E x), D. unfold pat_beam_f. rewrite HD, HC. reflexivity.
Qed.
End Twin.
