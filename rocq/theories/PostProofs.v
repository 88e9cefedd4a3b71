(** Proofs about displacement and deformation results. *)
From Coq Require Import Reals Lra Lia List String Arith Bool Sorting.Sorted.
From Verif Require Import Base BaseFacts Csys Sections Element Load FeModel Assembly Solver Post Api SpecApi ApiFacts
  WfFacts HidFacts ApiProofs1 SpecElim ElimFacts SpecGeom CsysFacts SpecBeam BeamFacts AsmFacts SpecAsm AsmProofs AsmTotal AsmProofs2 SpecPost.
Import ListNotations.
Local Open Scope R_scope.

Lemma slice_nth a n (d : list R) k : (k < n)%nat -> nth_error (slice a n d) k = nth_error d (a + k).
Proof.
  intros H. unfold slice.
  assert (F : forall (l : list R) n k, (k < n)%nat -> nth_error (firstn n l) k = nth_error l k).
  { induction l as [|x l IH]; intros [|m] [|j] L; simpl; try lia; auto. apply IH; lia. }
  rewrite F by exact H. clear F H. revert d. induction a as [|a IH]; intros d; [reflexivity|].
  destruct d as [|x d]; [destruct k; reflexivity|]. cbn [skipn]. rewrite IH. reflexivity.
Qed.

Lemma c42_block ext ops n i c a d : never_readds_nodes ext ops ->
  let w := final ext init ops in
  read_asb w = Some a -> read_disp w c = Some d -> nth_error (model_node_names (a_model a)) i = Some n ->
  exists v, answer ext w (OpNodalDisp n c) = RVec v /\ block_of i d v.
Proof.
  intros N w Ha Hd Hi. pose proof (c01_numbering_assembled ext ops N a Ha i n Hi) as H.
  exists (slice (i*6) 6 d). unfold answer. cbn [step snd]. rewrite Ha, Hd. cbn [bindO].
  unfold resolve_nodal_displacement. rewrite H. cbn [bindO]. split; [reflexivity|]. split.
  - unfold slice. rewrite firstn_length. lia.
  - intros k Hk. rewrite slice_nth by exact Hk. f_equal. lia.
Qed.

Lemma c42_unknown ext w n c a : read_asb w = Some a -> dget n (f_hnode (a_model a)) = None ->
  answer ext w (OpNodalDisp n c) = RNone.
Proof.
  intros Ha Hn. unfold answer. cbn [step snd]. rewrite Ha. cbn [bindO]. destruct (read_disp w c); [|reflexivity].
  cbn [bindO]. unfold resolve_nodal_displacement, model_node_hid. rewrite Hn. reflexivity.
Qed.

Lemma answer_disp ext w n c v : answer ext w (OpNodalDisp n c) = RVec v <->
  bindO (read_asb w) (fun a => bindO (read_disp w c) (fun d => resolve_nodal_displacement a d n)) = Some v.
Proof.
  unfold answer. cbn [step snd]. destruct (bindO (read_asb w) _) as [u|] eqn:E; cbn [ret snd].
  - split; intros H; [injection H as ->; reflexivity|injection H as ->; reflexivity].
  - split; discriminate.
Qed.

Lemma c42_all ext w c t : answer ext w (OpAllNodalDisp c) = RDict t ->
  answer ext w OpNodeNames = RNames (map fst t)
  /\ forall n v, In (n, v) t -> answer ext w (OpNodalDisp n c) = RVec v.
Proof.
  unfold answer at 1. cbn [step snd].
  destruct (read_asb w) as [a|] eqn:Ha; [|discriminate]. cbn [bindO].
  destruct (mapM _ _) as [t'|] eqn:E; [|discriminate]. cbn [ret snd]. intros H. injection H as ->.
  assert (G : forall l t, mapM (fun n => bindO (read_disp w c) (fun d => bindO (resolve_nodal_displacement a d n) (fun v => Some (n, v)))) l = Some t ->
    map fst t = l /\ forall n v, In (n, v) t -> answer ext w (OpNodalDisp n c) = RVec v).
  { induction l as [|n l IH]; intros u M.
    - injection M as <-. split; [reflexivity|easy].
    - cbn [mapM] in M. destruct (read_disp w c) as [d|] eqn:Hd; [|discriminate]. cbn [bindO] in M.
      destruct (resolve_nodal_displacement a d n) as [v|] eqn:R; [|discriminate]. cbn [bindO] in M.
      match type of M with match ?x with _ => _ end = _ => destruct x as [u'|] eqn:M' end; [|discriminate].
      injection M as <-. destruct (IH _ M') as [F1 F2]. cbn [map fst]. split; [now rewrite F1|].
      intros n' v' [X|X]; [|now apply F2]. injection X as <- <-. apply answer_disp. rewrite Ha, Hd. exact R. }
  destruct (G _ _ E) as [F1 F2]. split; [|exact F2]. rewrite F1. reflexivity.
Qed.

Lemma c42_all_answers ext w c l a : answer ext w OpNodeNames = RNames l -> read_asb w = Some a ->
  (forall n, In n l -> exists v, answer ext w (OpNodalDisp n c) = RVec v) ->
  exists t, answer ext w (OpAllNodalDisp c) = RDict t.
Proof.
  intros Hl Ha H. injection Hl as Hl. unfold answer. cbn [step snd]. rewrite Ha. cbn [bindO].
  match goal with |- context [mapM ?f ?x] => assert (G : exists t, mapM f x = Some t) end.
  { rewrite Hl. clear Hl. induction l as [|n l IH]; [eexists; reflexivity|].
    destruct (H n (or_introl eq_refl)) as [v Hv]. apply answer_disp in Hv. rewrite Ha in Hv. cbn [bindO] in Hv.
    destruct IH as [t Ht]; [intros; apply H; now right|].
    cbn [mapM]. destruct (read_disp w c) as [d|]; [|discriminate]. cbn [bindO] in Hv |- *. rewrite Hv. cbn [bindO].
    cbn [bindO] in Ht. rewrite Ht. eexists; reflexivity. }
  destruct G as [t ->]. eexists; reflexivity.
Qed.

(** ** Deformations *)
Lemma filter_mask n p q : (p < q)%nat -> (q * 6 + 6 <= n)%nat ->
  filter (fun i => memb i (seq (p*6) 6 ++ seq (q*6) 6)) (seq 0 n) = seq (p*6) 6 ++ seq (q*6) 6.
Proof.
  intros H L. apply strict_unique.
  - apply filter_strict, seq_strict.
  - assert (A : forall l m, StronglySorted lt l -> StronglySorted lt m -> (forall x y, In x l -> In y m -> (x < y)%nat) -> StronglySorted lt (l ++ m)).
    { induction l as [|x l IH]; intros m S1 S2 X; [exact S2|]. apply StronglySorted_inv in S1 as [S1 F]. cbn [app]. constructor.
      - apply IH; auto. intros; apply X; [now right|auto].
      - apply Forall_app. split; [exact F|]. apply Forall_forall. intros y Hy. apply X; [now left|auto]. }
    apply A; [apply seq_strict|apply seq_strict|]. intros x y X Y. apply in_seq in X, Y. lia.
  - intros x. rewrite filter_In, memb_spec, !in_app_iff, !in_seq. lia.
Qed.

Lemma mask_swap p q x : memb x (seq (q*6) 6 ++ seq (p*6) 6) = memb x (seq (p*6) 6 ++ seq (q*6) 6).
Proof. unfold memb. rewrite !existsb_app. apply orb_comm. Qed.

Definition picked (p q : nat) (d : list R) : list R := map (fun i => nth i d 0) (seq (p*6) 6 ++ seq (q*6) 6).
Lemma pick_lt p q d : (p < q)%nat -> (q * 6 + 6 <= List.length d)%nat ->
  pick (seq (p*6) 6 ++ seq (q*6) 6) d = picked p q d.
Proof. intros H L. unfold pick, picked. rewrite filter_mask by assumption. reflexivity. Qed.
Lemma pick_gt p q d : (q < p)%nat -> (p * 6 + 6 <= List.length d)%nat ->
  pick (seq (p*6) 6 ++ seq (q*6) 6) d = picked q p d.
Proof.
  intros H L. rewrite <- pick_lt by assumption. unfold pick. f_equal. apply filter_ext. intros x. apply mask_swap.
Qed.

(** What the resolver computes from ordered end values. *)
Definition shape (l loc : R) (e : ends) : list R :=
  [ (1 - loc) / 2 * vx (d_i e) + (1 + loc) / 2 * vx (d_j e);
    (1 - 3*loc^2 + 2*loc^3) * vy (d_i e) + (loc - 2*loc^2 + loc^3) * l * vz (r_i e)
      + (3*loc^2 - 2*loc^3) * vy (d_j e) + (loc^3 - loc^2) * l * vz (r_j e);
    - (1 - 3*loc^2 + 2*loc^3) * vz (d_i e) + (loc - 2*loc^2 + loc^3) * l * vy (r_i e)
      - (3*loc^2 - 2*loc^3) * vz (d_j e) + (loc^3 - loc^2) * l * vy (r_j e);
    (1 - loc) / 2 * vx (r_i e) + (1 + loc) / 2 * vx (r_j e);
    (6*loc^2 - 6*loc) / l * vy (d_i e) + (1 - 4*loc + 3*loc^2) * vz (r_i e)
      + (6*loc - 6*loc^2) / l * vy (d_j e) + (3*loc^2 - 2*loc) * vz (r_j e);
    - ((6*loc^2 - 6*loc) / l) * vz (d_i e) + (1 - 4*loc + 3*loc^2) * vy (r_i e)
      - (6*loc - 6*loc^2) / l * vz (d_j e) + (3*loc^2 - 2*loc) * vy (r_j e) ].

Lemma picked_nth p q d k : (k < 12)%nat -> nth k (picked p q d) 0 = nth (scat2 p q k) d 0.
Proof.
  intros H. unfold picked, scat2. do 12 (destruct k as [|k]; [cbn; f_equal; lia|]). lia.
Qed.

Lemma deformation_shape l loc c p q d : l <> 0 ->
  let dd := mat_list 12 (blockdiag (cs_T c)) (picked p q d) in
  let N := interpolate l loc in let N_ := interpolate1 l loc in
  [ ldot (slice 0 2 N) (pick [0;6]%nat dd); ldot (slice 2 4 N) (pick [1;5;7;11]%nat dd);
    ldot (slice 6 4 N) (pick [2;4;8;10]%nat dd); ldot (skipn 10 N) (pick [3;9]%nat dd);
    ldot (slice 2 4 N_) (pick [1;5;7;11]%nat dd); ldot (slice 6 4 N_) (pick [2;4;8;10]%nat dd) ]
  = shape l loc (ends_along (cs_x c) (cs_y c) (cs_z c) (ends_at (fun k => nth k d 0) p q)).
Proof.
  intros Hl. cbv zeta.
  assert (E : mat_list 12 (blockdiag (cs_T c)) (picked p q d)
     = vec12 (ends_along (cs_x c) (cs_y c) (cs_z c) (ends_at (fun k => nth k d 0) p q))).
  { unfold mat_list. transitivity (map (fun a => mvec 12 (blockdiag (cs_T c)) (fun k => nth (scat2 p q k) d 0) a) (seq 0 12)).
    - apply map_ext_in. intros a _. apply rsum_ext. intros k Hk. rewrite picked_nth by exact Hk. reflexivity.
    - rewrite <- scat2_ends. transitivity (map (fun a => vec (ends_along (cs_x c) (cs_y c) (cs_z c)
          (Ends (V3 (nth (scat2 p q 0) d 0) (nth (scat2 p q 1) d 0) (nth (scat2 p q 2) d 0)) (V3 (nth (scat2 p q 3) d 0) (nth (scat2 p q 4) d 0) (nth (scat2 p q 5) d 0))
                (V3 (nth (scat2 p q 6) d 0) (nth (scat2 p q 7) d 0) (nth (scat2 p q 8) d 0)) (V3 (nth (scat2 p q 9) d 0) (nth (scat2 p q 10) d 0) (nth (scat2 p q 11) d 0)))) a) (seq 0 12)).
      + apply map_ext_in. intros a Ha. apply in_seq in Ha. rewrite mvec_block12 by lia. reflexivity.
      + reflexivity. }
  rewrite E. set (e := ends_along _ _ _ _). clearbody e. destruct e as [[a1 a2 a3] [b1 b2 b3] [c1 c2 c3] [e1 e2 e3]].
  unfold shape, vec12, interpolate, interpolate1, slice, pick, ldot. cbn.
  repeat (f_equal; [field; exact Hl|]). f_equal. field; exact Hl.
Qed.

Lemma deformation_answer ext ops a d b bm loc c : never_readds_nodes ext ops ->
  let w := final ext init ops in
  read_asb w = Some a -> read_disp w c = Some d -> List.length d = size (a_model a) ->
  dget b (f_beams (a_model a)) = Some bm ->
  let m := a_model a in let i := num m (n_name (b_ni bm)) in let j := num m (n_name (b_nj bm)) in
  let p := n_loc (b_ni bm) in let q := n_loc (b_nj bm) in
  (i < j \/ j < i)%nat /\ 0 < distance p q
  /\ deformation ext w b loc c = Some (shape (distance p q) loc
       (ends_along (axis_x p q) (axis_y p q) (axis_z p q) (ends_at (fun k => nth k d 0) (Nat.min i j) (Nat.max i j)))).
Proof.
  intros N w Ha Hd Ld Hb m i j p q.
  assert (Hm : assembled_model w = Some m) by (unfold assembled_model; rewrite Ha; reflexivity).
  pose proof (assembled_good ext ops w m eq_refl N Hm) as G. pose proof G as (W & HP & EC).
  pose proof (dget_some_in _ _ _ Hb) as Hin. pose proof (wf_beam _ W _ _ Hin) as OK.
  pose proof (beam_dist_pos _ _ _ OK) as LP.
  destruct (node_hid m (b_ni bm) G (bo_ni _ _ _ OK)) as (i' & Hi & Li).
  destruct (node_hid m (b_nj bm) G (bo_nj _ _ _ OK)) as (j' & Hj & Lj).
  assert (Ei : i' = i) by (symmetry; apply num_some, Hi). assert (Ej : j' = j) by (symmetry; apply num_some, Hj).
  subst i' j'.
  assert (NE : i <> j).
  { intros E. destruct EC as [EC _]. destruct (EC _ _ Hin) as [(x & X1 & X2) (y & Y1 & Y2)].
    assert (n_name (b_ni bm) = n_name (b_nj bm)).
    { assert (KX : In (n_name (b_ni bm)) (dkeys (f_nodes m))) by (apply dget_some_in in X1; apply (in_map fst) in X1; exact X1).
      assert (KY : In (n_name (b_nj bm)) (dkeys (f_nodes m))) by (apply dget_some_in in Y1; apply (in_map fst) in Y1; exact Y1).
      apply In_nth_error in KX as [i1 KX]. apply In_nth_error in KY as [j1 KY].
      pose proof (HP _ _ KX) as P1. pose proof (HP _ _ KY) as P2. unfold model_node_hid in Hi, Hj.
      rewrite Hi in P1. rewrite Hj in P2. injection P1 as P1. injection P2 as P2. congruence. }
    assert (x = y) by congruence. subst y. assert (p = q) by (unfold p, q; congruence).
    revert LP. fold p q. rewrite H0. unfold distance. rewrite !Rminus_eq_0. replace (0^2+0^2+0^2) with 0 by ring. rewrite sqrt_0. lra. }
  split; [lia|]. split; [exact LP|].
  unfold deformation, answer. cbn [step snd]. rewrite Ha, Hd. cbn [bindO]. unfold resolve_beam_deformation. fold m. fold m in Hb. rewrite Hb. cbn [bindO].
  unfold beam_hids. rewrite Hi. cbn [bindO]. rewrite Hj. cbn [bindO fst snd].
  destruct (line_axes _ _ _ (bo_csys _ _ _ OK)) as (AX & AY & AZ).
  unfold size in Ld. fold m in Ld. unfold node_count in Li, Lj.
  assert (EP : pick (seq (i*6) 6 ++ seq (j*6) 6) d = picked (Nat.min i j) (Nat.max i j) d).
  { destruct (Nat.lt_ge_cases i j) as [L|L].
    - rewrite Nat.min_l, Nat.max_r by lia. apply pick_lt; lia.
    - rewrite Nat.min_r, Nat.max_l by lia. apply pick_gt; lia. }
  rewrite EP. assert (LEN : List.length (picked (Nat.min i j) (Nat.max i j) d) = 12%nat) by reflexivity.
  rewrite LEN. cbn [Nat.eqb negb]. cbn [ret snd]. f_equal.
  assert (EL : b_length bm = distance p q) by apply norm_distance. rewrite EL.
  unfold beam_T. fold p q in AX, AY, AZ. rewrite <- AX, <- AY, <- AZ. apply deformation_shape. apply Rgt_not_eq, LP.
Qed.

Lemma shape_0 l e : l <> 0 -> shape l 0 e =
  [ (vx (d_i e) + vx (d_j e)) / 2; vy (d_i e); - vz (d_i e); (vx (r_i e) + vx (r_j e)) / 2; vz (r_i e); vy (r_i e) ].
Proof. intros H. unfold shape. repeat (f_equal; [field; exact H || lra|]). f_equal. field; exact H. Qed.
Lemma shape_1 l e : l <> 0 -> shape l 1 e =
  [ vx (d_j e); vy (d_j e); - vz (d_j e); vx (r_j e); vz (r_j e); vy (r_j e) ].
Proof. intros H. unfold shape. repeat (f_equal; [field; exact H || lra|]). f_equal. field; exact H. Qed.

Lemma c41_ends ext ops a d b bm c : never_readds_nodes ext ops ->
  let w := final ext init ops in
  read_asb w = Some a -> read_disp w c = Some d -> List.length d = size (a_model a) ->
  dget b (f_beams (a_model a)) = Some bm ->
  let m := a_model a in let e := member_ends m bm (fun q => nth q d 0) in
  exists v0 v1, deformation ext w b 0 c = Some v0 /\ deformation ext w b 1 c = Some v1
  /\ ((num m (n_name (b_ni bm)) < num m (n_name (b_nj bm)))%nat ->
        v0 = [ (vx (d_i e) + vx (d_j e)) / 2; vy (d_i e); - vz (d_i e); (vx (r_i e) + vx (r_j e)) / 2; vz (r_i e); vy (r_i e) ]
        /\ v1 = [ vx (d_j e); vy (d_j e); - vz (d_j e); vx (r_j e); vz (r_j e); vy (r_j e) ])
  /\ ((num m (n_name (b_nj bm)) < num m (n_name (b_ni bm)))%nat ->
        v0 = [ (vx (d_i e) + vx (d_j e)) / 2; vy (d_j e); - vz (d_j e); (vx (r_i e) + vx (r_j e)) / 2; vz (r_j e); vy (r_j e) ]
        /\ v1 = [ vx (d_i e); vy (d_i e); - vz (d_i e); vx (r_i e); vz (r_i e); vy (r_i e) ]).
Proof.
  intros N w Ha Hd Ld Hb m e.
  destruct (deformation_answer ext ops a d b bm 0 c N Ha Hd Ld Hb) as (_ & LP & E0).
  destruct (deformation_answer ext ops a d b bm 1 c N Ha Hd Ld Hb) as (_ & _ & E1).
  fold w m in E0, E1. eexists. eexists. split; [exact E0|]. split; [exact E1|].
  rewrite shape_0, shape_1 by (apply Rgt_not_eq, LP). unfold e, member_ends, beam_ends, ends_at. split; intros L.
  - rewrite Nat.min_l, Nat.max_r by lia. split; reflexivity.
  - rewrite Nat.min_r, Nat.max_l by lia. split; [|reflexivity]. cbn [d_i d_j r_i r_j ends_along].
    match goal with |- [(?a + ?b) / 2; _; _; (?c + ?d) / 2; _; _] = _ => rewrite (Rplus_comm a b), (Rplus_comm c d) end. reflexivity.
Qed.

(** Components that agree with the nodal displacements. *)
Lemma c41_ends_partial ext ops a d b bm c : never_readds_nodes ext ops ->
  let w := final ext init ops in
  read_asb w = Some a -> read_disp w c = Some d -> List.length d = size (a_model a) ->
  dget b (f_beams (a_model a)) = Some bm ->
  let m := a_model a in let e := member_ends m bm (fun q => nth q d 0) in
  (num m (n_name (b_ni bm)) < num m (n_name (b_nj bm)))%nat ->
  exists v0 v1, deformation ext w b 0 c = Some v0 /\ deformation ext w b 1 c = Some v1
  /\ nth 1 v0 0 = vy (d_i e) /\ nth 4 v0 0 = vz (r_i e) /\ nth 5 v0 0 = vy (r_i e)
  /\ nth 0 v1 0 = vx (d_j e) /\ nth 1 v1 0 = vy (d_j e) /\ nth 3 v1 0 = vx (r_j e)
  /\ nth 4 v1 0 = vz (r_j e) /\ nth 5 v1 0 = vy (r_j e).
Proof.
  intros N w Ha Hd Ld Hb m e L. destruct (c41_ends ext ops a d b bm c N Ha Hd Ld Hb) as (v0 & v1 & E0 & E1 & H & _).
  exists v0, v1. destruct (H L) as [-> ->]. repeat (split; [assumption || reflexivity|]). reflexivity.
Qed.
(** What is answered instead. *)
Lemma c41_wrong ext ops a d b bm c : never_readds_nodes ext ops ->
  let w := final ext init ops in
  read_asb w = Some a -> read_disp w c = Some d -> List.length d = size (a_model a) ->
  dget b (f_beams (a_model a)) = Some bm ->
  let m := a_model a in let e := member_ends m bm (fun q => nth q d 0) in
  exists v0 v1, deformation ext w b 0 c = Some v0 /\ deformation ext w b 1 c = Some v1
  /\ nth 0 v0 0 = (vx (d_i e) + vx (d_j e)) / 2 /\ nth 3 v0 0 = (vx (r_i e) + vx (r_j e)) / 2
  /\ ((num m (n_name (b_ni bm)) < num m (n_name (b_nj bm)))%nat -> nth 2 v0 0 = - vz (d_i e) /\ nth 2 v1 0 = - vz (d_j e))
  /\ ((num m (n_name (b_nj bm)) < num m (n_name (b_ni bm)))%nat ->
       v1 = [ vx (d_i e); vy (d_i e); - vz (d_i e); vx (r_i e); vz (r_i e); vy (r_i e) ]
       /\ nth 1 v0 0 = vy (d_j e) /\ nth 2 v0 0 = - vz (d_j e) /\ nth 4 v0 0 = vz (r_j e) /\ nth 5 v0 0 = vy (r_j e)).
Proof.
  intros N w Ha Hd Ld Hb m e. destruct (c41_ends ext ops a d b bm c N Ha Hd Ld Hb) as (v0 & v1 & E0 & E1 & H1 & H2).
  destruct (deformation_answer ext ops a d b bm 0 c N Ha Hd Ld Hb) as (C & _ & _).
  exists v0, v1. split; [exact E0|]. split; [exact E1|]. destruct C as [L|L].
  - destruct (H1 L) as [-> ->]. split; [reflexivity|]. split; [reflexivity|]. split; [intros _; split; reflexivity|]. intros L'. unfold m in L'; lia.
  - destruct (H2 L) as [-> ->]. split; [reflexivity|]. split; [reflexivity|]. split; [intros L'; unfold m in L'; lia|].
    intros _. repeat (split; [reflexivity|]). reflexivity.
Qed.
