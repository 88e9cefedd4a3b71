(** Proofs about the assembled load vector (C26, C27). *)
From Coq Require Import Reals Lra Lia List String Arith Bool ZArith FunctionalExtensionality.
From Verif Require Import Base BaseFacts Csys Sections Element Load FeModel Assembly Solver Post Api
  SpecApi ApiFacts WfFacts HidFacts LoadFacts SpecGeom CsysFacts SpecBeam BeamFacts MemberLoads AsmFacts SpecAsm AsmProofs
  AsmTotal AsmProofs2 SpecLoad.
Import ListNotations.
Local Open Scope R_scope.

Definition one0 : nat -> R := delta 0.

Lemma vec_triplets_bil f v x :
  bil (vec_triplets f v) x one0 = rsum (List.length v) (fun k => x (f k) * nth k v 0).
Proof.
  unfold vec_triplets. rewrite <- lsum_seq. induction (seq 0 (List.length v)) as [|k l IH]; [reflexivity|].
  cbn [flat_map]. rewrite bil_app, IH. cbn [map lsum]. f_equal.
  destruct (Reqb (nth k v 0) 0) eqn:E.
  - apply Reqb_true in E. rewrite E. unfold bil. cbn. ring.
  - unfold bil, one0, delta. cbn. ring.
Qed.

Lemma matT_list_nth n T v i : (i < n)%nat -> nth i (matT_list n T v) 0 = rsum n (fun k => T k i * nth k v 0).
Proof.
  intros H. unfold matT_list.
  rewrite (nth_indep _ 0 (rsum n (fun k => T k 0%nat * nth k v 0))) by (rewrite map_length, seq_length; exact H).
  rewrite (map_nth (fun i => rsum n (fun k => T k i * nth k v 0))). rewrite seq_nth by exact H. reflexivity.
Qed.

Lemma matT_work n T v (x : nat -> R) :
  rsum n (fun i => x i * nth i (matT_list n T v) 0) = rsum n (fun k => nth k v 0 * mvec n T x k).
Proof.
  transitivity (rsum n (fun i => rsum n (fun k => x i * (T k i * nth k v 0)))).
  - apply rsum_ext; intros i Hi. rewrite matT_list_nth by exact Hi. rewrite <- rsum_scal. reflexivity.
  - rewrite rsum_swap. apply rsum_ext; intros k _. unfold mvec. rewrite <- rsum_scal. apply rsum_ext; intros; ring.
Qed.

(** ** One node, one member *)
Definition node_power (m : fem) (p : pattern) (x : nat -> R) (k : string) : R :=
  dot3 (disp_at x (num m k)) (node_force p k) + dot3 (rot_at x (num m k)) (node_moment p k).
Definition member_power (m : fem) (p : pattern) (x : nat -> R) (kb : string * beam) : R :=
  let b := snd kb in let s := n_loc (b_ni b) in let e := n_loc (b_nj b) in
  work12 (vnth (pat_beam_f p (fst kb) (distance s e)))
         (ends_along (axis_x s e) (axis_y s e) (axis_z s e) (beam_ends m b x)).
Definition pattern_power (m : fem) (p : pattern) (x : nat -> R) : R :=
  lsum (map (node_power m p x) (dkeys (f_nodes m))) + lsum (map (member_power m p x) (f_beams m)).

Lemma lsum_applied heap c (g : string -> R) (h : pattern -> R) :
  (forall k, In k (dkeys (c_factor c)) -> exists p, deref heap c k = Some p /\ g k = h p) ->
  lsum (map (fun kv => snd kv * g (fst kv)) (c_factor c)) = lsum (map (fun fp => fst fp * h (snd fp)) (applied_in heap c)).
Proof.
  unfold applied_in, dkeys. induction (c_factor c) as [|kv l IH]; intros H; [reflexivity|].
  cbn [map lsum flat_map]. rewrite map_app, lsum_app.
  destruct (H (fst kv)) as (p & D & E); [left; reflexivity|]. unfold deref in D. apply bindO_some in D as (ad & D1 & D2).
  rewrite D1, D2. cbn [map lsum fst snd]. rewrite E, IH; [ring|]. intros k Hk. apply H. right; exact Hk.
Qed.
Lemma lsum_rsum {A} n (f : A -> nat -> R) l : lsum (map (fun x => rsum n (f x)) l) = rsum n (fun i => lsum (map (fun x => f x i) l)).
Proof. symmetry. apply rsum_lsum. Qed.

Lemma node_bil a c k n L x : fem_wf (a_model a) -> case_ok (a_heap a) k c -> heap_ok (a_heap a) ->
  In n (dkeys (f_nodes (a_model a))) -> node_f_triplets a c 0 n = Some L ->
  bil L x one0 = lsum (map (fun fp => fst fp * node_power (a_model a) (snd fp) x n) (applied_in (a_heap a) c)).
Proof.
  intros G C HO Hn H. unfold node_f_triplets in H.
  apply bindO_some in H as (nd & H1 & H). apply bindO_some in H as (fn & H2 & H). apply bindO_some in H as (hid & H3 & H).
  apply some_inj in H. subst L. rewrite vec_triplets_bil, matT_list_length.
  rewrite (matT_work 6 (node_T nd) fn (fun k => x (hid * 6 + k)%nat)).
  destruct (case_nodal_f_sum (a_heap a) c n 0) as (v & E & Lv & Hv).
  { intros p Hp. destruct (case_deref _ _ _ C HO p Hp) as (pat & ? & ? & _). eauto. }
  { intros p Hp. destruct (case_curve (a_heap a) k c 0 C (le_S _ _ (le_n 1)) p Hp) as [? _]. assumption. }
  rewrite H2 in E. apply some_inj in E. subst v.
  assert (ND : node_T nd = blockdiag (cs_T (n_csys nd))) by reflexivity.
  pose proof (wf_node _ G _ _ (dget_some_in _ _ _ H1)) as W.
  assert (AX : cs_x (n_csys nd) = V3 1 0 0 /\ cs_y (n_csys nd) = V3 0 1 0 /\ cs_z (n_csys nd) = V3 0 0 1) by apply W.
  destruct AX as (Ax & Ay & Az).
  assert (NU : num (a_model a) n = hid) by (apply num_some; exact H3).
  transitivity (rsum 6 (fun i => nth i fn 0 * x (hid * 6 + i)%nat)).
  { apply rsum_ext; intros i Hi. f_equal. rewrite ND. rewrite (mvec_block 1) by (simpl; exact Hi).
    rewrite (Nat.mod_small i 6), (Nat.div_small i 6) by exact Hi.
    do 6 (destruct i as [|i]; [cbn [Nat.ltb Nat.leb axis_of Nat.sub]; rewrite ?Ax, ?Ay, ?Az; unfold dot3, disp_at, rot_at; cbn [vx vy vz Nat.mul Nat.add]; try ring|]).
    lia. }
  transitivity (lsum (map (fun kv => snd kv * (rsum 6 (fun i => nodal_comp (a_heap a) c n i (fst kv) * x (hid * 6 + i)%nat))) (c_factor c))).
  { transitivity (rsum 6 (fun i => lsum (map (fun kv => snd kv * (nodal_comp (a_heap a) c n i (fst kv) * x (hid * 6 + i)%nat)) (c_factor c)))).
    - apply rsum_ext; intros i Hi. rewrite Hv. rewrite Rmult_comm, <- lsum_map_scal. apply lsum_map_ext. intros kv Hkv.
      destruct (case_curve (a_heap a) k c 0 C (le_S _ _ (le_n 1)) (fst kv)) as [_ ->]; [apply in_map; exact Hkv|]. ring.
    - rewrite rsum_lsum. apply lsum_map_ext. intros. rewrite rsum_scal. reflexivity. }
  apply (lsum_applied (a_heap a) c (fun p => rsum 6 (fun i => nodal_comp (a_heap a) c n i p * x (hid * 6 + i)%nat))
           (fun p => node_power (a_model a) p x n)).
  intros p Hp. destruct (case_deref _ _ _ C HO p Hp) as (pat & Dp & _). exists pat. split; [exact Dp|].
  unfold nodal_comp. rewrite Dp. unfold node_power, node_force, node_moment, triple, load_entry, pat_nodal_f. rewrite NU.
  unfold disp_at, rot_at, dot3. cbn [vx vy vz]. rewrite !(Nat.mul_comm hid 6).
  destruct (dget n (p_nodal pat)) as [fv|]; cbn; rewrite ?Nat.add_0_r; ring.
Qed.

Lemma beam_bil a c k nb L x : fem_wf (a_model a) -> case_ok (a_heap a) k c -> heap_ok (a_heap a) ->
  In nb (f_beams (a_model a)) -> beam_f_triplets a c nb = Some L ->
  bil L x one0 = lsum (map (fun fp => fst fp * member_power (a_model a) (snd fp) x nb) (applied_in (a_heap a) c)).
Proof.
  intros G C HO Hb H. destruct nb as [kb b]. unfold beam_f_triplets in H. cbn [fst snd] in H.
  apply bindO_some in H as (ij & H1 & H). apply bindO_some in H as (re & H2 & H). apply bindO_some in H as (K & H3 & H).
  apply some_inj in H. subst L. apply beam_hids_num in H1. subst ij. cbn [fst snd].
  pose proof (wf_beam _ G _ _ Hb) as OB.
  rewrite vec_triplets_bil, matT_list_length.
  assert (NR : b_rel b = no_releases) by apply OB. rewrite NR, condensate_f_id.
  set (i := num (a_model a) (n_name (b_ni b))). set (j := num (a_model a) (n_name (b_nj b))).
  rewrite (matT_work 12 (beam_T b) re (fun r => x (scat2 i j r))).
  destruct (case_beam_f_sum (a_heap a) c kb (b_length b)) as (v & E & Lv & Hv).
  { intros p Hp. destruct (case_deref _ _ _ C HO p Hp) as (pat & ? & _). eauto. }
  rewrite H2 in E. apply some_inj in E. subst v.
  assert (LC : line_csys (n_loc (b_ni b)) (n_loc (b_nj b)) = Some (b_csys b)) by apply OB.
  destruct (line_axes _ _ _ LC) as (Ax & Ay & Az).
  assert (BL : b_length b = distance (n_loc (b_ni b)) (n_loc (b_nj b))) by apply norm_distance.
  set (d := ends_along (axis_x (n_loc (b_ni b)) (n_loc (b_nj b))) (axis_y (n_loc (b_ni b)) (n_loc (b_nj b)))
                       (axis_z (n_loc (b_ni b)) (n_loc (b_nj b))) (beam_ends (a_model a) b x)).
  transitivity (rsum 12 (fun r => nth r re 0 * vec d r)).
  { apply rsum_ext; intros r Hr. f_equal. unfold beam_T. rewrite mvec_block12 by exact Hr. rewrite scat2_ends, Ax, Ay, Az. reflexivity. }
  transitivity (lsum (map (fun kv => snd kv * rsum 12 (fun r => beam_comp (a_heap a) c kb (b_length b) r (fst kv) * vec d r)) (c_factor c))).
  { transitivity (rsum 12 (fun r => lsum (map (fun kv => snd kv * (beam_comp (a_heap a) c kb (b_length b) r (fst kv) * vec d r)) (c_factor c)))).
    - apply rsum_ext; intros r Hr. rewrite Hv, Rmult_comm, <- lsum_map_scal. apply lsum_map_ext. intros. ring.
    - rewrite rsum_lsum. apply lsum_map_ext. intros. rewrite rsum_scal. reflexivity. }
  apply (lsum_applied (a_heap a) c (fun p => rsum 12 (fun r => beam_comp (a_heap a) c kb (b_length b) r p * vec d r))
           (fun p => member_power (a_model a) p x (kb, b))).
  intros p Hp. destruct (case_deref _ _ _ C HO p Hp) as (pat & Dp & _). exists pat. split; [exact Dp|].
  unfold beam_comp. rewrite Dp. unfold member_power, work12, vec, vnth. cbn [fst snd]. rewrite BL. reflexivity.
Qed.

Lemma lsum_swap {A B} (f : A -> B -> R) l l' :
  lsum (map (fun x => lsum (map (f x) l')) l) = lsum (map (fun y => lsum (map (fun x => f x y) l)) l').
Proof.
  induction l as [|x l IH]; cbn [map lsum].
  - symmetry. apply lsum_zero. reflexivity.
  - rewrite IH, <- lsum_map_plus. reflexivity.
Qed.

Lemma assemble_f_bil a cn c f x : fem_wf (a_model a) -> dget cn (a_cases a) = Some c ->
  case_ok (a_heap a) cn c -> heap_ok (a_heap a) -> assemble_f a cn 0 = Some f ->
  bil f x one0 = lsum (map (fun fp => fst fp * pattern_power (a_model a) (snd fp) x) (applied_in (a_heap a) c))
  /\ coo_inrange (size (a_model a)) 1 f = true.
Proof.
  intros W Hc CO HO H. unfold assemble_f in H. rewrite Hc in H. cbn [bindO] in H.
  apply bindO_some in H as (ns & H1 & H). apply bindO_some in H as (bs & H2 & H).
  apply coo_make_some in H as (-> & R). split.
  - rewrite bil_app.
    rewrite (mapM_bil _ (fun n => lsum (map (fun fp => fst fp * node_power (a_model a) (snd fp) x n) (applied_in (a_heap a) c))) _ _ _ _ H1).
    2:{ intros n L Hn HL. eapply node_bil; eauto. }
    rewrite (mapM_bil _ (fun nb => lsum (map (fun fp => fst fp * member_power (a_model a) (snd fp) x nb) (applied_in (a_heap a) c))) _ _ _ _ H2).
    2:{ intros nb L Hn HL. eapply beam_bil; eauto. }
    rewrite (lsum_swap (fun n fp => fst fp * node_power (a_model a) (snd fp) x n)),
      (lsum_swap (fun nb fp => fst fp * member_power (a_model a) (snd fp) x nb)), <- lsum_map_plus. apply lsum_map_ext. intros fp _. unfold pattern_power.
    rewrite !lsum_map_scal. unfold model_node_names. ring.
  - unfold size. rewrite Nat.mul_comm. exact R.
Qed.

Lemma load_inv ext ops w m case f : w = final ext init ops ->
  assembled_model w = Some m -> load_vector w case = Some f ->
  fem_wf m /\ coo_inrange (size m) 1 f = true
  /\ forall x, bil f x one0 = lsum (map (fun fp => fst fp * pattern_power m (snd fp) x) (applied w case)).
Proof.
  intros -> Hm HF. unfold load_vector in HF. apply bindO_some in HF as (a & Ha & HF).
  unfold assembled_model in Hm. rewrite Ha in Hm. cbn in Hm. apply some_inj in Hm. subst m.
  destruct (asm_reach _ _ _ Ha) as (c & Wc & Hh & _ & Em & Eh & Ec & _).
  assert (exists lc, dget case (a_cases a) = Some lc) as (lc & E).
  { unfold assemble_f in HF. apply bindO_some in HF as (lc & E & _). eauto. }
  assert (W : fem_wf (a_model a)) by (rewrite Em; apply Wc).
  assert (CO : case_ok (a_heap a) case lc).
  { rewrite Eh. apply (cw_cases _ Wc). apply dget_some_in. rewrite <- Ec. exact E. }
  assert (HO : heap_ok (a_heap a)) by (rewrite Eh; exact Hh).
  split; [exact W|]. split; [apply (assemble_f_bil a case lc f one0 W E CO HO HF)|].
  intros x. unfold applied. rewrite Ha, E. apply (assemble_f_bil a case lc f x W E CO HO HF).
Qed.

(** ** C26 *)
Lemma c26_linear m : exists g : pattern -> nat -> R, forall ext ops w case f, w = final ext init ops ->
  assembled_model w = Some m -> load_vector w case = Some f ->
  forall q, coo_get f q 0 = lsum (map (fun fp => fst fp * g (snd fp) q) (applied w case)).
Proof.
  exists (fun p q => pattern_power m p (delta q)). intros ext ops w case f Hw Hm HF q.
  destruct (load_inv _ _ _ _ _ _ Hw Hm HF) as (_ & _ & B). rewrite <- bil_delta. apply B.
Qed.

Lemma c26_scale ext1 ops1 ext2 ops2 w1 w2 m case1 case2 f1 f2 k : w1 = final ext1 init ops1 -> w2 = final ext2 init ops2 ->
  assembled_model w1 = Some m -> assembled_model w2 = Some m ->
  load_vector w1 case1 = Some f1 -> load_vector w2 case2 = Some f2 ->
  applied w2 case2 = map (fun fp => (k * fst fp, snd fp)) (applied w1 case1) ->
  forall q, coo_get f2 q 0 = k * coo_get f1 q 0.
Proof.
  intros W1 W2 M1 M2 F1 F2 A q. destruct (c26_linear m) as [g G].
  rewrite (G _ _ _ _ _ W1 M1 F1), (G _ _ _ _ _ W2 M2 F2), A, map_map, <- lsum_map_scal.
  apply lsum_map_ext. intros; cbn; ring.
Qed.

Lemma c26_superpose ext ops exta opsa extb opsb w wa wb m case casea caseb f fa fb :
  w = final ext init ops -> wa = final exta init opsa -> wb = final extb init opsb ->
  assembled_model w = Some m -> assembled_model wa = Some m -> assembled_model wb = Some m ->
  load_vector w case = Some f -> load_vector wa casea = Some fa -> load_vector wb caseb = Some fb ->
  Permutation.Permutation (applied w case) (applied wa casea ++ applied wb caseb) ->
  forall q, coo_get f q 0 = coo_get fa q 0 + coo_get fb q 0.
Proof.
  intros W Wa Wb M Ma Mb F Fa Fb A q. destruct (c26_linear m) as [g G].
  rewrite (G _ _ _ _ _ W M F), (G _ _ _ _ _ Wa Ma Fa), (G _ _ _ _ _ Wb Mb Fb).
  rewrite <- lsum_app, <- map_app. apply lsum_perm. apply Permutation.Permutation_map. exact A.
Qed.

Lemma c26_defined ext ops w m case : w = final ext init ops -> never_readds_nodes ext ops ->
  assembled_model w = Some m ->
  (forall k b, In (k, b) (f_beams m) -> 1 + poisson (b_prop b) <> 0) ->
  ((exists f, load_vector w case = Some f)
   <-> exists a c, read_asb w = Some a /\ dget case (a_cases a) = Some c).
Proof.
  intros -> NR Hm HP. unfold assembled_model in Hm. destruct (read_asb _) as [a|] eqn:Ha; [|discriminate].
  cbn in Hm. apply some_inj in Hm. subst m.
  destruct (asm_reach _ _ _ Ha) as (c & Wc & Hh & _ & Em & Eh & Ec & Hg). specialize (Hg NR).
  unfold load_vector. rewrite Ha. cbn [bindO]. split.
  - intros (f & HF). unfold assemble_f in HF. apply bindO_some in HF as (lc & E & _). eauto.
  - intros (a' & lc & E1 & E). apply some_inj in E1. subst a'.
    apply (assemble_f_total a case lc); auto.
    + rewrite Em; exact Hg.
    + rewrite Eh. apply (cw_cases _ Wc). apply dget_some_in. rewrite <- Ec. exact E.
    + rewrite Eh. exact Hh.
Qed.

(** ** C27 *)
Lemma dist_rigid p k l t w :
  match dget k (p_dist p) with Some v => work12 (fun i => nth i (dist_f v l) 0) (rigid_ends t w l) | None => 0 end
  = dot3 t (line_force p k l) + dot3 w (line_moment p k l).
Proof.
  unfold line_force, line_moment, load_entry, trapezium, trapezium_moment. destruct (dget k (p_dist p)) as [v|].
  - rewrite work12_unfold. unfold dist_f, vnth.
    generalize (nth 0 v 0) (nth 1 v 0) (nth 2 v 0) (nth 3 v 0) (nth 6 v 0) (nth 7 v 0) (nth 8 v 0) (nth 9 v 0). intros.
    destruct t, w. unfold rigid_ends, moved, dot3, vadd, cross; cbn. field.
  - unfold dot3; cbn. field.
Qed.
Lemma conc_rigid p k l t w : l <> 0 ->
  match dget k (p_conc p) with Some v => work12 (fun i => nth i (conc_f v l) 0) (rigid_ends t w l) | None => 0 end
  = dot3 t (point_force p k) + dot3 w (point_moment p k l).
Proof.
  intros Hl. unfold point_force, point_moment, triple, load_entry. destruct (dget k (p_conc p)) as [v|].
  - rewrite work12_unfold. unfold conc_f, vnth. cbn [Nat.add].
    generalize (nth 0 v 0) (nth 1 v 0) (nth 2 v 0) (nth 3 v 0) (nth 4 v 0) (nth 5 v 0) (nth 6 v 0). intros.
    destruct t, w. unfold rigid_ends, moved, dot3, vadd, cross; cbn. field. exact Hl.
  - unfold dot3, vadd, cross; cbn. field.
Qed.

Lemma dot_to_global ex ey ez t v : dot3 (along ex ey ez t) v = dot3 t (to_global ex ey ez v).
Proof. destruct v, t, ex, ey, ez. unfold dot3, along, to_global, vadd, vscale, dot3; cbn. ring. Qed.
Lemma dot_add t u v : dot3 t (vadd u v) = dot3 t u + dot3 t v.
Proof. unfold dot3, vadd; cbn. ring. Qed.
Lemma dot_moved t w p F : dot3 (moved t w p) F = dot3 t F + dot3 w (cross p F).
Proof. unfold dot3, moved, vadd, cross; cbn. ring. Qed.

Lemma member_rigid m p k b t w x : beam_ok m k b -> cur m (b_ni b) -> cur m (b_nj b) -> rigid_motion m t w x ->
  member_power m p x (k, b) = dot3 t (member_force p k b) + dot3 w (member_moment p k b).
Proof.
  intros OB Ci Cj RM. unfold member_power, beam_ends, ends_at. cbn [fst snd].
  destruct (rigid_at _ _ _ _ _ RM Ci) as [-> ->]. destruct (rigid_at _ _ _ _ _ RM Cj) as [-> ->].
  rewrite (rigid_beam _ _ _ t w (bo_csys _ _ _ OB)).
  pose proof (beam_dist_pos _ _ _ OB) as LP.
  unfold member_force, member_moment, member_force.
  set (s := n_loc (b_ni b)) in *. set (e := n_loc (b_nj b)) in *.
  set (l := distance s e) in *. set (ex := axis_x s e). set (ey := axis_y s e). set (ez := axis_z s e).
  set (t' := along ex ey ez (moved t w s)). set (w' := along ex ey ez w).
  transitivity (match dget k (p_dist p) with Some v => work12 (fun i => nth i (dist_f v l) 0) (rigid_ends t' w' l) | None => 0 end
     + match dget k (p_conc p) with Some v => work12 (fun i => nth i (conc_f v l) 0) (rigid_ends t' w' l) | None => 0 end).
  - unfold work12.
    transitivity (rsum 12 (fun i => (match dget k (p_dist p) with Some v => nth i (dist_f v l) 0 | None => 0 end
       + match dget k (p_conc p) with Some v => nth i (conc_f v l) 0 | None => 0 end) * nth i (vec12 (rigid_ends t' w' l)) 0)).
    { apply rsum_ext; intros i _. unfold vnth. rewrite pat_beam_f_nth. reflexivity. }
    destruct (dget k (p_dist p)), (dget k (p_conc p)); rewrite ?(rsum_0 12 (fun _ => 0)) by reflexivity;
      try (rewrite <- rsum_plus; apply rsum_ext; intros; ring);
      try (rewrite Rplus_0_r || rewrite Rplus_0_l; apply rsum_ext; intros; ring).
    rewrite Rplus_0_l. apply rsum_0. intros; ring.
  - rewrite dist_rigid, conc_rigid by lra. subst t' w'. rewrite !dot_to_global, !dot_moved.
    rewrite !dot_add. 
    assert (TA : forall u v, to_global ex ey ez (vadd u v) = vadd (to_global ex ey ez u) (to_global ex ey ez v)).
    { intros u v. unfold to_global, vadd, vscale; cbn. f_equal; ring. }
    rewrite !TA, !dot_add. 
    assert (CA : forall u v, cross s (vadd u v) = vadd (cross s u) (cross s v)).
    { intros u v. unfold cross, vadd; cbn. f_equal; ring. }
    rewrite !CA, !dot_add. ring.
Qed.

Lemma pattern_rigid m p t w x : good m -> rigid_motion m t w x ->
  pattern_power m p x = dot3 t (pattern_force m p) + dot3 w (pattern_moment m p).
Proof.
  intros G RM. unfold pattern_power, pattern_force, pattern_moment. rewrite !dot_add, !dot_vsum, !map_map.
  transitivity (lsum (map (fun kn => dot3 t (node_force p (fst kn)) + dot3 w (vadd (cross (n_loc (snd kn)) (node_force p (fst kn))) (node_moment p (fst kn)))) (f_nodes m))
     + lsum (map (fun kb => dot3 t (member_force p (fst kb) (snd kb)) + dot3 w (member_moment p (fst kb) (snd kb))) (f_beams m))).
  - f_equal.
    + unfold dkeys. rewrite map_map. apply lsum_map_ext. intros [k n] Hn. cbn [fst snd]. unfold node_power.
      destruct (RM _ _ Hn) as [-> ->]. rewrite dot_moved, dot_add. ring.
    + apply lsum_map_ext. intros [k b] Hb. cbn [fst snd].
      destruct G as (W & _ & EC & _). destruct (EC _ _ Hb). apply member_rigid with (m := m); auto. apply (wf_beam _ W), Hb.
  - rewrite !lsum_map_plus. ring.
Qed.

Lemma dot_ext u v : (forall t, dot3 t u = dot3 t v) -> u = v.
Proof.
  intros H. pose proof (H (V3 1 0 0)). pose proof (H (V3 0 1 0)). pose proof (H (V3 0 0 1)).
  unfold dot3 in *; cbn in *. destruct u, v; cbn in *. f_equal; lra.
Qed.
Lemma dot_scale t k v : dot3 t (vscale k v) = k * dot3 t v.
Proof. unfold dot3, vscale; cbn. ring. Qed.
Lemma dot_zero v : dot3 zero3 v = 0.
Proof. unfold dot3, zero3; cbn. ring. Qed.

Lemma c27_resultants ext ops w m case f : w = final ext init ops -> never_readds_nodes ext ops ->
  assembled_model w = Some m -> load_vector w case = Some f ->
  resultant_force m (fun q => coo_get f q 0) = vsum (map (fun fp => vscale (fst fp) (pattern_force m (snd fp))) (applied w case))
  /\ resultant_moment m (fun q => coo_get f q 0) = vsum (map (fun fp => vscale (fst fp) (pattern_moment m (snd fp))) (applied w case)).
Proof.
  intros Hw NR Hm HF. pose proof (assembled_good _ _ _ _ Hw NR Hm) as G.
  destruct (load_inv _ _ _ _ _ _ Hw Hm HF) as (W & R & B).
  assert (E : forall t r, dot3 t (resultant_force m (fun q => coo_get f q 0)) + dot3 r (resultant_moment m (fun q => coo_get f q 0))
     = dot3 t (vsum (map (fun fp => vscale (fst fp) (pattern_force m (snd fp))) (applied w case)))
       + dot3 r (vsum (map (fun fp => vscale (fst fp) (pattern_moment m (snd fp))) (applied w case)))).
  { intros t r. rewrite <- rigid_power by exact G.
    transitivity (bil f (rigid_vec m t r) one0).
    - rewrite <- (bil_quad (size m) 1 f) by exact R. apply rsum_ext; intros q _. f_equal. unfold rsum, one0, delta; cbn. ring.
    - rewrite B, !dot_vsum, !map_map, <- lsum_map_plus. apply lsum_map_ext. intros fp _.
      rewrite (pattern_rigid m _ t r) by (auto; apply rigid_vec_motion; exact G). rewrite !dot_scale. ring. }
  split; apply dot_ext; intros t.
  - specialize (E t zero3). rewrite !dot_zero in E. lra.
  - specialize (E zero3 t). rewrite !dot_zero in E. lra.
Qed.

Lemma poly_integral f a1 a2 a3 l (pr : Riemann_integrable f 0 l) :
  (forall x, f x = a1 + 2 * a2 * x + 3 * a3 * x^2) -> RiemannInt pr = a1 * l + a2 * l^2 + a3 * l^3.
Proof.
  intros Hf. set (W := fun x => a1 * x + a2 * x^2 + a3 * x^3 + 0 * x^4 + 0 * x^5).
  assert (D : forall x, derivable_pt_lim W x (f x)).
  { intros x. rewrite Hf. replace (a1 + 2 * a2 * x + 3 * a3 * x^2) with (a1 + 2 * a2 * x + 3 * a3 * x^2 + 4 * 0 * x^3 + 5 * 0 * x^4) by ring.
    apply derivable_quintic. }
  pose (d0 := fun x => exist (derivable_pt_abs W x) (f x) (D x) : derivable_pt W x).
  assert (C : continuity (derive W d0)).
  { intros x. change (continuity_pt f x).
    assert (CP : continuity (peval (Poly a1 (2 * a2) (3 * a3) 0))) by apply peval_continuity.
    assert (E : f = peval (Poly a1 (2 * a2) (3 * a3) 0)).
    { apply FunctionalExtensionality.functional_extensionality. intros y. rewrite Hf. unfold peval; cbn. ring. }
    rewrite E. apply CP. }
  pose (F := mkC1 C).
  assert (pr2 : Riemann_integrable (derive F (diff0 F)) 0 l) by exact pr.
  transitivity (RiemannInt pr2); [apply RiemannInt_P5|].
  rewrite (FTC_Riemann F pr2). change (W l - W 0 = a1 * l + a2 * l^2 + a3 * l^3). unfold W. ring.
Qed.

(** the closed forms are the integrals of the line load and of its moment *)
Lemma c27_line a b l (pr : Riemann_integrable (ramp a b l) 0 l) (pr' : Riemann_integrable (fun x => x * ramp a b l x) 0 l) :
  0 < l -> RiemannInt pr = trapezium a b l /\ RiemannInt pr' = trapezium_moment a b l.
Proof.
  intros Hl. split.
  - rewrite (poly_integral (ramp a b l) a ((b - a) / l / 2) 0 l pr); [unfold trapezium; field; lra|].
    intros x. unfold ramp. field. lra.
  - rewrite (poly_integral (fun x => x * ramp a b l x) 0 (a / 2) ((b - a) / l / 3) l pr'); [unfold trapezium_moment; field; lra|].
    intros x. unfold ramp. field. lra.
Qed.
