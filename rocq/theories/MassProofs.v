(** The assembled mass matrix. *)
From Coq Require Import Reals Lra Lia List String Arith Bool Permutation.
From Verif Require Import Base BaseFacts Csys Sections Element Load FeModel Assembly Solver Post Api
  SpecApi ApiFacts WfFacts HidFacts CsysFacts SpecGeom SpecBeam BeamFacts AsmFacts SpecAsm AsmProofs ShellFacts AsmTotal AsmProofs2 BeamProofs SpecMass.
Import ListNotations.
Local Open Scope R_scope.

Lemma cross_gram a b u v : dot3 (cross a b) u * dot3 (cross a b) v =
  dot3 a a * (dot3 b b * dot3 u v - dot3 b v * dot3 b u) - dot3 a b * (dot3 a b * dot3 u v - dot3 b v * dot3 a u)
  + dot3 a v * (dot3 a b * dot3 b u - dot3 b b * dot3 a u).
Proof. unfold dot3, cross; cbn [vx vy vz]; ring. Qed.
Lemma along_dot ex ey ez u v : frame ex ey ez -> dot3 (along ex ey ez u) (along ex ey ez v) = dot3 u v.
Proof.
  intros [(XX & YY & ZZ & XY & YZ & ZX) (Z & _ & _)]. unfold along. unfold dot3 at 1. cbn [vx vy vz].
  rewrite <- Z. rewrite cross_gram, XX, YY, XY. ring.
Qed.

Lemma beam_M_form b d e : form12 (beam_M b) d e
     = density (b_prop b) * area (b_prop b) * b_length b / 2 * (dot3 (d_i d) (d_i e) + dot3 (d_j d) (d_j e))
       + 1 / 1000000000000 * (dot3 (r_i d) (r_i e) + dot3 (r_j d) (r_j e)).
Proof.
  unfold beam_M. change (density (b_prop b)) with (bp_rho (b_prop b)). change (area (b_prop b)) with (bp_A (b_prop b)).
    destruct d as [[a1 a2 a3] [a4 a5 a6] [a7 a8 a9] [a10 a11 a12]].
    destruct e as [[b1 b2 b3] [b4 b5 b6] [b7 b8 b9] [b10 b11 b12]].
  generalize (bp_rho (b_prop b)) (bp_A (b_prop b)) (b_length b). intros rho A l.
  destruct (b_prop b); unfold form12, vec12, lumped_M, simple_lumped_M, is_rot, dot3; cbn [d_i d_j r_i r_j vx vy vz]; cbn; field.
Qed.

Lemma beam_mass_bil m k b L x y : beam_ok m k b -> beam_mass_triplets m b = Some L -> bil L x y = member_inertia m x y b.
Proof.
  intros OK H. unfold beam_mass_triplets in H.
  apply bindO_some in H as (ij & H1 & H).
  apply beam_hids_num in H1. subst ij. cbn [fst snd] in H. rewrite (bo_rel _ _ _ OK) in H.
  apply some_inj in H. subst L. rewrite condensate_id.
  rewrite bil_scatter, bil_nz, bil_mat_coo. unfold beam_T. rewrite block12_form, !scat2_ends.
  pose proof (bo_csys _ _ _ OK) as HC.
  destruct (frame_axes _ _ _ HC) as (F & _).
  pose proof (line_axes _ _ _ HC) as (-> & -> & ->).
  rewrite beam_M_form. unfold member_inertia, member_mass, beam_ends, ends_along, ends_at. cbn [d_i r_i d_j r_j].
  rewrite !along_dot by exact F. unfold b_length. rewrite norm_distance. reflexivity.
Qed.
Lemma node_mass_bil m k L x y nd : dget k (f_nodes m) = Some nd -> node_mass_triplets m k = Some L -> bil L x y = node_inertia m x y (k, nd).
Proof.
  intros D H. unfold node_mass_triplets in H. apply bindO_some in H as (i & H1 & H). rewrite D in H. cbn [bindO] in H.
  apply some_inj in H. subst L. rewrite bil_scatter, bil_nz, bil_mat_coo. unfold node_inertia. cbn [fst snd].
  rewrite (num_some _ _ _ H1). apply rsum_ext. intros r Hr.
  rewrite (rsum_ext _ _ (fun c => if Nat.eqb r c then vnth (n_mass nd) r * x (i * 6 + r)%nat * y (i * 6 + r)%nat else 0)).
  - rewrite (rsum_delta 6 r (fun _ => vnth (n_mass nd) r * x (i * 6 + r)%nat * y (i * 6 + r)%nat)) by exact Hr.
    unfold vnth. rewrite (Nat.mul_comm 6 i). reflexivity.
  - intros c Hc. unfold node_M. destruct (Nat.eqb_spec r c) as [->|]; ring.
Qed.

Lemma assemble_M_bil a M x y : fem_wf (a_model a) -> assemble_M a None = Some M ->
  bil M x y = lsum (map (node_inertia (a_model a) x y) (f_nodes (a_model a)))
            + lsum (map (member_inertia (a_model a) x y) (dvals (f_beams (a_model a))))
  /\ coo_inrange (size (a_model a)) (size (a_model a)) M = true.
Proof.
  intros W H. unfold assemble_M in H. cbn [bindO] in H.
  apply bindO_some in H as (ns & H1 & H). apply bindO_some in H as (bs & H2 & H).
  apply coo_make_some in H as (-> & R). split.
  - rewrite bil_app. f_equal.
    + rewrite (mapM_bil _ (fun k => match dget k (f_nodes (a_model a)) with Some nd => node_inertia (a_model a) x y (k, nd) | None => 0 end) _ _ x y H1).
      * unfold model_node_names, dkeys. rewrite map_map. apply lsum_map_ext. intros [k nd] Hk. cbn [fst].
        rewrite (in_dget_nodup _ _ _ (wf_nodup _ W) Hk). reflexivity.
      * intros k L Hk HL. unfold model_node_names in Hk. apply dget_in_keys in Hk as [nd D]. rewrite D. eapply node_mass_bil; eauto.
    + eapply mapM_bil; [exact H2|]. intros b L Hb HL. apply in_dvals_ex in Hb as [k Hk].
      eapply beam_mass_bil; [eapply (wf_beam _ W), Hk|exact HL].
  - unfold size. rewrite Nat.mul_comm. exact R.
Qed.

Lemma mass_inv ext ops w m M : w = final ext init ops -> assembled_model w = Some m -> mass_matrix w = Some M ->
  exists a, read_asb w = Some a /\ a_model a = m /\ assemble_M a None = Some M /\ fem_wf m.
Proof.
  intros Hw Hm HK. unfold assembled_model, mass_matrix in *. destruct (read_asb w) as [a|] eqn:E; [|discriminate].
  exists a. simpl in *. apply some_inj in Hm. split; [reflexivity|]. split; [exact Hm|]. split; [exact HK|].
  rewrite <- Hm. apply (assembled_wf ext ops w a Hw E).
Qed.

Lemma c40_inertia ext ops w m M x y : w = final ext init ops ->
  assembled_model w = Some m -> mass_matrix w = Some M ->
  form (size m) M x y = lsum (map (node_inertia m x y) (f_nodes m)) + lsum (map (member_inertia m x y) (dvals (f_beams m))).
Proof.
  intros Hw Hm HK. destruct (mass_inv _ _ _ _ _ Hw Hm HK) as (a & Ha & Em & EK & W). subst m.
  destruct (assemble_M_bil _ _ x y W EK) as [E R]. unfold form. rewrite (bil_quad _ _ _ _ _ R). exact E.
Qed.
Lemma c40_symmetric ext ops w m M : w = final ext init ops ->
  assembled_model w = Some m -> mass_matrix w = Some M -> forall i j, coo_get M i j = coo_get M j i.
Proof.
  intros Hw Hm HK i j. destruct (mass_inv _ _ _ _ _ Hw Hm HK) as (a & Ha & Em & EK & W). subst m.
  rewrite <- !bil_delta. destruct (assemble_M_bil _ _ (delta i) (delta j) W EK) as [-> _]. destruct (assemble_M_bil _ _ (delta j) (delta i) W EK) as [-> _].
  f_equal; apply lsum_map_ext.
  - intros kn _. unfold node_inertia. apply rsum_ext; intros; ring.
  - intros b _. unfold member_inertia. rewrite !(dot3_comm _ (d_i (beam_ends _ b (delta i)))), !(dot3_comm _ (d_j (beam_ends _ b (delta i)))),
      !(dot3_comm _ (r_i (beam_ends _ b (delta i)))), !(dot3_comm _ (r_j (beam_ends _ b (delta i)))). reflexivity.
Qed.
Lemma dot3_nonneg v : 0 <= dot3 v v.
Proof. unfold dot3. nra. Qed.
Lemma c40_nonneg ext ops w m M : w = final ext init ops ->
  assembled_model w = Some m -> mass_matrix w = Some M ->
  (forall k n i, In (k, n) (f_nodes m) -> 0 <= nth i (n_mass n) 0) ->
  (forall k b, In (k, b) (f_beams m) -> 0 <= density (b_prop b) * area (b_prop b)) ->
  forall x, 0 <= form (size m) M x x.
Proof.
  intros Hw Hm HK PN PB x. rewrite (c40_inertia _ _ _ _ _ x x Hw Hm HK).
  destruct (mass_inv _ _ _ _ _ Hw Hm HK) as (a & Ha & Em & EK & W).
  apply Rplus_le_le_0_compat; apply lsum_nonneg.
  - intros [k n] Hn. unfold node_inertia. cbn [fst snd]. apply rsum_nonneg. intros i Hi. pose proof (PN k n i Hn).
    rewrite Rmult_assoc. apply Rmult_le_pos; [assumption|]. nra.
  - intros b Hb. apply in_dvals_ex in Hb as [k Hk]. unfold member_inertia, member_mass.
    pose proof (PB _ _ Hk). pose proof (beam_dist_pos _ _ _ (wf_beam _ W _ _ Hk)).
    pose proof (dot3_nonneg (d_i (beam_ends m b x))). pose proof (dot3_nonneg (d_j (beam_ends m b x))).
    pose proof (dot3_nonneg (r_i (beam_ends m b x))). pose proof (dot3_nonneg (r_j (beam_ends m b x))).
    apply Rplus_le_le_0_compat; apply Rmult_le_pos; try lra. apply Rmult_le_pos; [apply Rmult_le_pos|]; lra.
Qed.
Lemma c40_translation ext ops w m M t x : w = final ext init ops -> never_readds_nodes ext ops ->
  assembled_model w = Some m -> mass_matrix w = Some M -> rigid_motion m t zero3 x ->
  form (size m) M x x = lsum (map (node_mass_along t) (f_nodes m)) + lsum (map member_mass (dvals (f_beams m))) * dot3 t t.
Proof.
  intros Hw N Hm HK R. rewrite (c40_inertia _ _ _ _ _ x x Hw Hm HK).
  pose proof (assembled_good _ _ _ _ Hw N Hm) as (W & _ & EC & _).
  assert (MV : forall p, moved t zero3 p = t) by (intros p; apply vec3_eq; unfold moved, zero3, vadd, cross; cbn [vx vy vz]; ring).
  f_equal.
  - apply lsum_map_ext. intros [k n] Hn. destruct (R _ _ Hn) as (R1 & R2). rewrite MV in R1.
    unfold node_inertia, node_mass_along. cbn [fst snd]. cbn [rsum].
    pose proof (f_equal vx R1) as A1. pose proof (f_equal vy R1) as A2. pose proof (f_equal vz R1) as A3.
    pose proof (f_equal vx R2) as R3. pose proof (f_equal vy R2) as R4. pose proof (f_equal vz R2) as R5.
    unfold disp_at, rot_at, zero3 in *. cbn [vx vy vz] in *. set (q := (6 * num m k)%nat) in *. rewrite Nat.add_0_r, A1, A2, A3, R3, R4, R5. ring.
  - rewrite Rmult_comm, <- lsum_map_scal. apply lsum_map_ext. intros b Hb. apply in_dvals_ex in Hb as [k Hk].
    destruct (EC _ _ Hk) as (C1 & C2). unfold member_inertia, beam_ends, ends_at. cbn [d_i r_i d_j r_j].
    destruct (rigid_at _ _ _ _ _ R C1) as [-> ->]. destruct (rigid_at _ _ _ _ _ R C2) as [-> ->]. rewrite !MV.
    unfold zero3. replace (dot3 (V3 0 0 0) (V3 0 0 0)) with 0 by (unfold dot3; cbn [vx vy vz]; ring). field.
Qed.
Lemma c40_defined ext ops w m : w = final ext init ops -> never_readds_nodes ext ops ->
  assembled_model w = Some m -> exists M, mass_matrix w = Some M.
Proof.
  intros Hw N Hm. pose proof (assembled_good _ _ _ _ Hw N Hm) as G. unfold assembled_model in Hm.
  unfold mass_matrix. destruct (read_asb w) as [a|]; [|discriminate]. apply some_inj in Hm. subst m.
  cbn [bindO]. unfold assemble_M. cbn [bindO]. set (m := a_model a) in *. pose proof G as (W & HP & _).
  destruct (mapM_total_P (node_mass_triplets m) (fun L => coo_inrange (node_count m * 6) (node_count m * 6) L = true) (model_node_names m))
    as (ns & -> & Hn).
  { intros k Hk. unfold model_node_names in Hk. apply dget_in_keys in Hk as [nd D]. pose proof (dget_some_in _ _ _ D) as Hin.
    apply In_nth_error in Hin as [i Hi]. pose proof (nth_error_keys _ _ _ _ Hi) as Hk.
    unfold node_mass_triplets, model_node_hid. rewrite (HP _ _ Hk). cbn [bindO]. rewrite D. cbn [bindO]. eexists. split; [reflexivity|].
    apply inrange_scatter; [|reflexivity]. intros r Hr. assert (i < node_count m)%nat; [|lia].
    unfold node_count. apply nth_error_Some. rewrite Hi. discriminate. }
  destruct (mapM_total_P (beam_mass_triplets m) (fun L => coo_inrange (node_count m * 6) (node_count m * 6) L = true) (dvals (f_beams m)))
    as (bs & -> & Hb).
  { intros b Hb. apply in_dvals_ex in Hb as [k Hk]. pose proof (wf_beam _ W _ _ Hk) as OK.
    destruct (node_hid m (b_ni b) G (bo_ni _ _ _ OK)) as (i & Hi & Li).
    destruct (node_hid m (b_nj b) G (bo_nj _ _ _ OK)) as (j & Hj & Lj).
    unfold beam_mass_triplets, beam_hids. rewrite Hi, Hj. cbn [bindO fst snd]. eexists; split; [reflexivity|].
    apply inrange_scatter; [|reflexivity]. intros; apply scat2_lt; assumption. }
  cbn [bindO]. eexists. apply coo_make_ok. rewrite inrange_app, !inrange_concat by assumption. reflexivity.
Qed.
