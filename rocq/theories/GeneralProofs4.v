(** Proofs about the drawing model, continued: stored loads and materials, sections,
    references, directions of frames. *)
From Coq Require Import Reals List String Arith Bool ZArith Lia Lra Permutation.
From Verif Require Import Base BaseFacts General SpecGeneral SpecSection GeneralProofs GeneralProofs2 GeneralProofs3.
Import ListNotations.
Local Open Scope R_scope.

(** ** Loads and materials in other units (C55) *)

Lemma c55_joint_load_refuted : exists uuid s n j c load, fresh_names uuid /\ drawn uuid s /\ is_joint (s_db s) n j /\
  snd (gstep uuid s (GSetJointLoad n c load)) = GTrue /\
  let s' := fst (gstep uuid s (GSetJointLoad n c load)) in
  d_unit (s_db s') = "N_m_C"%string /\ load = [1000; 0; 0; 0; 0; 0] /\ applied_loads c (s_db s') = [(n, [0; 0; 0; 0; 0; 0])].
Proof.
  exists ticks, (fst (grun ticks create [GAddJoint 1 0 0])), (ticks 0), (Joint (ticks 0) 1 0 0), "S"%string, [1000; 0; 0; 0; 0; 0].
  split; [exact ticks_fresh|]. split; [exists [GAddJoint 1 0 0]; reflexivity|]. rewrite create_eq.
  split; [split; [left; reflexivity|reflexivity]|]. split; [reflexivity|]. cbv zeta. repeat split.
Qed.

Lemma c55_distributed_refuted : exists uuid s n f c u load l, fresh_names uuid /\ drawn uuid s /\ In u units /\
  In f (d_frames (s_db s)) /\ fr_name f = n /\ List.length load = 12%nat /\
  snd (grun uuid s [GSetUnit u; GSetDist n c load]) = [GTrue; GTrue] /\
  In l (d_dist (s_db (fst (grun uuid s [GSetUnit u; GSetDist n c load])))) /\ fl_frame l = n /\ fl_case l = c /\
  nth 0 (fl_cols l) 0 <> nth 0 load 0 * (newtons u / metres u) /\ nth 3 (fl_cols l) 0 <> nth 3 load 0 * newtons u.
Proof.
  pose (s := fst (grun ticks create old_frame)). assert (Es : s = Session old_db start_db 3) by apply old_frame_eq.
  pose (load := [1; 0; 0; 1; 0; 0; 1; 0; 0; 1; 0; 0] : list R).
  exists ticks, s, "F"%string, (Frame "F" dflt (ticks 0) (ticks 1) "01"), "S"%string, "kN_mm_C"%string, load.
  eexists. split; [exact ticks_fresh|]. split; [exists old_frame; reflexivity|].
  assert (Hu : In "kN_mm_C"%string units) by (right; right; right; left; reflexivity).
  split; [exact Hu|]. assert (Hf : In (Frame "F" dflt (ticks 0) (ticks 1) "01") (d_frames (s_db s))) by (rewrite Es; left; reflexivity).
  split; [exact Hf|]. split; [reflexivity|]. split; [reflexivity|].
  rewrite (distributed_stored ticks s "F" _ "S" "kN_mm_C" load Hf eq_refl Hu eq_refl). split; [reflexivity|].
  split; [apply put_fload_in|]. split; [reflexivity|]. split; [reflexivity|].
  unfold load, times, dist_factors, newtons, metres. cbn. split; lra.
Qed.

Lemma c55_material : forall uuid s n u rho E mu, In u units -> dget n (d_mats (s_db s)) = None ->
  snd (grun uuid s [GSetUnit u; GAddMaterial n rho "isotropic_elastic" (Some (E, mu))]) = [GTrue; GTrue] /\
  dget n (d_mats (s_db (fst (grun uuid s [GSetUnit u; GAddMaterial n rho "isotropic_elastic" (Some (E, mu))]))))
  = Some (GMat (rho * (newtons u / metres u) / metres u ^ 3) (Some (E * newtons u / metres u ^ 2, mu))).
Proof.
  intros uuid s n u rho E mu Hu Hn. cbn [grun]. rewrite (set_unit_ok uuid u s Hu).
  cbn [gstep]. unfold add_material. cbn [upd s_db with_unit d_unit d_mats]. rewrite Hn, (scale_units u Hu).
  cbn [String.eqb Ascii.eqb Bool.eqb]. split; [reflexivity|]. cbn [fst upd s_db with_mats d_mats]. rewrite dget_dset_eq.
  pose proof (metres_pos u).
  replace (rho * (newtons u * / metres u ^ 4)) with (rho * (newtons u / metres u) / metres u ^ 3) by (field; lra).
  replace (E * (newtons u * / metres u ^ 2)) with (E * newtons u / metres u ^ 2) by (field; lra). reflexivity.
Qed.

Lemma c55_elastic_refuted : exists uuid s n u E mu rho E', fresh_names uuid /\ drawn uuid s /\ In u units /\
  snd (grun uuid s [GSetUnit u; GSetElastic n E mu]) = [GTrue; GTrue] /\
  dget n (d_mats (s_db (fst (grun uuid s [GSetUnit u; GSetElastic n E mu])))) = Some (GMat rho (Some (E', mu))) /\
  E' <> E * newtons u / metres u ^ 2.
Proof.
  exists ticks, create, "Q345"%string, "kN_mm_C"%string, 206, (3/10), (7849 * (1 * / 1^4)), 206.
  split; [exact ticks_fresh|]. split; [exists []; reflexivity|]. split; [right; right; right; left; reflexivity|].
  rewrite create_eq. split; [reflexivity|]. split; [reflexivity|]. unfold newtons, metres. cbn [String.eqb Ascii.eqb Bool.eqb orb]. lra.
Qed.

(** ** Sections *)

Lemma section_stored : forall uuid s n m ty size u, In u units -> dget n (d_secs (s_db s)) = None -> dget m (d_mats (s_db s)) <> None ->
  forall sz A J I2 I3, section_row ty (metres u) size = Some (sz, (A, J, I2, I3)) ->
  snd (grun uuid s [GSetUnit u; GAddSection n m ty size]) = [GTrue; GTrue] /\
  dget n (d_secs (s_db (fst (grun uuid s [GSetUnit u; GAddSection n m ty size])))) = Some (GSec m sz A J I2 I3).
Proof.
  intros uuid s n m ty size u Hu Hn Hm sz A J I2 I3 E. cbn [grun]. rewrite (set_unit_ok uuid u s Hu).
  cbn [gstep]. unfold add_frame_section. cbn [upd s_db with_unit d_unit d_secs d_mats]. rewrite Hn.
  destruct (dget m (d_mats (s_db s))) as [g|]; [|congruence]. rewrite (scale_units u Hu), E.
  split; [reflexivity|]. cbn [fst upd s_db with_secs d_secs]. apply dget_dset_eq.
Qed.

Lemma c71_circle : forall uuid s n m u d, In u units -> dget n (d_secs (s_db s)) = None -> dget m (d_mats (s_db s)) <> None -> 0 < d ->
  let r := d * metres u / 2 in
  snd (grun uuid s [GSetUnit u; GAddSection n m "o" [d]]) = [GTrue; GTrue] /\
  dget n (d_secs (s_db (fst (grun uuid s [GSetUnit u; GAddSection n m "o" [d]]))))
  = Some (GSec m [d * metres u] (PI * r^2) (PI * r^4 / 2) (PI * r^4 / 4) (PI * r^4 / 4)).
Proof.
  intros uuid s n m u d Hu Hn Hm Hd r. apply section_stored; try assumption.
  cbn [section_row String.eqb Ascii.eqb Bool.eqb]. unfold circle_consts. pose proof (metres_pos u).
  assert (0 < d * metres u) by (apply Rmult_lt_0_compat; assumption). rewrite reqb_false by lra. cbn [option_map].
  unfold r. f_equal. f_equal. f_equal; [|field]. f_equal; [|field]. f_equal; field.
Qed.

Lemma c71_pipe_partial : forall uuid s n m u d t, In u units -> dget n (d_secs (s_db s)) = None -> dget m (d_mats (s_db s)) <> None ->
  0 < t -> 2 * t <= d ->
  let ro := d * metres u / 2 in let ri := ro - t * metres u in
  exists J, dget n (d_secs (s_db (fst (grun uuid s [GSetUnit u; GAddSection n m "O" [d; t]]))))
  = Some (GSec m [d * metres u; t * metres u] (PI * (ro^2 - ri^2)) J (PI * (ro^4 - ri^4) / 4) (PI * (ro^4 - ri^4) / 4)).
Proof.
  intros uuid s n m u d t Hu Hn Hm Ht Hd ro ri. eexists. eapply section_stored; try assumption.
  cbn [section_row String.eqb Ascii.eqb Bool.eqb]. unfold pipe_consts. pose proof (metres_pos u).
  assert (0 < t * metres u) by (apply Rmult_lt_0_compat; assumption).
  assert (0 < d * metres u) by (apply Rmult_lt_0_compat; lra). rewrite !reqb_false by lra. cbn [option_map orb].
  unfold ri, ro. cbv zeta. f_equal. f_equal. f_equal; [|field; lra]. f_equal; [|field; lra]. f_equal. field.
Qed.

Lemma c71_pipe_refuted : exists uuid s n m d t g, fresh_names uuid /\ drawn uuid s /\ 0 < t /\ 2 * t <= d /\
  d_unit (s_db s) = "N_m_C"%string /\ snd (gstep uuid s (GAddSection n m "O" [d; t])) = GTrue /\
  dget n (d_secs (s_db (fst (gstep uuid s (GAddSection n m "O" [d; t]))))) = Some g /\
  gs_J g <> PI * ((d / 2)^4 - (d / 2 - t)^4) / 2.
Proof.
  exists ticks, create, "P"%string, "Q345"%string, 2, (1/2). rewrite create_eq. eexists.
  split; [exact ticks_fresh|]. split; [exists []; rewrite create_eq; reflexivity|]. split; [lra|]. split; [lra|]. split; [reflexivity|].
  cbn [gstep]. unfold add_frame_section. cbn [s_db start_db d_secs d_mats d_unit dget String.eqb Ascii.eqb Bool.eqb scale section_row].
  unfold pipe_consts. rewrite !reqb_false by lra. cbn [orb option_map]. cbv zeta.
  split; [reflexivity|]. cbn [fst upd s_db with_secs d_secs]. split; [apply dget_dset_eq|]. cbn [gs_J].
  pose proof PI2_1 as P2. pose proof PI_RGT_0 as P0.
  intro X. assert (Y : PI * (PI * (9/2) - 15/32) = 0).
  { transitivity (PI * (2 * 1 - 1/2*1) / (1/2*1) * 2 * (PI * (2 * 1)^2 / 4 - PI * (2 * 1 - 2 * (1/2*1))^2 / 4)
      - PI * ((2 / 2)^4 - (2 / 2 - 1/2)^4) / 2); [field|]. rewrite X. ring. }
  apply Rmult_integral in Y. lra.
Qed.

Lemma c71_I_ignores : forall uuid s n m h b tw tf tw' tf',
  gstep uuid s (GAddSection n m "I" [h; b; tw; tf]) = gstep uuid s (GAddSection n m "I" [h; b; tw'; tf']).
Proof. reflexivity. Qed.

Lemma c71_I_refuted : exists uuid s g, fresh_names uuid /\ drawn uuid s /\ dget dflt (d_secs (s_db s)) = Some g /\
  gs_A g <> area (I_parts (4/10) (2/10) (14/1000) (2/100)) /\
  gs_I3 g <> inertia_height (I_parts (4/10) (2/10) (14/1000) (2/100)) /\
  gs_I2 g <> inertia_width (I_parts (4/10) (2/10) (14/1000) (2/100)).
Proof.
  exists ticks, create. rewrite create_eq. eexists. split; [exact ticks_fresh|]. split; [exists []; rewrite create_eq; reflexivity|].
  split; [reflexivity|]. unfold area, inertia_height, inertia_width, I_parts. simpl. repeat split; lra.
Qed.

Lemma c71_box_refuted : exists uuid s n m h b tw tf, fresh_names uuid /\ drawn uuid s /\ dget n (d_secs (s_db s)) = None /\
  dget m (d_mats (s_db s)) <> None /\ 0 < tw /\ 2 * tw < b /\ 0 < tf /\ 2 * tf < h /\
  snd (gstep uuid s (GAddSection n m "B" [h; b; tw; tf])) = GFalse.
Proof.
  exists ticks, create, "B1"%string, "Q345"%string, (4/10), (2/10), (1/100), (1/100). rewrite create_eq.
  split; [exact ticks_fresh|]. split; [exists []; rewrite create_eq; reflexivity|]. split; [reflexivity|]. split; [discriminate|].
  repeat split; lra.
Qed.

(** ** Directions *)

Lemma c72_partial : forall uuid s f, fresh_names uuid -> drawn uuid s -> frames_ok (s_db s) ->
  In f (d_frames (s_db s)) -> (forall g, In g (d_frames (s_db s)) -> fr_name g = fr_name f -> g = f) ->
  exists n m, snd (gstep uuid s (GEndNames (fr_name f))) = GNames [n; m] /\
    ((n = start_of f /\ m = end_of f) \/ (n = end_of f /\ m = start_of f)) /\ (fr_order f = "01"%string -> n = start_of f /\ m = end_of f).
Proof.
  intros uuid s f Hf Hd Hok Hin Hu. pose proof (drawn_inv _ _ Hf Hd) as [H _].
  destruct (Hok f Hin) as [[a Ha] [[b Hb] _]].
  cbn [gstep]. unfold get_frame_end_names.
  destruct (find_frame_some _ _ _ Hin eq_refl) as [g Hg]. assert (g = f).
  { unfold find_frame in Hg. apply find_some in Hg. destruct Hg as [G1 G2]. apply String.eqb_eq in G2. apply Hu; assumption. }
  subst g. rewrite Hg. cbn [bindO]. pose proof (proj2 Ha) as Na. pose proof (proj2 Hb) as Nb.
  apply (find_joint_is uuid _ _ _ _ H) in Ha, Hb. rewrite Ha, Hb. cbn [bindO snd]. rewrite Na, Nb.
  exists (fr_p0 f), (fr_p1 f). split; [reflexivity|]. unfold start_of, end_of. destruct (String.eqb_spec (fr_order f) "01") as [E|E].
  - split; [left; split; reflexivity|]. intros _. split; reflexivity.
  - split; [right; split; reflexivity|]. intro X. contradiction.
Qed.

Definition swapped (i : nat) : string := ticks (match i with O => 1 | S O => 0 | k => k end).
Lemma swapped_fresh : fresh_names swapped.
Proof.
  intros i k E. apply ticks_fresh in E. destruct i as [|[|i]], k as [|[|k]]; try reflexivity; try discriminate; try congruence.
Qed.

Lemma c72_refuted : exists uuid s f, fresh_names uuid /\ drawn uuid s /\ frames_ok (s_db s) /\ d_frames (s_db s) = [f] /\
  snd (gstep uuid s (GEndNames (fr_name f))) = GNames [end_of f; start_of f] /\ start_of f <> end_of f.
Proof.
  pose (ops := [GAddFrame ((0, 0), 0) ((1, 0), 0) dflt (Some "F"%string)]).
  pose (f := Frame "F" dflt (ticks 0) (ticks 1) "10").
  assert (Es : fst (grun swapped create ops) = Session (with_frames [f] (with_joints [Joint (ticks 1) (0*1) (0*1) (0*1); Joint (ticks 0) 1 0 0] start_db)) start_db 3).
  { rewrite create_eq. unfold ops. rewrite grun_fst_cons. cbn [grun fst gstep]. unfold add_frame.
    cbn [s_db start_db d_unit d_secs d_frames find_frame find dget dflt String.eqb Ascii.eqb Bool.eqb scale fst].
    unfold joint_at at 1. cbn [upd s_db d_joints start_db find]. cbn [add_joint].
    unfold joint_at. cbn [draw upd s_db d_joints start_db with_joints find app d_tol].
    unfold at_point. cbn [j_x j_y j_z]. rdec. cbn [andb]. reflexivity. }
  exists swapped, (fst (grun swapped create ops)), f. split; [exact swapped_fresh|]. split; [exists ops; reflexivity|].
  rewrite Es. split.
  - intros g [<-|[]]. split; [|split].
    + eexists. split; [right; left; reflexivity|reflexivity].
    + eexists. split; [left; reflexivity|reflexivity].
    + discriminate.
  - split; [reflexivity|]. split; [reflexivity|discriminate].
Qed.

(** ** References *)

Definition foks (s : session) : Prop := frames_ok (s_db s) /\ frames_ok (s_saved s).

Lemma frames_ok_same : forall d d', d_frames d' = d_frames d -> (forall n, In n (map j_name (d_joints d)) -> In n (map j_name (d_joints d'))) ->
  (forall n, dget n (d_secs d) <> None -> dget n (d_secs d') <> None) -> frames_ok d -> frames_ok d'.
Proof.
  intros d d' E1 E2 E3 H f Hf. rewrite E1 in Hf. destruct (H f Hf) as [[a [A1 A2]] [[b [B1 B2]] C]].
  assert (K : forall n, In n (map j_name (d_joints d)) -> exists j, is_joint d' n j).
  { intros n Hn. apply E2 in Hn. apply in_map_iff in Hn. destruct Hn as [j [X Y]]. exists j. split; assumption. }
  split; [apply K; rewrite <- A2; apply in_map; exact A1|]. split; [apply K; rewrite <- B2; apply in_map; exact B1|]. apply E3. exact C.
Qed.

Lemma foks_rollback : forall s, foks s -> foks (rollback s).
Proof. intros s [_ H]. split; exact H. Qed.
Lemma foks_commit : forall s, foks s -> foks (commit s).
Proof. intros s [H _]. split; exact H. Qed.
Lemma foks_upd : forall f s, d_frames (f (s_db s)) = d_frames (s_db s) ->
  (forall n, In n (map j_name (d_joints (s_db s))) -> In n (map j_name (d_joints (f (s_db s))))) ->
  (forall n, dget n (d_secs (s_db s)) <> None -> dget n (d_secs (f (s_db s))) <> None) -> foks s -> foks (upd f s).
Proof. intros f s E1 E2 E3 [H1 H2]. split; [|exact H2]. eapply frames_ok_same; [exact E1|exact E2|exact E3|exact H1]. Qed.
Lemma foks_add_joint : forall uuid x y z s, foks s -> foks (fst (add_joint uuid x y z s)).
Proof.
  intros uuid x y z s H. unfold add_joint. cbn [fst]. apply (foks_upd (fun d => with_joints (d_joints d ++ [Joint (uuid (s_next s)) x y z]) d) s); [reflexivity| |tauto|exact H].
  intros n Hn. cbn [with_joints d_joints]. rewrite map_app. apply in_or_app. left. exact Hn.
Qed.
Lemma foks_joint_at : forall uuid x y z s, foks s -> foks (fst (joint_at uuid x y z s)).
Proof. intros. unfold joint_at. destruct (find _ _); [assumption|]. apply foks_add_joint. assumption. Qed.
Lemma joint_at_named : forall uuid x y z s s' n, joint_at uuid x y z s = (s', n) ->
  grown s s' /\ exists j, is_joint (s_db s') n j.
Proof.
  intros uuid x y z s s' n E. unfold joint_at in E. destruct (find _ _) as [j|] eqn:F.
  - injection E as <- <-. split; [split; [exists []; symmetry; apply app_nil_r|repeat split]|].
    apply find_some in F. exists j. split; [apply F|reflexivity].
  - unfold add_joint in E. injection E as <- <-. split; [split; [eexists; reflexivity|repeat split]|].
    eexists. split; [apply in_or_app; right; left; reflexivity|reflexivity].
Qed.

Ltac fo0 := first [assumption | apply foks_rollback; assumption | (apply foks_upd; [reflexivity|tauto|tauto|assumption])].

Lemma foks_step : forall uuid o s, plain o -> foks s -> foks (fst (gstep uuid s o)).
Proof.
  intros uuid o s P H. destruct o; cbn [gstep]; try contradiction.
  - unfold set_unit. destruct (existsb _ _); fo0.
  - unfold set_tolerance. destruct (scale _) as [[F L]|]; fo0.
  - unfold get_tolerance. destruct (scale _) as [[F L]|]; fo0.
  - pose proof (foks_add_joint uuid x y z s H) as H0. destruct (add_joint uuid x y z s). exact H0.
  - unfold set_joint_coordinate. destruct (find_joint _ _); [|fo0]. destruct (scale _) as [[F L]|]; [|fo0].
    apply foks_upd; [reflexivity| |tauto|exact H]. intros k Hk. cbn [with_joints d_joints]. rewrite map_set_names. exact Hk.
  - unfold get_joint_coordinate. destruct (find_joint _ _); [|fo0]. destruct (scale _) as [[F L]|]; fo0.
  - fo0.
  - unfold get_joint_name_by_coor. destruct (scale _) as [[F L]|]; fo0.
  - unfold set_joint_restraint. destruct (negb _); [fo0|]. destruct (find_joint _ _); [|fo0].
    destruct (dget _ _); [|fo0]. destruct (existsb _ _); fo0.
  - unfold set_joint_load. destruct (negb _); [fo0|]. destruct (find_joint _ _); [|fo0].
    destruct (scale _) as [[F L]|]; [|fo0]. apply foks_upd; try assumption; destruct (existsb _ _); try reflexivity; tauto.
  - unfold add_frame. destruct p0 as [[x0 y0] z0], p1 as [[x1 y1] z1].
    destruct (match name with Some _ => _ | None => _ end); [fo0|].
    destruct (dget section (d_secs (s_db s))) as [g|] eqn:Eg; [|fo0]. destruct (scale _) as [[F L]|]; [|fo0].
    pose proof (foks_joint_at uuid (x0*L) (y0*L) (z0*L) s H) as H0. destruct (joint_at uuid (x0*L) (y0*L) (z0*L) s) as [s1 n0] eqn:E0. cbn [fst] in H0.
    pose proof (foks_joint_at uuid x1 y1 z1 s1 H0) as H1. destruct (joint_at uuid x1 y1 z1 s1) as [s2 n1] eqn:E1. cbn [fst] in H1.
    destruct (joint_at_named _ _ _ _ _ _ _ E0) as [G1 [a Ia]]. destruct (joint_at_named _ _ _ _ _ _ _ E1) as [G2 [b Ib]].
    destruct (order_ends n0 n1) as [[[p q] o]|] eqn:EO; [|fo0]. cbn [fst]. destruct H1 as [K1 K2]. split; [|exact K2].
    cbn [draw upd s_db]. intros f Hf. cbn [with_frames d_frames] in Hf. apply in_app_or in Hf. destruct Hf as [Hf|[Hf|[]]]; [exact (K1 f Hf)|].
    subst f. cbn [fr_p0 fr_p1 fr_section].
    pose proof (is_joint_grown _ _ _ _ G2 Ia) as Ia2.
    assert (Hsec : dget section (d_secs (s_db s2)) <> None).
    { destruct G1 as [_ [_ [_ [_ S1]]]]. destruct G2 as [_ [_ [_ [_ S2]]]]. rewrite S2, S1, Eg. discriminate. }
    destruct (order_ends_spec _ _ _ _ _ EO) as [[-> [-> ->]]|[-> [-> ->]]]; (split; [eexists; eassumption|]); (split; [eexists; eassumption|exact Hsec]).
  - unfold get_frame_end_names. destruct (bindO _ _) as [[a b]|]; fo0.
  - unfold get_frame_end_coors. destruct (scale _) as [[F L]|]; [|fo0]. destruct (bindO _ _) as [[a b]|]; fo0.
  - fo0.
  - unfold set_frame_load_distributed. destruct (negb _); [fo0|]. destruct (find_frame _ _); [|fo0]. destruct (scale _) as [[F L]|]; fo0.
  - unfold set_frame_load_concentrated. destruct (negb _); [fo0|]. destruct (find_frame _ _); [|fo0]. destruct (scale _) as [[F L]|]; fo0.
  - unfold add_material. destruct (dget _ _); [fo0|]. destruct (scale _) as [[F L]|]; [|fo0]. destruct (String.eqb _ _); [|fo0]. destruct kw as [[E mu]|]; fo0.
  - unfold set_material_isotropic_elastic. destruct (dget _ _) as [[rho [p|]]|]; fo0.
  - unfold add_frame_section. destruct (dget n (d_secs (s_db s))) eqn:En; [fo0|]. destruct (dget mat (d_mats (s_db s))); [|fo0]. destruct (scale _) as [[F L]|]; [|fo0].
    destruct (section_row _ _ _) as [[z [[[A J] I2] I3]]|]; [|fo0]. apply foks_upd; [reflexivity|tauto| |exact H].
    intros k Hk. cbn [with_secs d_secs]. destruct (String.eqb_spec k n) as [E|E]; [subst; congruence|].
    rewrite dget_dset_neq by congruence. exact Hk.
  - unfold add_loadcase. destruct (dget _ _); fo0.
  - unfold write_results. destruct (dget _ _); [|fo0]. destruct (negb _); [fo0|].
    destruct (result_rows _ _ _); [|fo0]. destruct (result_rows _ _ _); [|fo0]. destruct (_ || _)%bool; [fo0|]. apply foks_commit; fo0.
  - unfold get_result_joint_displacement. destruct (find_result _ _ _) as [r|]; [|fo0].
    destruct (scale _) as [[F L]|]; [|fo0]. destruct (jr_vals r) as [|a [|b [|c' [|d [|e [|f [|g l]]]]]]]; fo0.
  - unfold get_result_joint_reaction. destruct (find_result _ _ _) as [r|]; [|fo0].
    destruct (scale _) as [[F L]|]; [|fo0]. destruct (jr_vals r) as [|a [|b [|c' [|d [|e [|f [|g l]]]]]]]; fo0.
  - apply foks_commit; exact H.
  - unfold add_area_section. destruct (existsb _ _); [|fo0]. destruct (dget _ _); [fo0|]. destruct (scale _) as [[F L]|]; fo0.
  - rewrite add_area_fails. fo0.
  - rewrite add_area_batch_fails. fo0.
  - fo0.
  - fo0.
  - fo0.
  - fo0.
  - fo0.
  - fo0.
  - fo0.
  - unfold set_joint_mass. destruct (find_joint _ _); fo0.
  - unfold set_material_name. destruct (dget _ _); fo0.
  - unfold add_material_quick. destruct (String.eqb _ _); [|fo0]. unfold add_material. destruct (dget _ _); [fo0|]. destruct (scale _) as [[F L]|]; [|fo0]. destruct (String.eqb _ _); fo0.
  - fo0.
  - fo0.
  - fo0.
  - fo0.
Qed.

Lemma c73_partial : forall uuid ops, Forall plain ops -> frames_ok (s_db (fst (grun uuid create ops))).
Proof.
  intros uuid ops P. assert (K : forall s, foks s -> foks (fst (grun uuid s ops))).
  { induction P as [|o r Po Pr IH]; intros s H; [exact H|]. rewrite grun_fst_cons. apply IH, foks_step; assumption. }
  apply K. rewrite create_eq. split; intros f [].
Qed.

Lemma c73_section_refuted : exists uuid s f, fresh_names uuid /\ drawn uuid s /\ In f (d_frames (s_db s)) /\ dget (fr_section f) (d_secs (s_db s)) = None.
Proof.
  exists ticks, (fst (gstep ticks (fst (grun ticks create old_frame)) (GSetSection "F" "X"))), (Frame "F" "X" (ticks 0) (ticks 1) "01").
  split; [exact ticks_fresh|]. split.
  - exists (old_frame ++ [GSetSection "F" "X"]). unfold old_frame. cbn [app]. rewrite !grun_fst_cons. reflexivity.
  - rewrite old_frame_eq. split; [left; reflexivity|reflexivity].
Qed.

Lemma c73_merge_refuted : exists uuid s s' f tol, fresh_names uuid /\ drawn uuid s /\ frames_ok (s_db s) /\
  gstep uuid s (GMerge tol) = (s', GTrue) /\ In f (d_frames (s_db s')) /\ forall a, ~ is_joint (s_db s') (fr_p0 f) a.
Proof.
  pose (ops := old_frame ++ [GAddJoint 0 0 0]). pose (s := fst (grun ticks create ops)).
  pose (jl := [Joint (ticks 0) (5/10*1) (0*1) (0*1); Joint (ticks 1) 10 0 0; Joint (ticks 3) 0 0 0]).
  assert (Es : s = Session (with_joints jl old_db) start_db 4).
  { unfold s, ops, old_frame. cbn [app]. rewrite !grun_fst_cons. pose proof old_frame_eq as E. unfold old_frame in E. rewrite !grun_fst_cons in E.
    cbn [grun fst] in E. cbn [grun]. cbn [fst]. rewrite E. reflexivity. }
  pose (d' := with_joints [Joint (ticks 1) 10 0 0; Joint (ticks 3) 0 0 0] old_db).
  assert (Em : snd (merge_map (1*1) jl) = [Joint (ticks 0) (5/10*1) (0*1) (0*1)]).
  { unfold merge_map. assert (S : sort_joints jl = [Joint (ticks 3) 0 0 0; Joint (ticks 0) (5/10*1) (0*1) (0*1); Joint (ticks 1) 10 0 0]).
    { unfold sort_joints, jl. cbn [fold_right insert_joint]. jdec. reflexivity. }
    rewrite S, !merge_pairs_cons. unfold dist2. cbn [j_x j_y j_z]. rdec. reflexivity. }
  exists ticks, s, (Session d' start_db 4), (Frame "F" dflt (ticks 0) (ticks 1) "01"), 1.
  split; [exact ticks_fresh|]. split; [exists ops; reflexivity|]. rewrite Es. split.
  { intros g [<-|[]]. split; [|split].
    - eexists. split; [left; reflexivity|reflexivity].
    - eexists. split; [right; left; reflexivity|reflexivity].
    - discriminate. }
  split.
  - cbn [gstep]. unfold merge_joints. cbn [s_db with_joints with_frames old_db with_tol start_db d_unit scale String.eqb Ascii.eqb Bool.eqb d_joints].
    rewrite Em. reflexivity.
  - split; [left; reflexivity|]. intros a [[<-|[<-|[]]] E]; discriminate E.
Qed.
