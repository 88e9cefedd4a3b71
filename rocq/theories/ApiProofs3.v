(** Proofs for the properties of the interface, continued (C07, C09-C15, C58, C59). *)
From Coq Require Import Reals Lra Lia List String Arith Bool ZArith.
From Verif Require Import Base BaseFacts Csys Sections Element Load FeModel Assembly Solver Post Api SpecApi ApiFacts WfFacts HidFacts ApiProofs1 ApiProofs2.
Import ListNotations.
Local Open Scope R_scope.

Lemma c07_beam_immune :
  forall ext w ops b,
  (forall o, In o ops -> adds_beam o <> Some b /\ (forall f, o <> OpLoad f)) ->
  let w' := final ext w ops in
  answer ext w' (OpBeamLocation b) = answer ext w (OpBeamLocation b)
  /\ answer ext w' (OpBeamNodeNames b) = answer ext w (OpBeamNodeNames b)
  /\ element_K w' b = element_K w b
  /\ element_M w' b = element_M w b.
Proof.
  intros ext w ops b H w'.
  assert (dget b (f_beams (k_fem (w_core w'))) = dget b (f_beams (k_fem (w_core w)))) as E.
  { unfold w'. clear w'. revert w H. induction ops as [|o r IH]; intros w H; auto.
    rewrite final_cons, IH by (intros; apply H; right; auto).
    destruct (H o (or_introl eq_refl)) as [H1 H2]. apply step_beam; auto.
    destruct o; auto. exfalso. eapply H2. reflexivity. }
  unfold answer, element_K, element_M; simpl. unfold model_beam_location, model_beam_connection.
  rewrite !E. auto.
Qed.

(** ** C09 *)
Definition same_results (w1 w2 : world) : Prop :=
  read_asb w1 = read_asb w2 /\ forall c, read_disp w1 c = read_disp w2 c.

Lemma same_results_edit ext w o : is_edit o -> same_results (after ext w o) w.
Proof.
  intros H. split.
  - apply read_asb_step. destruct o; try discriminate; simpl in H; tauto.
  - intros c. apply read_disp_step. destruct o; try discriminate; simpl in H; tauto.
Qed.

Lemma same_results_edits ext w ops : Forall is_edit ops -> same_results (final ext w ops) w.
Proof.
  intros H. revert w. induction H; intros w; [split; auto|].
  rewrite final_cons. destruct (IHForall (after ext w x)) as [E1 E2].
  destruct (same_results_edit ext w x H) as [E3 E4]. split; [congruence|].
  intros c. now rewrite E2, E4.
Qed.

Lemma same_results_step ext w1 w2 o :
  is_result o -> same_results w1 w2 ->
  answer ext w1 o = answer ext w2 o /\ same_results (after ext w1 o) (after ext w2 o).
Proof.
  intros HO [EA ED].
  assert (forall o', is_result o' -> same_results (after ext w1 o') (after ext w2 o')) as HS.
  { intros o' HO'. split.
    - rewrite !read_asb_step; auto; destruct o'; simpl in HO'; try discriminate; tauto.
    - intros c. unfold read_disp. rewrite !step_disp. unfold read_disp in ED.
      destruct o'; try apply ED. rewrite EA. destruct (String.eqb c case); [|apply ED].
      destruct (bindO _ _); [reflexivity|apply ED]. }
  split; [|apply HS; auto].
  destruct o; simpl in HO; try tauto; unfold answer; simpl.
  - unfold do_solve_static. rewrite EA. destruct (read_asb w2); auto.
    destruct (assemble_K _ _); auto. destruct (solve_linear _ _ _); auto.
  - now rewrite EA, ED.
  - now rewrite EA, ED.
Qed.

Lemma c09_edits_do_not_reach_results :
  forall ext w edits cont, Forall is_edit edits -> Forall is_result cont ->
  outs ext (final ext w edits) cont = outs ext w cont.
Proof.
  intros ext w edits cont HE HC. pose proof (same_results_edits ext w edits HE) as HS.
  revert HS. generalize (final ext w edits). revert w. induction HC as [|o r Ho Hr IH]; intros w w' HS; auto.
  rewrite !outs_cons. destruct (same_results_step ext w' w o Ho HS) as [E HS']. rewrite E. f_equal. auto.
Qed.

(** what a successful assemble fixes *)
Lemma c09_assemble_is_snapshot :
  forall ext w1 w2 cont, w_core w1 = w_core w2 ->
  (forall c, read_disp w1 c = read_disp w2 c) -> read_asb w1 = read_asb w2 ->
  Forall is_result cont ->
  outs ext w1 (OpAssemble :: cont) = outs ext w2 (OpAssemble :: cont).
Proof.
  intros ext w1 w2 cont EC ED EA HC. rewrite !outs_cons.
  assert (answer ext w1 OpAssemble = answer ext w2 OpAssemble) as ->.
  { unfold answer; simpl. rewrite EC. destruct (mk_asm _ _ _); auto. }
  f_equal.
  assert (same_results (after ext w1 OpAssemble) (after ext w2 OpAssemble)) as HS.
  { split.
    - unfold read_asb in *. rewrite !step_asb, EC. destruct (mk_asm _ _ _); auto.
    - intros c. rewrite !read_disp_step by discriminate. auto. }
  revert HS. generalize (after ext w1 OpAssemble), (after ext w2 OpAssemble).
  induction HC as [|o r Ho Hr IH]; intros v1 v2 HS; auto.
  rewrite !outs_cons. destruct (same_results_step ext v1 v2 o Ho HS) as [E HS']. rewrite E. f_equal. auto.
Qed.

(** ** C10 *)
Lemma c10_results_kept :
  forall ext w o n b loc c,
  (forall c', o = OpSolveStatic c' -> c' <> c) -> o <> OpAssemble ->
  answer ext (after ext w o) (OpNodalDisp n c) = answer ext w (OpNodalDisp n c)
  /\ answer ext (after ext w o) (OpBeamDeformation b loc c) = answer ext w (OpBeamDeformation b loc c).
Proof.
  intros ext w o n b loc c H1 H2. unfold answer; simpl.
  rewrite read_asb_step by auto. rewrite read_disp_step; auto. intros ->. eapply H1; reflexivity.
Qed.

Lemma c10_saved_interfaces_kept :
  forall ext w o fn, o <> OpSave fn ->
  answer ext (after ext w o) (OpLoad fn) = answer ext w (OpLoad fn)
  /\ (answer ext w (OpLoad fn) = RBool true ->
      w_core (after ext (after ext w o) (OpLoad fn)) = w_core (after ext w (OpLoad fn))).
Proof.
  intros ext w o fn H.
  assert (dget (sep_file fn) (w_files (after ext w o)) = dget (sep_file fn) (w_files w)) as E.
  { rewrite step_sep. destruct o; auto. destruct (String.eqb_spec fn filename); auto. congruence. }
  unfold answer; simpl. rewrite E.
  split.
  - destruct (dget (sep_file fn) (w_files w)) as [[]|]; reflexivity.
  - unfold after at 1 3; simpl. rewrite E.
    destruct (dget (sep_file fn) (w_files w)) as [[]|]; simpl; intros; try discriminate; reflexivity.
Qed.

Lemma c10_assembly_kept :
  forall ext w o c, o <> OpAssemble ->
  answer ext (after ext w o) (OpSolveStatic c) = answer ext w (OpSolveStatic c).
Proof.
  intros ext w o c H. unfold answer; simpl. unfold do_solve_static. rewrite read_asb_step by auto.
  destruct (read_asb w); auto. destruct (assemble_K _ _); auto. destruct (solve_linear _ _ _); auto.
Qed.

(** ** C11 *)
Lemma c11_releases_refuted :
  forall ext w n ri rj, answer ext w (OpSetRelease n ri rj) = RBool false
    /\ indistinguishable ext (after ext w (OpSetRelease n ri rj)) w.
Proof.
  intros. split; [reflexivity|]. apply c03_failed_call. left; reflexivity.
Qed.

Lemma condensate_none k : condensate no_releases k = k.
Proof. reflexivity. Qed.

Lemma c11_never_released :
  forall ext ops n b, dget n (f_beams (k_fem (w_core (final ext init ops)))) = Some b ->
  (forall d, nth d (b_rel b) false = false) /\ (forall k, condensate (b_rel b) k = k).
Proof.
  intros ext ops n b H. destruct (wwf_reach ext ops) as [W _].
  pose proof (wf_beam _ (cw_fem _ W) _ _ (dget_some_in _ _ _ H)) as [_ R _ _ _]. rewrite R. split.
  - intros d. do 12 (destruct d as [|d]; [reflexivity|]). destruct d; reflexivity.
  - intros k. apply condensate_none.
Qed.


(** ** C12 *)
Lemma mk_rectangle_some mt h b : h <> 0 -> b <> 0 -> mk_rectangle mt h b = Some (rectangle_section mt h b).
Proof.
  intros Hh Hb. unfold mk_rectangle. apply Reqb_false in Hh, Hb. now rewrite Hh, Hb.
Qed.

Lemma c12_always_wrong :
  forall ext w name mat d t, 0 < t -> t <= d / 2 ->
  answer ext w (OpAddPipe name mat d t) = RBool true ->
  exists sec, stored_section (after ext w (OpAddPipe name mat d t)) name = Some sec
    /\ (forall p, 3 < p -> s_A sec <> p / 4 * (d^2 - (d - 2*t)^2))
    /\ (t <> d -> s_I22 sec <> s_I33 sec).
Proof.
  intros ext w name mat d t Ht Hd. unfold answer, after; simpl.
  unfold model_add_rectangle, model_add_bsection, bindO.
  destruct (dget mat _) as [mt|]; simpl; [|discriminate].
  rewrite mk_rectangle_some by lra. intros _. simpl.
  exists (rectangle_section mt d t). split; [|split].
  - unfold stored_section; simpl. now rewrite dget_dset_eq.
  - simpl. intros p Hp H.
    assert (t * (d - p * (d - t)) = 0) as E by (simpl in H; nra).
    assert (d - p * (d - t) < 0) by nra. nra.
  - simpl. intros N H. assert (d * t * ((t - d) * (t + d)) = 0) as E by (simpl in H; nra).
    apply Rmult_integral in E as [E|E]; [nra|]. apply Rmult_integral in E as [E|E]; nra.
Qed.

(** ** C13 *)
Lemma c13_needs_section_named_first :
  forall ext w n n1 n2 n3 n4 sec,
  answer ext w (OpAddShell n n1 n2 n3 n4 sec) = RBool true ->
  In n1 (dkeys (f_ssecs (k_fem (w_core w))))
  /\ (forall k, k = n2 \/ k = n3 \/ k = n4 \/ Some k = sec ->
        exists l, answer ext w OpNodeNames = RNames l /\ In k l)
  /\ (forall s, sec = Some s ->
        exists sh, dget n (f_shells (k_fem (w_core (after ext w (OpAddShell n n1 n2 n3 n4 sec))))) = Some sh
          /\ List.length (sh_nodes sh) = 4%nat
          /\ Some (sh_sec sh) = dget n1 (f_ssecs (k_fem (w_core w)))
          /\ mapM (fun k => dget k (f_nodes (k_fem (w_core w)))) [n2; n3; n4; s] = Some (sh_nodes sh)).
Proof.
  intros ext w n n1 n2 n3 n4 sec. unfold answer, after; simpl. unfold model_add_shell, bindO.
  destruct (dget n1 (f_ssecs _)) as [ss|] eqn:E1; simpl; [|discriminate].
  destruct (dget n2 (f_nodes _)) as [x2|] eqn:E2; simpl; [|discriminate].
  destruct (dget n3 (f_nodes _)) as [x3|] eqn:E3; simpl; [|discriminate].
  destruct (dget n4 (f_nodes _)) as [x4|] eqn:E4; simpl; [|discriminate].
  intros H. split; [apply dget_in_keys; eauto|].
  destruct sec as [s5|].
  - destruct (dget s5 (f_nodes _)) as [x5|] eqn:E5; simpl in H; [|discriminate].
    unfold mk_quad in *. destruct (quad_csys _ _ _ _); simpl in *; [|discriminate]. split.
    + intros k HK. exists (model_node_names (k_fem (w_core w))). split; [reflexivity|].
      apply dget_in_keys. destruct HK as [->|[->|[->|HK]]]; eauto. inversion HK; eauto.
    + intros s HS. inversion HS; subst. rewrite dget_dset_eq. eexists. split; [reflexivity|]. simpl.
      split; [reflexivity|]. split; [congruence|]. rewrite E5. reflexivity.
  - unfold mk_tria in *. destruct (tria_csys _ _ _); simpl in *; [|discriminate]. split.
    + intros k HK. exists (model_node_names (k_fem (w_core w))). split; [reflexivity|].
      apply dget_in_keys. destruct HK as [->|[->|[->|HK]]]; eauto. discriminate.
    + intros s HS. discriminate.
Qed.

(** ** C14 *)
Lemma c14_never :
  forall ext ops, let w := final ext init ops in
  (forall c k, answer ext w (OpSolveModal c k) = RBool false)
  /\ (forall n c, answer ext w (OpNodalReaction n c) = RNone)
  /\ (forall b c, answer ext w (OpBeamEndForce b c) = RNone)
  /\ (forall s, answer ext w (OpShellLocation s) = RNone)
  /\ answer ext w OpClear = RBool false.
Proof. intros. repeat split. Qed.

(** ** C01, re-adding *)
Lemma c01_refuted :
  forall ext, exists ops n1 n2 l i,
  (forall x, In x (outs ext init ops) -> x = RBool true)
  /\ answer ext (final ext init ops) OpNodeNames = RNames l
  /\ In n1 l /\ In n2 l /\ n1 <> n2
  /\ number_of (final ext init ops) n1 = Some i
  /\ number_of (final ext init ops) n2 = Some i.
Proof.
  intros ext.
  exists [OpAddNode "A" 0 0 0; OpAddNode "B" 1 0 0; OpAddNode "A" 0 0 0; OpAddNode "C" 2 0 0]%string,
    "A"%string, "C"%string, ["A";"B";"C"]%string, 2%nat.
  unfold outs, final, run, step, model_add_node, answer, number_of, model_node_hid. rewrite !mk_node_total. simpl.
  repeat split; auto; try (intros; intuition; fail). intros; discriminate.
Qed.

(** ** C58 *)
Lemma step_same_core ext w1 w2 o :
  is_model_call o -> w_core w1 = w_core w2 ->
  answer ext w1 o = answer ext w2 o /\ w_core (after ext w1 o) = w_core (after ext w2 o).
Proof.
  intros HM EC. unfold answer, after. destruct o; simpl in *; try tauto; rewrite ?EC; try (split; [reflexivity|]; assumption);
    unfold ret_fem, ret_pat, get_pat, with_fem_w, with_core, bindO; rewrite ?EC; simpl; auto;
    repeat (match goal with |- context [match ?x with _ => _ end] =>
      lazymatch x with context [match _ with _ => _ end] => fail | _ => destruct x end end; simpl; auto).
Qed.

Lemma outs_same_core ext w1 w2 cont :
  Forall is_model_call cont -> w_core w1 = w_core w2 ->
  outs ext w1 cont = outs ext w2 cont /\ w_core (final ext w1 cont) = w_core (final ext w2 cont).
Proof.
  intros H. revert w1 w2. induction H as [|o r Ho Hr IH]; intros w1 w2 E; auto.
  rewrite !outs_cons, !final_cons. destruct (step_same_core ext w1 w2 o Ho E) as [E1 E2].
  destruct (IH _ _ E2) as [E3 E4]. split; congruence.
Qed.

Lemma saved_kept ext w mids fn c :
  Forall (fun o => o <> OpSave fn) mids ->
  dget (sep_file fn) (w_files w) = Some (FSep c) ->
  dget (sep_file fn) (w_files (final ext w mids)) = Some (FSep c).
Proof.
  intros H. revert w. induction H as [|o r Ho Hr IH]; intros w E; auto.
  rewrite final_cons. apply IH. rewrite step_sep. destruct o; auto.
  destruct (String.eqb_spec fn filename); auto. congruence.
Qed.

Lemma load_restores ext w mids fn :
  Forall (fun o => o <> OpSave fn) mids ->
  let w2 := final ext (after ext w (OpSave fn)) mids in
  answer ext w2 (OpLoad fn) = RBool true /\ w_core (after ext w2 (OpLoad fn)) = w_core w.
Proof.
  intros H w2.
  assert (dget (sep_file fn) (w_files w2) = Some (FSep (w_core w))) as E.
  { apply saved_kept; auto. rewrite step_sep. now rewrite String.eqb_refl. }
  unfold answer, after; simpl. rewrite E. auto.
Qed.

Lemma c58_round_trip :
  forall ext w mids fn cont, Forall (fun o => o <> OpSave fn) mids -> Forall is_model_call cont ->
  let w2 := final ext (after ext w (OpSave fn)) mids in
  answer ext (after ext w (OpSave fn)) OpNodeNames = answer ext w OpNodeNames
  /\ answer ext w2 (OpLoad fn) = RBool true
  /\ outs ext (after ext w2 (OpLoad fn)) cont = outs ext w cont.
Proof.
  intros ext w mids fn cont HM HC w2. destruct (load_restores ext w mids fn HM) as [E1 E2].
  split; [reflexivity|]. split; [exact E1|]. now apply outs_same_core.
Qed.

Lemma solve_after_assemble ext w1 w2 c :
  w_core w1 = w_core w2 ->
  outs ext w1 [OpAssemble] = [RBool true] ->
  let v1 := after ext w1 OpAssemble in let v2 := after ext w2 OpAssemble in
  answer ext w2 OpAssemble = RBool true
  /\ answer ext v1 (OpSolveStatic c) = answer ext v2 (OpSolveStatic c)
  /\ (answer ext v1 (OpSolveStatic c) = RBool true ->
      forall n b loc,
      answer ext (after ext v1 (OpSolveStatic c)) (OpNodalDisp n c)
      = answer ext (after ext v2 (OpSolveStatic c)) (OpNodalDisp n c)
      /\ answer ext (after ext v1 (OpSolveStatic c)) (OpBeamDeformation b loc c)
      = answer ext (after ext v2 (OpSolveStatic c)) (OpBeamDeformation b loc c)).
Proof.
  intros EC HA v1 v2.
  assert (exists a, mk_asm (k_fem (w_core w1)) (dvals (k_cases (w_core w1))) (k_heap (w_core w1)) = Some a) as [a Ea].
  { rewrite outs_cons in HA. unfold answer in HA; simpl in HA. destruct (mk_asm _ _ _); eauto. discriminate. }
  assert (read_asb v1 = Some a) as A1.
  { unfold v1, read_asb. rewrite step_asb. now rewrite Ea. }
  assert (read_asb v2 = Some a) as A2.
  { unfold v2, read_asb. rewrite step_asb. rewrite <- EC. now rewrite Ea. }
  split; [|split].
  - unfold answer; simpl. rewrite <- EC, Ea. reflexivity.
  - unfold answer; simpl. unfold do_solve_static. rewrite A1, A2.
    destruct (assemble_K _ _); auto. destruct (solve_linear _ _ _); auto.
  - intros HS n b loc.
    assert (forall v, read_asb v = Some a -> read_disp (after ext v (OpSolveStatic c)) c
             = match solve_linear ext a c with
               | Some d => Some d | None => read_disp v c end) as RD.
    { intros v Hv. unfold read_disp. rewrite step_disp, String.eqb_refl, Hv. simpl.
      destruct (solve_linear _ _ _); auto. }
    assert (exists d, solve_linear ext a c = Some d) as [d Ed].
    { unfold answer in HS; simpl in HS. unfold do_solve_static in HS. rewrite A1 in HS.
      destruct (assemble_K _ _); [|discriminate]. destruct (solve_linear _ _ _); [eauto|discriminate]. }
    assert (forall v, read_asb v = Some a -> read_asb (after ext v (OpSolveStatic c)) = Some a) as RA.
    { intros v Hv. rewrite read_asb_step; auto. discriminate. }
    unfold answer; simpl. rewrite (RA _ A1), (RA _ A2), (RD _ A1), (RD _ A2), Ed. auto.
Qed.

Lemma c58_results :
  forall ext w mids fn c n b loc, Forall (fun o => o <> OpSave fn) mids ->
  outs ext w [OpAssemble; OpSolveStatic c] = [RBool true; RBool true] ->
  let w2 := final ext (after ext w (OpSave fn)) mids in
  outs ext w2 [OpLoad fn; OpAssemble; OpSolveStatic c; OpNodalDisp n c; OpBeamDeformation b loc c]
  = RBool true :: outs ext w [OpAssemble; OpSolveStatic c; OpNodalDisp n c; OpBeamDeformation b loc c].
Proof.
  intros ext w mids fn c n b loc HM HA w2. destruct (load_restores ext w mids fn HM) as [E1 E2].
  fold w2 in E1, E2. rewrite outs_cons, E1. f_equal.
  rewrite outs_cons in HA. injection HA as HA1 HA2. rewrite outs_cons in HA2. injection HA2 as HA2.
  assert (outs ext w [OpAssemble] = [RBool true]) as HA3 by (rewrite outs_cons, HA1; reflexivity).
  destruct (solve_after_assemble ext w (after ext w2 (OpLoad fn)) c (eq_sym E2) HA3) as (B1 & B2 & B3).
  rewrite !outs_cons, B1, HA1, B2. destruct (B3 HA2 n b loc) as [B4 B5]. rewrite B4.
  f_equal. f_equal. f_equal. f_equal. exact (eq_sym B5).
Qed.

(** ** C59 *)
Lemma step_hnode ext w o n h :
  fresh_node ext w o -> is_load o = false -> core_wf (w_core w) ->
  dget n (f_hnode (k_fem (w_core w))) = Some h ->
  dget n (f_hnode (k_fem (w_core (after ext w o)))) = Some h.
Proof.
  intros F NL W. unfold after. destruct o; simpl in *; try discriminate NL; try (intros EQ; exact EQ);
    try (intros EQ; open_fem; grind; exact EQ).
  unfold model_add_node. rewrite mk_node_total. simpl. intros EQ. rewrite dget_dset_neq; auto.
  intros ->. destruct F as (l & E & HN). unfold answer in E; simpl in E. inversion E; subst.
  apply HN. unfold model_node_names. rewrite <- (wf_hkeys _ (cw_fem _ W)). apply dget_in_keys; eauto.
Qed.

Definition asb_sub (w : world) : Prop :=
  forall a, read_asb w = Some a -> forall n h, dget n (f_hnode (a_model a)) = Some h ->
    dget n (f_hnode (k_fem (w_core w))) = Some h.

Lemma asb_sub_step ext w o :
  fresh_node ext w o -> is_load o = false -> wwf w -> asb_sub w -> asb_sub (after ext w o).
Proof.
  intros F NL [W _] HS a Ha n h Hn. unfold read_asb in Ha. rewrite step_asb in Ha.
  assert (read_asb w = Some a \/ a_model a = k_fem (w_core w)) as [HA|HA].
  { destruct o; auto. destruct (mk_asm _ _ _) as [a'|] eqn:E; auto. inversion Ha; subst. right.
    unfold mk_asm, bindO in E. destruct (rest_dofs _ _); [|discriminate]. inversion E; reflexivity. }
  - apply step_hnode; auto. eapply HS; eauto.
  - apply step_hnode; auto. now rewrite <- HA.
Qed.

Definition hid_le (w w' : world) : Prop :=
  forall a, read_asb w = Some a -> exists a', read_asb w' = Some a' /\
   forall n h, dget n (f_hnode (a_model a)) = Some h -> dget n (f_hnode (a_model a')) = Some h.

Lemma hid_le_step ext w o : asb_sub w -> hid_le w (after ext w o).
Proof.
  intros HS a Ha. unfold read_asb at 1. rewrite step_asb.
  destruct o; try (exists a; split; [exact Ha|auto]; fail).
  destruct (mk_asm _ _ _) as [a'|] eqn:E; [|exists a; split; [exact Ha|auto]].
  exists a'. split; auto. intros n h Hn.
  unfold mk_asm, bindO in E. destruct (rest_dofs _ _); [|discriminate]. inversion E; simpl. eapply HS; eauto.
Qed.

Lemma hid_le_run ext w ops :
  wwf w -> asb_sub w -> guarded ext (fresh_node ext) w ops -> (forall o, In o ops -> ~ is_Load o) ->
  hid_le w (final ext w ops) /\ asb_sub (final ext w ops).
Proof.
  revert w. induction ops as [|o r IH]; intros w W S G NL.
  - split; auto. intros a Ha. exists a. auto.
  - destruct G as [G1 G2]. assert (is_load o = false) as L.
    { specialize (NL o (or_introl eq_refl)). destruct o; auto. exfalso; apply NL; exact I. }
    destruct (IH (after ext w o)) as [I1 I2].
    + now apply wwf_step.
    + now apply asb_sub_step.
    + exact G2.
    + intros; apply NL; right; auto.
    + rewrite final_cons. split; auto. intros a Ha.
      destruct (hid_le_step ext w o S a Ha) as (a1 & H1 & H2).
      destruct (I1 a1 H1) as (a2 & H3 & H4). exists a2. split; auto.
Qed.

Lemma read_disp_run ext w ops c :
  (forall o, In o ops -> o <> OpSolveStatic c) -> read_disp (final ext w ops) c = read_disp w c.
Proof.
  revert w. induction ops as [|o r IH]; intros w H; auto.
  rewrite final_cons, IH by (intros; apply H; right; auto). apply read_disp_step. apply H. left; auto.
Qed.

Lemma c59_results_stay_partial :
  forall ext pre mids n c v,
  never_readds_nodes ext (pre ++ mids) ->
  (forall o, In o (pre ++ mids) -> ~ is_Load o) ->
  (forall o, In o mids -> o <> OpSolveStatic c) ->
  answer ext (final ext init pre) (OpNodalDisp n c) = RVec v ->
  answer ext (final ext init (pre ++ mids)) (OpNodalDisp n c) = RVec v.
Proof.
  intros ext pre mids n c v HN NL NS HA. unfold never_readds_nodes in HN.
  rewrite guarded_app in HN. destruct HN as [G1 G2].
  destruct (hid_le_run ext init pre wwf_init) as [_ S1]; auto.
  { intros a Ha. discriminate Ha. }
  { intros o Ho. apply NL. apply in_or_app; auto. }
  destruct (hid_le_run ext (final ext init pre) mids (wwf_reach ext pre) S1 G2) as [L _].
  { intros o Ho. apply NL. apply in_or_app; auto. }
  rewrite final_app. revert HA. unfold answer; simpl. rewrite (read_disp_run ext (final ext init pre) mids c) by auto.
  destruct (read_asb (final ext init pre)) as [a|] eqn:EA; simpl; [|discriminate].
  destruct (L a EA) as (a' & EA' & HL). rewrite EA'. simpl.
  destruct (read_disp (final ext init pre) c) as [d|]; simpl; [|discriminate].
  unfold resolve_nodal_displacement, model_node_hid.
  destruct (dget n (f_hnode (a_model a))) as [h|] eqn:EH; simpl; [|discriminate].
  now rewrite (HL _ _ EH).
Qed.
