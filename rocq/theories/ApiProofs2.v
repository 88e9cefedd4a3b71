(** Proofs for the properties of the interface, continued. *)
From Coq Require Import Reals Lra Lia List String Arith Bool ZArith.
From Verif Require Import Base BaseFacts Csys Sections Element Load FeModel Assembly Solver Post Api SpecApi ApiFacts WfFacts HidFacts ApiProofs1.
Import ListNotations.
Local Open Scope R_scope.

(** ** Effect of one call on each component *)
Ltac open_fem :=
  unfold ret_fem, ret_pat, model_set_releases, model_add_general, model_add_rectangle, model_add_I, model_add_box,
    model_add_circle, model_add_pipe, model_add_bsection, model_add_ssection,
    model_set_mass, model_set_restraint, model_add_beam, model_add_simple_beam, model_put_beam,
    model_add_shell, do_solve_static, model_add_node, bindO; rewrite ?mk_node_total; simpl; try reflexivity.
Ltac dmi :=
  match goal with |- context [match ?x with _ => _ end] =>
    lazymatch x with
    | context [match _ with _ => _ end] => fail
    | _ => destruct x eqn:?
    end
  end.
Ltac grind := repeat (dmi; simpl in *; try reflexivity; try discriminate).

Lemma step_loc ext w o n :
  is_load o = false -> adds_node o <> Some n ->
  option_map n_loc (dget n (f_nodes (k_fem (w_core (after ext w o)))))
  = option_map n_loc (dget n (f_nodes (k_fem (w_core w)))).
Proof.
  intros NL NA. unfold after. destruct o; simpl in *; try discriminate NL; try reflexivity;
    try (open_fem; grind; fail).
  - unfold model_add_node. rewrite mk_node_total. simpl. rewrite dget_dset_neq; auto. congruence.
  - open_fem. destruct (dget name _) eqn:E; simpl; auto. rewrite dget_dset.
    destruct (String.eqb_spec n name); auto. subst. rewrite E. reflexivity.
Qed.

Lemma step_nodekeys ext w o n :
  is_load o = false -> adds_node o <> Some n ->
  (In n (dkeys (f_nodes (k_fem (w_core (after ext w o))))) <-> In n (dkeys (f_nodes (k_fem (w_core w))))).
Proof.
  intros NL NA. rewrite !dget_in_keys. pose proof (step_loc ext w o n NL NA) as H.
  destruct (dget n (f_nodes (k_fem (w_core (after ext w o))))), (dget n (f_nodes (k_fem (w_core w))));
    simpl in H; try discriminate H; split; intros [v E]; eauto; discriminate.
Qed.

Lemma step_rest ext w o n :
  is_load o = false -> (forall fl, o <> OpSetRestraint n fl) ->
  dget n (f_rest (k_fem (w_core (after ext w o)))) = dget n (f_rest (k_fem (w_core w))).
Proof.
  intros NL NA. unfold after. destruct o; simpl in *; try discriminate NL; try reflexivity;
    try (open_fem; grind; fail).
  - unfold model_set_restraint. destruct (negb _); simpl; auto. apply dget_dset_neq.
    intros ->. apply (NA flags). reflexivity.
Qed.

Lemma step_beam ext w o b :
  is_load o = false -> adds_beam o <> Some b ->
  dget b (f_beams (k_fem (w_core (after ext w o)))) = dget b (f_beams (k_fem (w_core w))).
Proof.
  intros NL NA. unfold after. destruct o; simpl in *; try discriminate NL; try reflexivity;
    try (open_fem; grind; fail).
  - open_fem; grind; apply dget_dset_neq; congruence.
  - open_fem; grind; apply dget_dset_neq; congruence.
Qed.

Lemma step_shell ext w o s :
  is_load o = false -> adds_shell o <> Some s ->
  dget s (f_shells (k_fem (w_core (after ext w o)))) = dget s (f_shells (k_fem (w_core w))).
Proof.
  intros NL NA. unfold after. destruct o; simpl in *; try discriminate NL; try reflexivity;
    try (open_fem; grind; fail).
  - open_fem; grind; apply dget_dset_neq; congruence.
Qed.

Lemma step_case_rest ext w o c n :
  is_load o = false -> (forall fl, o <> OpSetCaseRestraint c n fl) -> o <> OpAddStatic c -> o <> OpAddModal c ->
  bindO (dget c (k_cases (w_core (after ext w o)))) (fun lc => dget n (c_rest lc))
  = bindO (dget c (k_cases (w_core w))) (fun lc => dget n (c_rest lc)).
Proof.
  intros NL N1 N2 N3. unfold after. destruct o; simpl in *; try discriminate NL; try reflexivity;
    try (open_fem; grind; fail).
  - destruct (dget case _) as [lc|] eqn:E; simpl; auto. rewrite dget_dset.
    destruct (String.eqb_spec c case); auto. subst. rewrite E. simpl. apply dget_dset_neq.
    intros ->. apply (N1 flags). reflexivity.
  - rewrite dget_dset_neq; auto; congruence.
  - rewrite dget_dset_neq; auto; congruence.
  - destruct (dget case _) as [lc|] eqn:E; simpl; auto.
    destruct (dget pattern _) as [a|]; simpl; auto.
    destruct (nth_error _ a); simpl; auto. rewrite dget_dset.
    destruct (String.eqb_spec c case); auto. subst. rewrite E. reflexivity.
Qed.

Lemma addr_distinct c k k' a a' :
  core_wf c -> dget k (k_pats c) = Some a -> dget k' (k_pats c) = Some a' -> k <> k' -> a <> a'.
Proof.
  intros W H H' N ->. pose proof (cw_pats _ W _ _ (dget_some_in _ _ _ H)) as (p & E1 & N1).
  pose proof (cw_pats _ W _ _ (dget_some_in _ _ _ H')) as (p' & E2 & N2). congruence.
Qed.

Lemma step_nodal ext w o p n :
  core_wf (w_core w) -> is_load o = false -> o <> OpAddPattern p -> (forall f, o <> OpSetNodalLoad p n f) ->
  bindO (get_pat (after ext w o) p) (fun pt => pat_nodal_f pt n)
  = bindO (get_pat w p) (fun pt => pat_nodal_f pt n).
Proof.
  intros W NL N1 N2.
  assert (forall q u, (forall pt a, dget q (k_pats (w_core w)) = Some a ->
             q = p -> nth_error (k_heap (w_core w)) a = Some pt -> pat_nodal_f (u pt) n = pat_nodal_f pt n) ->
          bindO (get_pat (fst (ret_pat w q u)) p) (fun pt => pat_nodal_f pt n)
          = bindO (get_pat w p) (fun pt => pat_nodal_f pt n)) as RP.
  { intros q u Hu. unfold ret_pat, get_pat, bindO.
    destruct (dget q (k_pats (w_core w))) as [a|] eqn:Eq; simpl; [|reflexivity].
    destruct (nth_error (k_heap (w_core w)) a) as [pt|] eqn:Ea; simpl; [|reflexivity].
    destruct (dget p (k_pats (w_core w))) as [a'|] eqn:Ep; [|reflexivity].
    destruct (string_dec q p).
    - subst. rewrite Eq in Ep. inversion Ep; subst. rewrite Ea.
      rewrite nth_error_set_nth_eq by (eapply nth_error_lt; eauto). eauto.
    - rewrite nth_error_set_nth_neq; auto. eapply addr_distinct; eauto. }
  unfold after. destruct o; simpl in *; try discriminate NL; try reflexivity;
    try (unfold get_pat; open_fem; grind; fail).
  - unfold get_pat; simpl. rewrite dget_dset_neq by congruence.
    destruct (dget p (k_pats (w_core w))) as [a|] eqn:E; simpl; auto.
    pose proof (cw_pats _ W _ _ (dget_some_in _ _ _ E)) as (pt & E1 & _).
    rewrite nth_error_app1; auto. eapply nth_error_lt; eauto.
  - destruct f as [[[[[f1 f2] f3] m1] m2] m3] eqn:Ef. apply RP. intros pt a _ -> _. unfold pat_nodal_f; simpl.
    apply dget_dset_neq. intros ->. eapply N2. reflexivity.
  - apply RP. reflexivity.
  - destruct F as [[[[[f1 f2] f3] m1] m2] m3]. apply RP. reflexivity.
Qed.

Lemma read_disp_step ext w o c :
  o <> OpSolveStatic c -> read_disp (after ext w o) c = read_disp w c.
Proof.
  intros N. unfold read_disp. rewrite step_disp. destruct o; auto.
  destruct (String.eqb_spec c case); auto. congruence.
Qed.
Lemma read_asb_step ext w o : o <> OpAssemble -> read_asb (after ext w o) = read_asb w.
Proof. intros N. unfold read_asb. rewrite step_asb. destruct o; auto. congruence. Qed.

Lemma ans_loc ext w n : answer ext w (OpNodeLocation n)
  = match option_map n_loc (dget n (f_nodes (k_fem (w_core w)))) with Some v => RVec3 v | None => RNone end.
Proof.
  unfold answer; simpl. unfold model_node_location, bindO. destruct (dget n _); reflexivity.
Qed.
Lemma ans_case_rest ext w c n : entry n (answer ext w (OpNodeRestraints (Some c)))
  = bindO (dget c (k_cases (w_core w))) (fun lc => dget n (c_rest lc)).
Proof.
  unfold answer; simpl. unfold bindO. destruct (dget c _); simpl; auto. apply lookup_dget.
Qed.

Lemma in_dec_iff n l l' : (In n l <-> In n l') ->
  (if in_dec string_dec n l then true else false) = (if in_dec string_dec n l' then true else false).
Proof. intros H. destruct (in_dec string_dec n l), (in_dec string_dec n l'); tauto. Qed.

Lemma keys_iff {A} k (d d' : dict A) : dget k d = dget k d' -> (In k (dkeys d) <-> In k (dkeys d')).
Proof. intros H. rewrite !dget_in_keys, H. tauto. Qed.

Lemma c04_frame :
  forall ext ops o b, let w := final ext init ops in
  ~ may_change o b -> observe ext (after ext w o) b = observe ext w b.
Proof.
  intros ext ops o b w HN. destruct (wwf_reach ext ops) as [W _]. fold w in W.
  assert (is_load o = false \/ match b with ObDisplacement _ _ | ObDeformation _ _ _ => True | _ => False end) as [NL|HL].
  { destruct o; auto. destruct b; simpl in HN; tauto. }
  2:{ destruct b; try contradiction; simpl; unfold answer; simpl.
      - rewrite read_asb_step, read_disp_step; auto; destruct o; simpl in HN; try discriminate; try tauto.
        intros EQ; inversion EQ; tauto.
      - rewrite read_asb_step, read_disp_step; auto; destruct o; simpl in HN; try discriminate; try tauto.
        intros EQ; inversion EQ; tauto. }
  destruct b; simpl.
  - rewrite !ans_loc, step_loc; auto. destruct o; simpl in *; congruence.
  - unfold answer; simpl. rewrite !lookup_dget, step_rest; auto. intros fl ->. apply HN. reflexivity.
  - rewrite !ans_case_rest, step_case_rest; auto; try (intros fl ->; apply HN; simpl; auto);
      intros ->; apply HN; reflexivity.
  - unfold answer; simpl. unfold model_beam_connection. rewrite step_beam; auto.
    destruct o; simpl in *; congruence.
  - unfold answer; simpl. unfold model_beam_location. rewrite step_beam; auto.
    destruct o; simpl in *; congruence.
  - unfold answer; simpl. unfold model_shell_connection. rewrite step_shell; auto.
    destruct o; simpl in *; congruence.
  - unfold answer; simpl. rewrite step_nodal; auto.
    + intros ->. apply HN. reflexivity.
    + intros f ->. apply HN. simpl. auto.
  - unfold answer; simpl. rewrite read_asb_step, read_disp_step; auto.
    + intros ->. apply HN. reflexivity.
    + intros ->. apply HN. exact I.
  - unfold answer; simpl. rewrite read_asb_step, read_disp_step; auto.
    + intros ->. apply HN. reflexivity.
    + intros ->. apply HN. exact I.
  - f_equal. destruct (string_dec kind "node") as [->|Nn]; [|destruct (string_dec kind "beam") as [->|Nb]];
      unfold answer; simpl; apply in_dec_iff.
    + apply step_nodekeys; auto. destruct o; simpl in *; try congruence. intros EQ; inversion EQ; tauto.
    + unfold model_beam_names. apply keys_iff, step_beam; auto.
      destruct o; simpl in *; try congruence; intros EQ; inversion EQ; tauto.
    + unfold model_shell_names. apply keys_iff, step_shell; auto.
      destruct o; simpl in *; try congruence; intros EQ; inversion EQ; tauto.
Qed.

(** ** C05 *)
Lemma c05_undefined_refuted :
  forall ext, exists n fl, answer ext init (OpSetRestraint n fl) = RBool true
    /\ entry n (answer ext (after ext init (OpSetRestraint n fl)) (OpNodeRestraints None)) = None.
Proof. intros ext. exists "A"%string, (true,true,true,true,true,true). split; reflexivity. Qed.

Lemma c05_recorded_iff_partial :
  forall ext w n fl,
  (node_exists ext w n ->
     entry n (answer ext (after ext w (OpSetRestraint n fl)) (OpNodeRestraints None)) = Some (list6 fl))
  /\ (~ node_exists ext w n -> indistinguishable ext (after ext w (OpSetRestraint n fl)) w).
Proof.
  intros ext w n fl. split.
  - intros (l & E & HI). unfold answer, after in *; simpl in *. inversion E; subst.
    unfold model_set_restraint. apply dmem_spec in HI. unfold model_node_names in HI. rewrite HI. simpl.
    rewrite lookup_dget, dget_dset_eq. reflexivity.
  - intros HN. apply same_visible_indist. unfold after; simpl. unfold model_set_restraint.
    destruct (dmem n _) eqn:E; simpl.
    + apply dmem_spec in E. exfalso. apply HN. eexists; split; [reflexivity|]. exact E.
    + repeat split. simpl. destruct w as [[]]; reflexivity.
Qed.

(** ** C06: listings *)
Section Track.
Context {A : Type}.
Variables (ext : externals) (upd : A -> op -> out -> A) (Rel : core -> A -> Prop).
Hypothesis Hstep : forall w o a, wwf w -> Rel (w_core w) a ->
  (forall f, o = OpSave f -> False) -> (forall f, o = OpLoad f -> answer ext w o = RNone) ->
  Rel (w_core (after ext w o)) (upd a o (answer ext w o)).

Definition saved_ok (w : world) (saved : string -> option A) : Prop :=
  forall f c, dget (sep_file f) (w_files w) = Some (FSep c) -> exists a, saved f = Some a /\ Rel c a.

Lemma track_sim ops w a saved :
  wwf w -> Rel (w_core w) a -> saved_ok w saved ->
  Rel (w_core (final ext w ops)) (track upd a saved (trace ext w ops)).
Proof.
  revert w a saved. induction ops as [|o r IH]; intros w a saved HW HR HS; [exact HR|].
  rewrite final_cons. simpl.
  assert (forall f c, dget (sep_file f) (w_files (after ext w o)) = Some (FSep c) ->
           (forall g, o <> OpSave g) -> exists a, saved f = Some a /\ Rel c a) as HS'.
  { intros f c E NS. rewrite step_sep in E. destruct o; try (apply HS with (1 := E)).
    exfalso. eapply NS. reflexivity. }
  pose proof (wwf_step ext w o HW) as HW'.
  destruct o; try (apply IH;
      [exact HW'
      |apply Hstep; auto; intros ? EQ; discriminate EQ
      |intros ? ? EQ; apply HS' in EQ; auto; intros; discriminate]).
  - (* save *)
    change (answer ext w (OpSave filename)) with (RBool true).
    apply IH; auto. intros f c E. rewrite step_sep in E.
    destruct (String.eqb f filename); [|apply HS with (1 := E)].
    inversion E; subst. eauto.
  - (* load *)
    assert (saved_ok (after ext w (OpLoad filename)) saved) as HSL
      by (intros f c E; apply HS' in E; auto; intros; discriminate).
    assert (answer ext w (OpLoad filename) = RNone
        \/ exists c, dget (sep_file filename) (w_files w) = Some (FSep c)
             /\ answer ext w (OpLoad filename) = RBool true
             /\ w_core (after ext w (OpLoad filename)) = c) as [EN|(c & E & EA & EC)].
    { unfold answer, after; simpl. destruct (dget (sep_file filename) (w_files w)) as [[]|]; simpl; eauto. }
    + rewrite EN. apply IH; auto.
      rewrite <- EN. apply Hstep; auto. intros f Ef; discriminate Ef.
    + rewrite EA. destruct (HS _ _ E) as (a' & Ea & Hr). rewrite Ea. apply IH; auto. now rewrite EC.
Qed.
End Track.

Lemma note_keys {A} n (v : A) d :
  (if in_dec string_dec n (dkeys d) then dkeys d else dkeys d ++ [n]) = dkeys (dset n v d).
Proof.
  rewrite dkeys_dset. destruct (dmem n d) eqn:E.
  - apply dmem_spec in E. destruct (in_dec string_dec n (dkeys d)); tauto.
  - assert (~ In n (dkeys d)) by (rewrite <- dmem_spec; congruence).
    destruct (in_dec string_dec n (dkeys d)); tauto.
Qed.

Lemma load_none_core ext w f : answer ext w (OpLoad f) = RNone -> after ext w (OpLoad f) = w.
Proof.
  unfold answer, after; simpl. destruct (dget _ _) as [[]|]; simpl; auto. discriminate.
Qed.

Lemma c06_node_names :
  forall ext ops, answer ext (final ext init ops) OpNodeNames
    = RNames (track (note_name adds_node) [] nothing_saved (trace ext init ops)).
Proof.
  intros ext ops. unfold answer; simpl. f_equal.
  apply (track_sim ext (note_name adds_node) (fun c l => model_node_names (k_fem c) = l)).
  - intros w o l HW HR NS HL. destruct o; try (exfalso; eapply NS; reflexivity);
      try (specialize (HL _ eq_refl); rewrite load_none_core by auto; unfold note_name; simpl; exact HR);
      unfold answer, after, note_name, model_node_names in *; simpl in *; try exact HR;
      try (open_fem; rewrite <- HR; try reflexivity; grind; fail).
    + unfold model_add_node. rewrite mk_node_total. simpl. rewrite <- HR. symmetry. apply note_keys.
    + open_fem. destruct (dget name _) eqn:E; simpl; auto. rewrite dkeys_dset_old; auto.
      apply dget_in_keys. eauto.
  - apply wwf_init.
  - reflexivity.
  - intros f c E. discriminate E.
Qed.

Lemma c06_beam_names :
  forall ext ops, answer ext (final ext init ops) OpBeamNames
    = RNames (track (note_name adds_beam) [] nothing_saved (trace ext init ops)).
Proof.
  intros ext ops. unfold answer; simpl. f_equal.
  apply (track_sim ext (note_name adds_beam) (fun c l => model_beam_names (k_fem c) = l)).
  - intros w o l HW HR NS HL. destruct o; try (exfalso; eapply NS; reflexivity);
      try (specialize (HL _ eq_refl); rewrite load_none_core by auto; unfold note_name; simpl; exact HR);
      unfold answer, after, note_name, model_beam_names in *; simpl in *; try exact HR;
      try (open_fem; rewrite <- HR; try reflexivity; grind; fail).
    + open_fem; rewrite <- HR; try reflexivity; repeat (dmi; simpl in *; try reflexivity; try discriminate; try (symmetry; apply note_keys)).
    + open_fem; rewrite <- HR; try reflexivity; repeat (dmi; simpl in *; try reflexivity; try discriminate; try (symmetry; apply note_keys)).
  - apply wwf_init.
  - reflexivity.
  - intros f c E. discriminate E.
Qed.

Lemma c06_shell_names :
  forall ext ops, answer ext (final ext init ops) OpShellNames
    = RNames (track (note_name adds_shell) [] nothing_saved (trace ext init ops)).
Proof.
  intros ext ops. unfold answer; simpl. f_equal.
  apply (track_sim ext (note_name adds_shell) (fun c l => model_shell_names (k_fem c) = l)).
  - intros w o l HW HR NS HL. destruct o; try (exfalso; eapply NS; reflexivity);
      try (specialize (HL _ eq_refl); rewrite load_none_core by auto; unfold note_name; simpl; exact HR);
      unfold answer, after, note_name, model_shell_names in *; simpl in *; try exact HR;
      try (open_fem; rewrite <- HR; try reflexivity; grind; fail).
    + open_fem; rewrite <- HR; try reflexivity; repeat (dmi; simpl in *; try reflexivity; try discriminate; try (symmetry; apply note_keys)).
  - apply wwf_init.
  - reflexivity.
  - intros f c E. discriminate E.
Qed.
