(** Proofs for the properties of the interface: numbering, read-back, atomicity,
    framing, listings (C01-C07, C09-C14, C58, C59). *)
From Coq Require Import Reals Lra Lia List String Arith Bool ZArith.
From Verif Require Import Base BaseFacts Csys Sections Element Load FeModel Assembly Solver Post Api SpecApi ApiFacts WfFacts HidFacts.
Import ListNotations.
Local Open Scope R_scope.

(** ** C01 *)
Lemma c01_numbering :
  forall ext ops, never_readds_nodes ext ops ->
  forall names, answer ext (final ext init ops) OpNodeNames = RNames names ->
  let m := k_fem (w_core (final ext init ops)) in
  NoDup names
  /\ (forall i n, nth_error names i = Some n -> model_node_hid n m = Some i)
  /\ (forall n i, model_node_hid n m = Some i -> nth_error names i = Some n)
  /\ (forall n n' i i' r r', model_node_hid n m = Some i -> model_node_hid n' m = Some i' ->
        (r < 6 -> r' < 6 -> i * 6 + r = i' * 6 + r' -> n = n' /\ r = r')%nat)
  /\ (forall n i r, model_node_hid n m = Some i -> (r < 6 -> i * 6 + r < 6 * List.length names)%nat).
Proof.
  intros ext ops H names E m. destruct (wgood_reach ext ops H) as [[W G] _].
  unfold answer in E; simpl in E. inversion E; subst; clear E. fold m in G. fold m.
  pose proof G as (WF & HP & HE). unfold model_node_hid, model_node_names.
  split; [apply WF|]. split; [exact HP|]. split; [intros; now apply good_hid_key|]. split.
  - intros n n' i i' r r' H1 H2 L L' EQ.
    assert (i = i' /\ r = r') as [-> ->] by lia. split; auto. eapply good_hid_inj; eauto.
  - intros n i r H1 L. apply good_hid_lt in H1; auto. unfold node_count in H1.
    unfold dkeys. rewrite map_length. lia.
Qed.

Lemma c01_numbering_assembled :
  forall ext ops, never_readds_nodes ext ops ->
  forall a, read_asb (final ext init ops) = Some a ->
  forall i n, nth_error (model_node_names (a_model a)) i = Some n -> model_node_hid n (a_model a) = Some i.
Proof.
  intros ext ops H a Ha. destruct (wgood_reach ext ops H) as (_ & _ & HA).
  unfold read_asb in Ha. destruct (dget asb_file _) as [[]|] eqn:E; try discriminate. inversion Ha; subst.
  destruct (HA _ eq_refl) as (c & [W G] & EA). apply asm_of_model in EA as [-> _]. apply G.
Qed.

(** ** C02 *)
Lemma lookup_dget {A} k (d : dict A) : lookup k d = dget k d.
Proof.
  induction d as [|[k' v] r IH]; simpl; auto.
  destruct (string_dec k k'), (String.eqb_spec k k'); congruence.
Qed.

Lemma put_beam_get n ni nj p m h m' :
  model_put_beam n ni nj p false m = Some (h, m') ->
  exists b, dget n (f_beams m') = Some b /\ b_ni b = ni /\ b_nj b = nj /\ b_prop b = p.
Proof.
  unfold model_put_beam, mk_beam, bindO.
  destruct (line_csys _ _); [|easy]. intros E; inversion E; subst; simpl.
  rewrite dget_dset_eq. eexists; eauto.
Qed.

Lemma c02_read_back_partial :
  forall ext ops o q P,
  let w := final ext init ops in
  reads_back o = Some (q, P) ->
  (forall n fl, o = OpSetRestraint n fl -> node_exists ext w n) ->
  answer ext w o = RBool true ->
  P (answer ext (after ext w o) q).
Proof.
  intros ext ops o q P w HR HN HA. destruct (wwf_reach ext ops) as [W _]. fold w in W.
  pose proof (cw_fem _ W) as WF.
  destruct o; simpl in HR; inversion HR; subst; clear HR; unfold answer, after in *; simpl in *.
  - unfold model_add_node in *. rewrite mk_node_total in *. simpl in *.
    unfold model_node_location. simpl. rewrite dget_dset_eq. reflexivity.
  - unfold model_add_beam in *.
    destruct (dget start _) as [ni|] eqn:E1; simpl in *; [|discriminate].
    destruct (dget end_ _) as [nj|] eqn:E2; simpl in *; [|discriminate].
    destruct (dget section _) as [s|] eqn:E3; simpl in *; [|discriminate].
    destruct (model_put_beam _ _ _ _ _ _) as [[h m']|] eqn:E4; simpl in *; [|discriminate].
    apply put_beam_get in E4 as (b & E4 & Ei & Ej & _). unfold model_beam_connection. rewrite E4. simpl.
    destruct (node_ok_dget _ _ _ WF E1) as [_ N1], (node_ok_dget _ _ _ WF E2) as [_ N2]. congruence.
  - unfold model_add_simple_beam in *.
    destruct (dget start _) as [ni|] eqn:E1; simpl in *; [|discriminate].
    destruct (dget end_ _) as [nj|] eqn:E2; simpl in *; [|discriminate].
    destruct (model_put_beam _ _ _ _ _ _) as [[h m']|] eqn:E4; simpl in *; [|discriminate].
    apply put_beam_get in E4 as (b & E4 & Ei & Ej & _). unfold model_beam_connection. rewrite E4. simpl.
    destruct (node_ok_dget _ _ _ WF E1) as [_ N1], (node_ok_dget _ _ _ WF E2) as [_ N2]. congruence.
  - unfold get_pat; simpl. rewrite dget_dset_eq. simpl. rewrite nth_error_app2 by lia.
    rewrite Nat.sub_diag. reflexivity.
  - destruct (HN _ _ eq_refl) as (l & El & HI). simpl in El. inversion El; subst.
    unfold model_set_restraint. apply dmem_spec in HI. unfold model_node_names in HI.
    rewrite HI. simpl. rewrite lookup_dget, dget_dset_eq. reflexivity.
  - destruct (dget case _) as [lc|] eqn:E; simpl in *; [|discriminate].
    rewrite dget_dset_eq. simpl. rewrite lookup_dget, dget_dset_eq. reflexivity.
  - destruct f as [[[[[f1 f2] f3] m1] m2] m3]. unfold ret_pat, get_pat, bindO in *. simpl in *.
    destruct (dget pattern _) as [a|] eqn:E; simpl in *; [|discriminate].
    destruct (nth_error _ a) as [pt|] eqn:E2; simpl in *; [|discriminate].
    rewrite E, nth_error_set_nth_eq by (eapply nth_error_lt; eauto).
    unfold pat_nodal_f. simpl. rewrite dget_dset_eq. reflexivity.
  - rewrite dget_dset_eq. reflexivity.
  - rewrite dget_dset_eq. reflexivity.
Qed.

Lemma c02_mass :
  forall ext w n v, answer ext w (OpSetMass n v) = RBool true ->
  model_nodal_mass n (k_fem (w_core (after ext w (OpSetMass n v)))) = Some (list6 v).
Proof.
  intros ext w n v. unfold answer, after; simpl. unfold model_set_mass.
  destruct (dget n _); simpl; [|discriminate]. intros _. unfold model_nodal_mass. simpl.
  rewrite dget_dset_eq. reflexivity.
Qed.

Lemma c02_restraint_refuted :
  forall ext, exists n fl q P, reads_back (OpSetRestraint n fl) = Some (q, P)
   /\ answer ext init (OpSetRestraint n fl) = RBool true
   /\ ~ P (answer ext (after ext init (OpSetRestraint n fl)) q).
Proof.
  intros ext. exists "A"%string, (true,true,true,true,true,true).
  do 2 eexists. split; [reflexivity|]. split; [reflexivity|]. simpl. discriminate.
Qed.

Ltac dbind :=
  match goal with |- context [@bindO ?A ?B ?x ?f] => destruct (@bindO A B x f) as [[]|] end.

Ltac dm := match goal with |- context [match ?x with _ => _ end] => destruct x eqn:? end.

(** ** C03: failing calls *)
Definition same_visible (w1 w2 : world) : Prop :=
  w_core w1 = w_core w2
  /\ (forall f, dget (sep_file f) (w_files w1) = dget (sep_file f) (w_files w2))
  /\ dget asb_file (w_files w1) = dget asb_file (w_files w2)
  /\ (forall c, dget (disp_file c) (w_files w1) = dget (disp_file c) (w_files w2)).

Lemma same_visible_step ext w1 w2 o :
  same_visible w1 w2 ->
  answer ext w1 o = answer ext w2 o /\ same_visible (after ext w1 o) (after ext w2 o).
Proof.
  intros (EC & ES & EA & ED).
  assert (answer ext w1 o = answer ext w2 o /\ w_core (after ext w1 o) = w_core (after ext w2 o)) as [HA HC].
  { unfold answer, after. destruct w1 as [c1 f1], w2 as [c2 f2]; simpl in *; subst.
    assert (forall p u, snd (ret_pat (World c2 f1) p u) = snd (ret_pat (World c2 f2) p u)
         /\ w_core (fst (ret_pat (World c2 f1) p u)) = w_core (fst (ret_pat (World c2 f2) p u))) as RP.
    { intros p u. unfold ret_pat; simpl. dbind; split; reflexivity. }
    assert (read_asb (World c2 f1) = read_asb (World c2 f2)) as RA by (unfold read_asb; simpl; now rewrite EA).
    assert (forall c, read_disp (World c2 f1) c = read_disp (World c2 f2) c) as RD
      by (intros; unfold read_disp; simpl; now rewrite ED).
    unfold ret_fem.
    destruct o; simpl; rewrite ?RA, ?RD; try (split; reflexivity); try apply RP;
      try (destruct (_ : option fem); split; reflexivity).
    - rewrite ES. destruct (dget (sep_file filename) f2) as [[]|]; split; reflexivity.
    - destruct casename; split; reflexivity.
    - destruct (dget case (k_cases c2)); split; reflexivity.
    - destruct f as [[[[[]]]]]. apply RP.
    - destruct F as [[[[[]]]]]. apply RP.
    - dbind; split; reflexivity.
    - destruct (mk_asm _ _ _); split; reflexivity.
    - unfold do_solve_static. rewrite RA. repeat (dm; simpl); split; reflexivity. }
  split; auto. split; [exact HC|]. split; [|split].
  - intros f. rewrite !step_sep. destruct o; auto. rewrite EC. destruct (String.eqb f filename); auto.
  - rewrite !step_asb. destruct o; auto. rewrite EC. destruct (mk_asm _ _ _); auto.
  - intros c. rewrite !step_disp. destruct o; auto. unfold read_asb. rewrite EA.
    destruct (String.eqb c case); auto. dbind; auto.
Qed.

Lemma same_visible_indist ext w1 w2 : same_visible w1 w2 -> indistinguishable ext w1 w2.
Proof.
  intros H cont. revert w1 w2 H. induction cont; intros w1 w2 H; auto.
  rewrite !outs_cons. destruct (same_visible_step ext w1 w2 a H) as [E H']. rewrite E. f_equal. auto.
Qed.

Lemma same_visible_refl w : same_visible w w.
Proof. repeat split. Qed.

Lemma c03_failed_call :
  forall ext w o, answer ext w o = RBool false \/ answer ext w o = RNone ->
  indistinguishable ext (after ext w o) w.
Proof.
  intros ext w o H. apply same_visible_indist. unfold answer, after in *.
  assert (forall r, (snd (ret_fem w r) = RBool false \/ snd (ret_fem w r) = RNone) ->
            same_visible (fst (ret_fem w r)) w) as RF.
  { intros [m|]; simpl; [intros [?|?]; discriminate|intros; apply same_visible_refl]. }
  assert (forall p u, (snd (ret_pat w p u) = RBool false \/ snd (ret_pat w p u) = RNone) ->
            same_visible (fst (ret_pat w p u)) w) as RP.
  { intros p u. unfold ret_pat. dbind; simpl;
      [intros [?|?]; discriminate|intros; apply same_visible_refl]. }
  destruct o; simpl in *; try (apply same_visible_refl); try (apply RF; exact H);
    try (apply RP; exact H); try (destruct H; discriminate).
  - destruct (dget _ _) as [[]|]; simpl in *; try (apply same_visible_refl). destruct H; discriminate.
  - destruct casename; apply same_visible_refl.
  - destruct (dget _ _); simpl in *; [destruct H; discriminate|apply same_visible_refl].
  - destruct f as [[[[[]]]]]. now apply RP.
  - destruct F as [[[[[]]]]]. now apply RP.
  - dbind; simpl in *; [destruct H; discriminate|apply same_visible_refl].
  - destruct (mk_asm _ _ _); simpl in *; [destruct H; discriminate|apply same_visible_refl].
  - unfold do_solve_static in *. destruct (read_asb w); simpl in *; [|apply same_visible_refl].
    destruct (assemble_K _ _); simpl in *; [|apply same_visible_refl].
    destruct (solve_linear _ _ _); simpl in *; [destruct H; discriminate|].
    repeat split; simpl; intros; rewrite dget_dset_neq; auto with fnames.
Qed.
