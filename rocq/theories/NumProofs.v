(** Numbering of beams and shells (C67). *)
From Coq Require Import Reals Lra Lia List String Arith Bool ZArith.
From Verif Require Import Base BaseFacts Csys Sections Element Load FeModel Assembly Solver Post Api SpecApi ApiFacts WfFacts HidFacts ApiProofs1.
Import ListNotations.
Local Open Scope R_scope.

(** numbers follow the order of the names *)
Definition numbered {A} (d : dict A) (h : dict nat) : Prop :=
  NoDup (dkeys d) /\ dkeys h = dkeys d
  /\ forall i k, nth_error (dkeys d) i = Some k -> dget k h = Some i.
Definition elems_numbered (m : fem) : Prop :=
  numbered (f_beams m) (f_hbeam m) /\ numbered (f_shells m) (f_hshell m).

Lemma numbered_add {A} (d : dict A) h n x :
  numbered d h -> ~ In n (dkeys d) -> numbered (dset n x d) (dset n (List.length d) h).
Proof.
  intros (ND & EK & HP) HF. split; [|split].
  - now apply nodup_dset.
  - rewrite !dkeys_dset_new; auto; [now rewrite EK|]. now rewrite EK.
  - intros i k. rewrite dkeys_dset_new by auto. intros HI.
    destruct (Nat.lt_ge_cases i (List.length (dkeys d))) as [L|L].
    + rewrite nth_error_app1 in HI by auto. rewrite dget_dset_neq; auto.
      intros ->. apply nth_error_In in HI. auto.
    + rewrite nth_error_app2 in HI by auto.
      destruct (i - List.length (dkeys d))%nat eqn:E; simpl in HI.
      * inversion HI; subst. rewrite dget_dset_eq. f_equal. unfold dkeys in *. rewrite map_length in *. lia.
      * destruct n0; discriminate.
Qed.

Lemma en_same m m' :
  elems_numbered m -> f_beams m' = f_beams m -> f_shells m' = f_shells m ->
  f_hbeam m' = f_hbeam m -> f_hshell m' = f_hshell m -> elems_numbered m'.
Proof. intros [H1 H2] E1 E2 E3 E4. unfold elems_numbered. now rewrite E1, E2, E3, E4. Qed.

Lemma en_put_beam n ni nj p d m h m' :
  elems_numbered m -> ~ In n (dkeys (f_beams m)) -> model_put_beam n ni nj p d m = Some (h, m') -> elems_numbered m'.
Proof.
  intros [H1 H2] HF. unfold model_put_beam, bindO. destruct (mk_beam n ni nj p); [|easy]. cbv zeta.
  destruct (if d then _ else _).
  - intros E. inversion E; subst. split; simpl; auto. now apply numbered_add.
  - destruct (dget _ _); [|easy]. intros E. inversion E; subst. split; auto.
Qed.
Lemma en_add_beam n s e sec d m h m' :
  elems_numbered m -> ~ In n (dkeys (f_beams m)) -> model_add_beam n s e sec d m = Some (h, m') -> elems_numbered m'.
Proof.
  intros H HF. unfold model_add_beam, bindO. destruct (dget s _); [|easy]. destruct (dget e _); [|easy].
  destruct (dget sec _); [|easy]. now apply en_put_beam.
Qed.
Lemma en_add_simple_beam n s e E mu A I2 I3 J rho d m h m' :
  elems_numbered m -> ~ In n (dkeys (f_beams m)) ->
  model_add_simple_beam n s e E mu A I2 I3 J rho d m = Some (h, m') -> elems_numbered m'.
Proof.
  intros H HF. unfold model_add_simple_beam, bindO. destruct (dget s _); [|easy]. destruct (dget e _); [|easy].
  now apply en_put_beam.
Qed.
Lemma en_add_shell n sec a b c d m h m' :
  elems_numbered m -> ~ In n (dkeys (f_shells m)) -> model_add_shell n sec a b c d m = Some (h, m') -> elems_numbered m'.
Proof.
  intros [H1 H2] HF. unfold model_add_shell.
  destruct (dget sec (f_ssecs m)); simpl; [|easy].
  destruct (dget a (f_nodes m)); simpl; [|easy].
  destruct (dget b (f_nodes m)); simpl; [|easy].
  destruct (dget c (f_nodes m)); simpl; [|easy].
  destruct (match d with Some _ => _ | None => _ end) as [el|]; simpl; [|easy].
  intros E. inversion E; subst. split; simpl; auto. now apply numbered_add.
Qed.
Lemma en_add_node n x y z d m h m' :
  elems_numbered m -> model_add_node n x y z d m = Some (h, m') -> elems_numbered m'.
Proof.
  intros H. unfold model_add_node, bindO. destruct (mk_node n x y z); [|easy]. cbv zeta.
  destruct (if d then _ else _).
  - intros E. inversion E; subst. eapply en_same; eauto.
  - destruct (dget _ _); [|easy]. intros E. inversion E; subst. auto.
Qed.
Lemma en_set_mass n x m m' : elems_numbered m -> model_set_mass n x m = Some m' -> elems_numbered m'.
Proof.
  intros H. unfold model_set_mass, bindO. destruct (dget _ _); [|easy].
  intros E. inversion E; subst. eapply en_same; eauto.
Qed.

Definition core_en (c : core) : Prop := elems_numbered (k_fem c).
Lemma core_en_step ext w o :
  fresh_element ext w o -> core_en (w_core w) -> is_load o = false -> core_en (w_core (after ext w o)).
Proof.
  unfold core_en. intros F G NL. unfold after.
  assert (forall r, (forall m', r = Some m' -> elems_numbered m') -> elems_numbered (k_fem (w_core (fst (ret_fem w r))))) as RF.
  { intros [m'|] H; simpl; auto. }
  assert (forall (r : option (nat * fem)), (forall h m', r = Some (h, m') -> elems_numbered m') ->
           elems_numbered (k_fem (w_core (fst (ret_fem w (bindO r (fun r => Some (snd r)))))))) as RF2.
  { intros [[h m']|] H; simpl; eauto. }
  assert (forall p u, elems_numbered (k_fem (w_core (fst (ret_pat w p u))))) as RP.
  { intros p u. unfold ret_pat, bindO.
    destruct (dget p (k_pats (w_core w))) as [a|]; simpl; auto.
    destruct (nth_error (k_heap (w_core w)) a) as [pt|] eqn:E; simpl; auto. }
  assert (forall n mt mk m', model_add_bsection n mt mk (k_fem (w_core w)) = Some m' -> elems_numbered m') as BS.
  { intros n mt mk m'. unfold model_add_bsection, bindO. destruct (dget mt _); [|easy].
    destruct (mk m); [|easy]. intros H; inversion H; subst. eapply en_same; eauto. }
  assert (forall l (P : list string -> Prop), (exists l', RNames l = RNames l' /\ P l') -> P l) as NM.
  { intros l P (l' & E & H). inversion E; subst. auto. }
  destruct o; simpl; try discriminate NL; try exact G;
    try (apply RF; intros m' H; solve [eapply BS; eauto | eapply en_set_mass; eauto | discriminate H]);
    try (apply RF2; intros h m' H; eapply en_add_node; eassumption).
  - destruct casename; simpl; auto.
  - apply RF. intros m' H. unfold model_add_ssection, bindO in H.
    destruct (dget mat _); [|easy]. inversion H; subst. eapply en_same; eauto.
  - apply RF2. intros h m' H. eapply en_add_beam; eauto. apply (NM _ (fun l => ~ In name l)). exact F.
  - apply RF2. intros h m' H. eapply en_add_simple_beam; eauto. apply (NM _ (fun l => ~ In name l)). exact F.
  - apply RF2. intros h m' H. eapply en_add_shell; eauto. apply (NM _ (fun l => ~ In name l)). exact F.
  - unfold model_set_restraint. destruct (negb (dmem node _)); [|exact G]. exact G.
  - destruct (dget case (k_cases (w_core w))); simpl; auto.
  - destruct f as [[[[[f1 f2] f3] m1] m2] m3]. apply RP.
  - apply RP.
  - destruct F0 as [[[[[f1 f2] f3] m1] m2] m3]. apply RP.
  - destruct (dget case (k_cases (w_core w))) as [lc|] eqn:E; simpl; auto.
    destruct (dget pattern (k_pats (w_core w))) as [a|] eqn:Ep; simpl; auto.
    destruct (nth_error (k_heap (w_core w)) a) as [pt|] eqn:Eh; simpl; auto.
  - destruct (mk_asm _ _ _); simpl; auto.
  - unfold do_solve_static. destruct (read_asb w); simpl; auto.
    destruct (assemble_K _ _); simpl; auto. destruct (solve_linear _ _ _); simpl; auto.
Qed.
Definition asm_en (a : asm) : Prop := elems_numbered (a_model a).
Lemma wen_reach ext ops : never_readds_elements ext ops -> winv core_en asm_en (final ext init ops).
Proof.
  intros H. eapply winv_reach with (G := fresh_element ext); eauto.
  - intros w o F [HP _] L. now apply core_en_step.
  - intros c a HP E. assert (asm_of c a) as A by exact E. apply asm_of_model in A as [A _]. unfold asm_en. rewrite A. exact HP.
  - split; (split; [constructor|split; [reflexivity|]]); intros [|i] k; discriminate.
Qed.

Lemma numbered_iff {A} (d : dict A) h n i : numbered d h -> (dget n h = Some i <-> nth_error (dkeys d) i = Some n).
Proof.
  intros (ND & EK & HP). split; [|apply HP]. intros H.
  assert (In n (dkeys d)) as HI by (rewrite <- EK; apply dget_in_keys; eauto).
  apply In_nth_error in HI as [j HJ]. rewrite (HP _ _ HJ) in H. congruence.
Qed.

Lemma c67_beams : forall ext ops, never_readds_elements ext ops ->
  forall names, answer ext (final ext init ops) OpBeamNames = RNames names ->
  NoDup names
  /\ (forall n i, model_beam_hid n (k_fem (w_core (final ext init ops))) = Some i <-> nth_error names i = Some n).
Proof.
  intros ext ops H names E. destruct (wen_reach ext ops H) as [[HB HS] _].
  unfold answer in E; simpl in E. inversion E; subst; clear E. split; [apply HB|].
  intros n i. now apply numbered_iff.
Qed.
Lemma c67_shells : forall ext ops, never_readds_elements ext ops ->
  forall names, answer ext (final ext init ops) OpShellNames = RNames names ->
  NoDup names
  /\ (forall n i, model_shell_hid n (k_fem (w_core (final ext init ops))) = Some i <-> nth_error names i = Some n).
Proof.
  intros ext ops H names E. destruct (wen_reach ext ops H) as [[HB HS] _].
  unfold answer in E; simpl in E. inversion E; subst; clear E. split; [apply HS|].
  intros n i. now apply numbered_iff.
Qed.
Lemma c67_assembled : forall ext ops, never_readds_elements ext ops ->
  forall a, read_asb (final ext init ops) = Some a ->
  forall n i, (model_beam_hid n (a_model a) = Some i <-> nth_error (model_beam_names (a_model a)) i = Some n)
  /\ (model_shell_hid n (a_model a) = Some i <-> nth_error (model_shell_names (a_model a)) i = Some n).
Proof.
  intros ext ops H a Ha n i. destruct (wen_reach ext ops H) as (_ & _ & HA).
  unfold read_asb in Ha. destruct (dget asb_file _) as [[]|] eqn:E; try discriminate. inversion Ha; subst.
  destruct (HA _ eq_refl) as [HB HS]. split; now apply numbered_iff.
Qed.
