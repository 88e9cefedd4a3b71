(** Node numbering in histories that never re-add a node name. *)
From Coq Require Import Reals Lra Lia List String Arith Bool ZArith.
From Verif Require Import Base BaseFacts Csys Sections Element Load FeModel Assembly Solver Post Api SpecApi ApiFacts WfFacts.
Import ListNotations.
Local Open Scope R_scope.

Definition hid_pos (m : fem) : Prop :=
  forall i k, nth_error (dkeys (f_nodes m)) i = Some k -> dget k (f_hnode m) = Some i.
Definition cur (m : fem) (n : node) : Prop :=
  exists n', dget (n_name n) (f_nodes m) = Some n' /\ n_loc n' = n_loc n.
Definition ends_current (m : fem) : Prop :=
  (forall k b, In (k, b) (f_beams m) -> cur m (b_ni b) /\ cur m (b_nj b))
  /\ (forall k s n, In (k, s) (f_shells m) -> In n (sh_nodes s) -> cur m n).

Definition good (m : fem) : Prop := fem_wf m /\ hid_pos m /\ ends_current m.
Definition core_good (c : core) : Prop := core_wf c /\ good (k_fem c).

Lemma cur_mono m m' n :
  (forall k x, dget k (f_nodes m) = Some x -> exists x', dget k (f_nodes m') = Some x' /\ n_loc x' = n_loc x) ->
  cur m n -> cur m' n.
Proof. intros H (x & H1 & H2). destruct (H _ _ H1) as (x' & H3 & H4). exists x'. split; congruence. Qed.

Lemma ends_mono m m' :
  (forall k x, dget k (f_nodes m) = Some x -> exists x', dget k (f_nodes m') = Some x' /\ n_loc x' = n_loc x) ->
  f_beams m' = f_beams m -> f_shells m' = f_shells m -> ends_current m -> ends_current m'.
Proof.
  intros H E1 E2 [HB HS]. split.
  - intros k b. rewrite E1. intros HI. apply HB in HI as []. split; eapply cur_mono; eauto.
  - intros k s n. rewrite E2. intros HI HN. eapply cur_mono; eauto.
Qed.

Lemma good_same m m' :
  good m -> f_nodes m' = f_nodes m -> f_rest m' = f_rest m -> f_beams m' = f_beams m ->
  f_shells m' = f_shells m -> f_hnode m' = f_hnode m -> good m'.
Proof.
  intros (W & HP & HE) E1 E2 E3 E4 E5. split; [|split].
  - eapply wf_same_geometry; eauto.
  - unfold hid_pos. rewrite E1, E5. exact HP.
  - apply (ends_mono m m'); auto. rewrite E1. eauto.
Qed.

Lemma cur_dget m k n : fem_wf m -> dget k (f_nodes m) = Some n -> cur m n.
Proof. intros W H. destruct (node_ok_dget _ _ _ W H) as [_ E]. exists n. split; congruence. Qed.

Lemma good_add_node n x y z m hid m' :
  good m -> ~ In n (dkeys (f_nodes m)) -> model_add_node n x y z false m = Some (hid, m') -> good m'.
Proof.
  intros (W & HP & HE) HF H. split; [eapply wf_add_node; eauto|].
  unfold model_add_node in H. rewrite mk_node_total in H. inversion H; subst; clear H. split.
  - intros i k. simpl. rewrite dkeys_dset_new by auto. intros HI.
    assert (dkeys (f_hnode m) = dkeys (f_nodes m)) as EK by apply W.
    destruct (Nat.lt_ge_cases i (List.length (dkeys (f_nodes m)))) as [L|L].
    + rewrite nth_error_app1 in HI by auto. rewrite dget_dset_neq; auto.
      intros ->. apply nth_error_In in HI. auto.
    + rewrite nth_error_app2 in HI by auto.
      destruct (i - List.length (dkeys (f_nodes m)))%nat eqn:E; simpl in HI.
      * inversion HI; subst. rewrite dget_dset_eq. f_equal. unfold dkeys in *. rewrite map_length in *. lia.
      * destruct n0; discriminate.
  - eapply ends_mono; [| | |exact HE]; auto. simpl. intros k q H. exists q. split; auto.
    rewrite dget_dset_neq; auto. intros ->. apply HF. apply dget_in_keys. eauto.
Qed.

Lemma good_set_mass n ms m m' : good m -> model_set_mass n ms m = Some m' -> good m'.
Proof.
  intros (W & HP & HE) H. split; [eapply wf_set_mass; eauto|].
  unfold model_set_mass in H. destruct (dget n (f_nodes m)) as [nd|] eqn:E; [|easy].
  inversion H; subst; clear H. split.
  - unfold hid_pos. simpl. rewrite dkeys_dset_old; [exact HP|]. apply dget_in_keys; eauto.
  - eapply ends_mono; [| | |exact HE]; auto. simpl. intros k q H.
    rewrite dget_dset. destruct (String.eqb_spec k n); eauto. subst. eexists; split; eauto.
    rewrite E in H. inversion H. reflexivity.
Qed.

Lemma good_set_restraint n fl m :
  List.length fl = 6%nat -> good m -> good (snd (model_set_restraint n fl m)).
Proof.
  intros L (W & HP & HE). split; [apply wf_set_restraint; auto|].
  unfold model_set_restraint. destruct (negb (dmem n (f_nodes m))); simpl; auto.
Qed.

Lemma good_put_beam n ni nj p m hid m' :
  good m -> node_ok m ni -> node_ok m nj -> cur m ni -> cur m nj ->
  model_put_beam n ni nj p false m = Some (hid, m') -> good m'.
Proof.
  intros (W & HP & HE) Hi Hj Ci Cj H. split; [eapply wf_put_beam; [| | |exact H]; auto|].
  unfold model_put_beam, mk_beam, bindO in H.
  destruct (line_csys (n_loc ni) (n_loc nj)) as [c|] eqn:E; [|easy].
  inversion H; subst; clear H. split; [exact HP|].
  destruct HE as [HB HS]. split; simpl; [|exact HS].
  intros k b H. apply in_dset in H as [[-> ->]|H]; simpl; auto. apply HB in H. exact H.
Qed.

Lemma good_add_beam n s e sec m hid m' :
  good m -> model_add_beam n s e sec false m = Some (hid, m') -> good m'.
Proof.
  intros G. pose proof G as (W & _ & _). unfold model_add_beam.
  destruct (dget s (f_nodes m)) as [ni|] eqn:Es; simpl; [|easy].
  destruct (dget e (f_nodes m)) as [nj|] eqn:Ee; simpl; [|easy].
  destruct (dget sec (f_bsecs m)) eqn:Ec; simpl; [|easy].
  apply good_put_beam; auto; try (eapply node_ok_dget; eauto; fail); eapply cur_dget; eauto.
Qed.

Lemma good_add_simple_beam n s e E mu A I2 I3 J rho m hid m' :
  good m -> model_add_simple_beam n s e E mu A I2 I3 J rho false m = Some (hid, m') -> good m'.
Proof.
  intros G. pose proof G as (W & _ & _). unfold model_add_simple_beam.
  destruct (dget s (f_nodes m)) as [ni|] eqn:Es; simpl; [|easy].
  destruct (dget e (f_nodes m)) as [nj|] eqn:Ee; simpl; [|easy].
  apply good_put_beam; auto; try (eapply node_ok_dget; eauto; fail); eapply cur_dget; eauto.
Qed.

Lemma good_add_shell n sec a b c d m hid m' :
  good m -> model_add_shell n sec a b c d m = Some (hid, m') -> good m'.
Proof.
  intros G H. pose proof G as (W & HP & HE). split; [eapply wf_add_shell; eauto|].
  unfold model_add_shell in H.
  destruct (dget sec (f_ssecs m)) eqn:Ec; simpl in H; [|easy].
  destruct (dget a (f_nodes m)) as [na|] eqn:Ea; simpl in H; [|easy].
  destruct (dget b (f_nodes m)) as [nb|] eqn:Eb; simpl in H; [|easy].
  destruct (dget c (f_nodes m)) as [nc|] eqn:Ecc; simpl in H; [|easy].
  apply cur_dget in Ea, Eb, Ecc; auto. destruct HE as [HB HS].
  destruct d as [d|]; simpl in H.
  - destruct (dget d (f_nodes m)) as [nd|] eqn:Ed; simpl in H; [|easy]. apply cur_dget in Ed; auto.
    unfold mk_quad in H. destruct (quad_csys _ _ _ _); simpl in H; [|easy].
    inversion H; subst; clear H. split; [exact HP|]. split; [exact HB|]. simpl.
    intros k s' q HI. apply in_dset in HI as [[-> ->]|HI]; [|eapply HS; eauto].
    simpl. intros [<-|[<-|[<-|[<-|[]]]]]; assumption.
  - unfold mk_tria in H. destruct (tria_csys _ _ _); simpl in H; [|easy].
    inversion H; subst; clear H. split; [exact HP|]. split; [exact HB|]. simpl.
    intros k s' q HI. apply in_dset in HI as [[-> ->]|HI]; [|eapply HS; eauto].
    simpl. intros [<-|[<-|[<-|[]]]]; assumption.
Qed.

Lemma new_fem_good : good new_fem.
Proof.
  split; [apply new_fem_wf|]. split.
  - intros i k H. destruct i; discriminate.
  - split; intros; easy.
Qed.

Lemma core_good_step ext w o :
  fresh_node ext w o -> core_good (w_core w) -> is_load o = false -> core_good (w_core (after ext w o)).
Proof.
  intros F [W G] NL. split; [now apply core_wf_step|]. unfold after.
  assert (forall r, (forall m', r = Some m' -> good m') -> good (k_fem (w_core (fst (ret_fem w r))))) as RF.
  { intros [m'|] H; simpl; auto. }
  assert (forall (r : option (nat * fem)), (forall h m', r = Some (h, m') -> good m') ->
           good (k_fem (w_core (fst (ret_fem w (bindO r (fun r => Some (snd r)))))))) as RF2.
  { intros [[h m']|] H; simpl; eauto. }
  assert (forall p u, good (k_fem (w_core (fst (ret_pat w p u))))) as RP.
  { intros p u. unfold ret_pat, bindO.
    destruct (dget p (k_pats (w_core w))) as [a|]; simpl; auto.
    destruct (nth_error (k_heap (w_core w)) a) as [pt|] eqn:E; simpl; auto. }
  assert (forall n mt mk m', model_add_bsection n mt mk (k_fem (w_core w)) = Some m' -> good m') as BS.
  { intros n mt mk m'. unfold model_add_bsection, bindO. destruct (dget mt _); [|easy].
    destruct (mk m); [|easy]. intros H; inversion H; subst. eapply good_same; eauto. }
  destruct o; simpl; try discriminate NL; try exact G;
    try (apply RF; intros m' H; solve [eapply BS; eauto | eapply good_set_mass; eauto | discriminate H]);
    try (apply RF2; intros h m' H; solve [eapply good_add_beam; eauto
           | eapply good_add_simple_beam; eauto | eapply good_add_shell; eauto]).
  - apply RF2. intros h m' H. eapply good_add_node; eauto.
    simpl in F. destruct F as (l & E & HN). unfold answer in E. simpl in E.
    inversion E; subst. exact HN.
  - destruct casename; simpl; auto.
  - eapply good_same; eauto.
  - apply RF. intros m' H. unfold model_add_ssection, bindO in H.
    destruct (dget mat _); [|easy]. inversion H; subst. eapply good_same; eauto.
  - apply good_set_restraint; auto. apply list6_length.
  - destruct (dget case (k_cases (w_core w))); simpl; auto.
  - destruct f as [[[[[f1 f2] f3] m1] m2] m3]. apply RP.
  - apply RP.
  - destruct F0 as [[[[[f1 f2] f3] m1] m2] m3]. apply RP.
  - destruct (dget case (k_cases (w_core w))) as [lc|] eqn:E; simpl; auto.
    destruct (dget pattern (k_pats (w_core w))) as [a|] eqn:Ep; simpl; auto.
    destruct (nth_error (k_heap (w_core w)) a) as [pt|] eqn:Eh; simpl; auto.
  - destruct (mk_asm _ _ _); simpl; auto.
  - unfold do_solve_static. destruct (read_asb w); simpl; auto.
    destruct (assemble_K _ _); simpl; auto. destruct (solve_linear _ _ _); simpl; auto.
Qed.

Definition asm_good (a : asm) : Prop := exists c, core_good c /\ asm_of c a.
Definition wgood : world -> Prop := winv core_good asm_good.

Lemma wgood_reach ext ops : never_readds_nodes ext ops -> wgood (final ext init ops).
Proof.
  intros H. eapply winv_reach with (G := fresh_node ext); eauto.
  - intros w o F [HP _] L. now apply core_good_step.
  - intros c a HP E. exists c. auto.
  - split; [apply new_core_wf|apply new_fem_good].
Qed.

(** consequences *)
Lemma good_hid_lt m k i : good m -> dget k (f_hnode m) = Some i -> (i < node_count m)%nat.
Proof.
  intros (W & HP & _) H. assert (In k (dkeys (f_nodes m))) as HI.
  { rewrite <- (wf_hkeys _ W). apply dget_in_keys. eauto. }
  apply In_nth_error in HI as [j Hj]. pose proof (HP _ _ Hj) as E. rewrite H in E. inversion E; subst.
  apply nth_error_lt in Hj. unfold dkeys in Hj. rewrite map_length in Hj. exact Hj.
Qed.

Lemma good_hid_key m k i : good m -> dget k (f_hnode m) = Some i -> nth_error (dkeys (f_nodes m)) i = Some k.
Proof.
  intros (W & HP & _) H. assert (In k (dkeys (f_nodes m))) as HI.
  { rewrite <- (wf_hkeys _ W). apply dget_in_keys. eauto. }
  apply In_nth_error in HI as [j Hj]. pose proof (HP _ _ Hj) as E. rewrite H in E. inversion E; subst. auto.
Qed.

Lemma good_hid_inj m k k' i : good m -> dget k (f_hnode m) = Some i -> dget k' (f_hnode m) = Some i -> k = k'.
Proof. intros G H H'. apply good_hid_key in H, H'; auto. congruence. Qed.

Lemma hid_total m k : fem_wf m -> In k (dkeys (f_nodes m)) -> exists i, dget k (f_hnode m) = Some i.
Proof. intros W H. rewrite <- (wf_hkeys _ W) in H. now apply dget_in_keys. Qed.

Lemma asm_of_model c a : asm_of c a -> a_model a = k_fem c /\ a_heap a = k_heap c.
Proof.
  unfold asm_of, mk_asm, bindO. destruct (rest_dofs _ _); [|easy]. intros H; inversion H; auto.
Qed.
