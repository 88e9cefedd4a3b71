(** C08: a case sees the current loads of its patterns. *)
From Coq Require Import Reals Lra Lia List String Arith Bool ZArith.
From Verif Require Import Base BaseFacts Csys Sections Element Load FeModel Assembly Solver Post Api SpecApi ApiFacts WfFacts HidFacts ApiProofs1 ApiProofs2 LoadFacts.
Import ListNotations.
Local Open Scope R_scope.

Definition linked (c : core) : Prop :=
  forall k lc, In (k, lc) (k_cases c) -> forall p a, In (p, a) (c_pats lc) -> dget p (k_pats c) = Some a.
Definition core_lk (c : core) : Prop := core_wf c /\ linked c.
Definition asm_lk (a : asm) : Prop := True.

Lemma linked_cases c cs :
  linked c -> (forall k lc, In (k, lc) cs -> In (k, lc) (k_cases c) \/
      (forall p a, In (p, a) (c_pats lc) -> dget p (k_pats c) = Some a)) ->
  forall m h, linked (Core m (k_pats c) h cs).
Proof.
  intros HL HC m h k lc HI p a Hp. simpl in *. destruct (HC _ _ HI) as [H|H]; eauto.
Qed.

Lemma linked_step ext w o :
  fresh_pattern ext w o -> core_lk (w_core w) -> is_load o = false -> linked (w_core (after ext w o)).
Proof.
  intros F [W HL] NL. unfold after.
  destruct o; simpl in *; try discriminate NL; try exact HL;
    try (open_fem; repeat (dmi; simpl in *); exact HL).
  - (* add pattern *)
    intros k lc HI p a Hp. simpl in *. pose proof (HL k lc HI p a Hp) as E.
    rewrite dget_dset. destruct (String.eqb_spec p name) as [->|N]; auto.
    exfalso. unfold answer in F; simpl in F. unfold get_pat in F. rewrite E in F. simpl in F.
    destruct (cw_pats _ W _ _ (dget_some_in _ _ _ E)) as (pt & E1 & _). rewrite E1 in F. discriminate.
  - destruct (dget case (k_cases (w_core w))) as [lc|] eqn:E; simpl; auto.
    apply linked_cases; auto. intros k lc' HI. apply in_dset in HI as [[-> ->]|HI]; auto.
    right. simpl. apply (HL case lc). now apply dget_some_in.
  - apply linked_cases; auto. intros k lc' HI. apply in_dset in HI as [[-> ->]|HI]; auto. right. intros p a [].
  - apply linked_cases; auto. intros k lc' HI. apply in_dset in HI as [[-> ->]|HI]; auto. right. intros p a [].
  - destruct (dget case (k_cases (w_core w))) as [lc|] eqn:E; simpl; auto.
    destruct (dget pattern (k_pats (w_core w))) as [a|] eqn:Ep; simpl; auto.
    destruct (nth_error (k_heap (w_core w)) a) as [pt|] eqn:Eh; simpl; auto.
    apply linked_cases; auto. intros k lc' HI. apply in_dset in HI as [[-> ->]|HI]; auto.
    right. simpl. intros p b HI. apply in_dset in HI as [[-> ->]|HI].
    + destruct (cw_pats _ W _ _ (dget_some_in _ _ _ Ep)) as (pt' & E1 & E2). congruence.
    + eapply HL; eauto. apply dget_some_in. eauto.
Qed.

Lemma linked_reach ext ops : never_recreates_patterns ext ops -> core_lk (w_core (final ext init ops)).
Proof.
  intros H. apply (winv_reach ext (fresh_pattern ext) core_lk asm_lk); auto.
  - intros w o F [HP _] L. destruct HP as [HW HK]. split; [now apply core_wf_step|]. apply linked_step; auto. split; auto.
  - intros; exact I.
  - split; [apply new_core_wf|]. intros k lc [].
Qed.

Lemma assign_dset p k l : assign p k l = dset p k l.
Proof.
  induction l as [|[q x] r IH]; simpl; auto. destruct (String.eqb_spec p q), (string_dec p q); try congruence.
Qed.

Lemma factor_table ext ops c lc :
  dget c (k_cases (w_core (final ext init ops))) = Some lc ->
  c_factor lc = track (note_factor c) [] nothing_saved (trace ext init ops).
Proof.
  revert lc.
  apply (track_sim ext (note_factor c) (fun co tab => forall lc, dget c (k_cases co) = Some lc -> c_factor lc = tab)).
  - intros w o tab HW HR NS HL.
    destruct o; try (exfalso; eapply NS; reflexivity);
      try (specialize (HL _ eq_refl); rewrite load_none_core by auto; simpl; exact HR);
      unfold answer, after in *; simpl in *; try exact HR;
      try (open_fem; repeat (dmi; simpl in *); exact HR).
    + destruct (dget case (k_cases (w_core w))) as [l0|] eqn:E; simpl; auto.
      intros lc. rewrite dget_dset. destruct (String.eqb_spec c case) as [->|N]; auto.
      intros EQ; inversion EQ; subst. simpl. auto.
    + intros lc. rewrite dget_dset. destruct (String.eqb_spec c name), (string_dec c name); try congruence; auto.
      intros EQ; inversion EQ; reflexivity.
    + intros lc. rewrite dget_dset. destruct (String.eqb_spec c name), (string_dec c name); try congruence; auto.
      intros EQ; inversion EQ; reflexivity.
    + destruct (dget case (k_cases (w_core w))) as [l0|] eqn:E; simpl; auto.
      destruct (dget pattern (k_pats (w_core w))) as [a|] eqn:Ep; simpl; auto.
      destruct (nth_error (k_heap (w_core w)) a) as [pt|] eqn:Eh; simpl; auto.
      intros lc. rewrite dget_dset. destruct (String.eqb_spec c case), (string_dec c case); try congruence; auto.
      subst. intros EQ; inversion EQ; subst. simpl. rewrite (HR _ E), assign_dset.
      destruct HW as [W _]. destruct (cw_pats _ W _ _ (dget_some_in _ _ _ Ep)) as (pt' & E1 & E2). congruence.
  - apply wwf_init.
  - intros lc H; discriminate H.
  - intros f co E. discriminate E.
Qed.

Lemma total_lsum f l : total f l = lsum (map (fun kv => snd kv * f (fst kv)) l).
Proof. induction l as [|[p k] r IH]; simpl; auto. now rewrite IH. Qed.

Lemma c08_case_sees_patterns_partial :
  forall ext ops c n, never_recreates_patterns ext ops ->
  let w := final ext init ops in
  answer ext w (OpNodeRestraints (Some c)) <> RNone ->
  exists v, case_load w c n = Some v /\ List.length v = 6%nat
    /\ forall i, nth i v 0 = total (fun p => component i (answer ext w (OpGetNodalLoad p n)))
                                   (track (note_factor c) [] nothing_saved (trace ext init ops)).
Proof.
  intros ext ops c n HN w HC. destruct (linked_reach ext ops HN) as [W HL]. fold w in W, HL.
  destruct (whp_reach ext ops) as [[_ HO] _]. fold w in HO.
  unfold answer in HC; simpl in HC. unfold case_load.
  destruct (dget c (k_cases (w_core w))) as [lc|] eqn:E; simpl in *; [|congruence].
  pose proof (cw_cases _ W _ _ (dget_some_in _ _ _ E)) as OK.
  destruct (case_nodal_f_sum (k_heap (w_core w)) lc n 0) as (v & E1 & E2 & E3).
  { intros p Hp. destruct (case_deref _ _ _ OK HO p Hp) as (pat & H1 & H2 & _). eauto. }
  { intros p Hp. apply (case_curve _ _ _ 0 OK); auto. }
  exists v. split; [exact E1|]. split; [exact E2|]. intros i. rewrite E3, total_lsum.
  rewrite <- (factor_table ext ops c lc E). f_equal. apply map_ext_in. intros [p k] HI. simpl.
  assert (In p (dkeys (c_factor lc))) as Hp by (apply in_map_iff; exists (p, k); auto).
  rewrite (proj2 (case_curve _ _ _ 0 OK ltac:(lia) p Hp)). rewrite Rmult_1_r. f_equal.
  unfold nodal_comp, deref.
  rewrite <- (co_pkeys _ _ _ OK) in Hp. apply dget_in_keys in Hp as [a Ha]. rewrite Ha. simpl.
  pose proof (HL c lc (dget_some_in _ _ _ E) p a (dget_some_in _ _ _ Ha)) as EP.
  unfold answer; simpl. unfold get_pat. rewrite EP. simpl.
  destruct (nth_error (k_heap (w_core w)) a) as [pt|]; simpl; auto.
  destruct (pat_nodal_f pt n); simpl; auto. 
Qed.

(** Re-creating the pattern detaches the case from it. *)
Lemma c08_recreated_refuted :
  forall ext, exists ops, (forall x, In x (outs ext init ops) -> x = RBool true)
  /\ let w := final ext init ops in
     answer ext w (OpGetNodalLoad "P" "A") = RVec [1;0;0;0;0;0]
     /\ track (note_factor "C") [] nothing_saved (trace ext init ops) = [("P"%string, 1)]
     /\ case_load w "C" "A" = Some (zeros 6).
Proof.
  intros ext. exists [OpAddNode "A" 0 0 0; OpAddPattern "P"; OpAddStatic "C"; OpAddCasePattern "C" "P" 1; OpAddPattern "P";
    OpSetNodalLoad "P" "A" (1,0,0,0,0,0)]%string.
  unfold outs, final, trace, run, answer, after, step, model_add_node. rewrite !mk_node_total. simpl.
  repeat split. intros x H; intuition.
Qed.
