(** Proofs about the drawing model, continued: batches, look-ups, sections, references. *)
From Coq Require Import Reals List String Arith Bool ZArith Lia Lra Permutation.
From Verif Require Import Base BaseFacts General SpecGeneral GeneralProofs GeneralProofs2.
Import ListNotations.
Local Open Scope R_scope.

(** ** Merging neighbours *)

Lemma insert_perm : forall a l, Permutation (insert_joint a l) (a :: l).
Proof.
  intros a l. induction l as [|b r IH]; simpl; [apply Permutation_refl|].
  destruct (joint_le a b); [apply Permutation_refl|].
  eapply Permutation_trans; [apply perm_skip; exact IH|]. apply perm_swap.
Qed.
Lemma sort_perm : forall l, Permutation (sort_joints l) l.
Proof.
  intro l. induction l as [|a r IH]; simpl; [apply Permutation_refl|].
  eapply Permutation_trans; [apply insert_perm|]. apply perm_skip. exact IH.
Qed.

Lemma merge_pairs_cons : forall tol a b r m, merge_pairs tol (a :: b :: r) m =
  if Rltb (dist2 a b) (tol^2)
  then let (m', rm) := merge_pairs tol (b :: r) (dset (j_name b) (match dget (j_name a) m with Some x => x | None => j_name a end) m) in (m', b :: rm)
  else merge_pairs tol (b :: r) m.
Proof. reflexivity. Qed.

Lemma merge_spec : forall tol l a m m' rm, NoDup (map j_name (a :: l)) ->
  (forall b, In b l -> dget (j_name b) m = Some (j_name b)) ->
  merge_pairs tol (a :: l) m = (m', rm) ->
  (forall n, ~ In n (map j_name l) -> dget n m' = dget n m) /\ incl rm l /\
  (forall b, In b l -> exists x, dget (j_name b) m' = Some x /\
     (x = (match dget (j_name a) m with Some x => x | None => j_name a end) \/
      (In x (map j_name l) /\ ~ In x (map j_name rm)))).
Proof.
  intros tol l. induction l as [|b r IH]; intros a m m' rm ND Hm E.
  - simpl in E. injection E as <- <-. split; [reflexivity|]. split; [intros x []|]. intros b [].
  - rewrite merge_pairs_cons in E.
    assert (NDr : NoDup (map j_name (b :: r))) by (inversion ND; assumption).
    assert (Nbr : ~ In (j_name b) (map j_name r)) by (inversion NDr; assumption).
    destruct (Rltb (dist2 a b) (tol^2)).
    + set (va := match dget (j_name a) m with Some x => x | None => j_name a end) in *.
      set (m1 := dset (j_name b) va m) in *.
      destruct (merge_pairs tol (b :: r) m1) as [m2 rm2] eqn:E2. injection E as <- <-.
      assert (Hm1 : forall c, In c r -> dget (j_name c) m1 = Some (j_name c)).
      { intros c Hc. unfold m1. rewrite dget_dset_neq; [apply Hm; right; exact Hc|].
        intro X. apply Nbr. rewrite <- X. apply in_map. exact Hc. }
      destruct (IH b m1 m2 rm2 NDr Hm1 E2) as [I1 [I2 I3]].
      assert (Eb : dget (j_name b) m1 = Some va) by (unfold m1; apply dget_dset_eq). rewrite Eb in I3.
      split; [|split].
      * intros n Hn. simpl in Hn. rewrite I1 by tauto. unfold m1. apply dget_dset_neq. intro X. apply Hn. left. congruence.
      * intros x [X|X]; [left; exact X|right; apply I2; exact X].
      * intros c [X|X].
        -- subst c. exists va. split; [rewrite I1 by exact Nbr; exact Eb|left; reflexivity].
        -- destruct (I3 c X) as [x [Hx [Hx'|[Hx1 Hx2]]]]; exists x; (split; [exact Hx|]); [left; exact Hx'|right].
           split; [right; exact Hx1|]. simpl. intros [Y|Y]; [|exact (Hx2 Y)]. apply Nbr. rewrite Y. exact Hx1.
    + assert (Hm1 : forall c, In c r -> dget (j_name c) m = Some (j_name c)) by (intros c Hc; apply Hm; right; exact Hc).
      destruct (IH b m m' rm NDr Hm1 E) as [I1 [I2 I3]].
      assert (Eb : dget (j_name b) m = Some (j_name b)) by (apply Hm; left; reflexivity). rewrite Eb in I3.
      assert (Nb : ~ In (j_name b) (map j_name rm)).
      { intro X. apply Nbr. apply in_map_iff in X. destruct X as [c [X1 X2]]. rewrite <- X1. apply in_map, I2, X2. }
      split; [|split].
      * intros n Hn. simpl in Hn. apply I1. tauto.
      * intros x X. right. apply I2. exact X.
      * intros c [X|X].
        -- subst c. exists (j_name b). split; [rewrite I1 by exact Nbr; exact Eb|]. right. split; [left; reflexivity|exact Nb].
        -- destruct (I3 c X) as [x [Hx [Hx'|[Hx1 Hx2]]]]; exists x; (split; [exact Hx|right]).
           ++ subst x. split; [left; reflexivity|exact Nb].
           ++ split; [right; exact Hx1|exact Hx2].
Qed.

Lemma dget_self : forall l n, In n (map j_name l) -> dget n (map (fun j => (j_name j, j_name j)) l) = Some n.
Proof.
  intros l n. induction l as [|a l IH]; simpl; [intros []|]. intro H.
  destruct (String.eqb_spec n (j_name a)) as [E|E]; [congruence|]. apply IH. destruct H; [congruence|assumption].
Qed.

(** Every name becomes the name of a joint that stays. *)
Lemma merge_map_spec : forall tol l m rm, NoDup (map j_name l) -> merge_map tol l = (m, rm) ->
  incl rm l /\ forall n, In n (map j_name l) -> exists x, dget n m = Some x /\ In x (map j_name l) /\ ~ In x (map j_name rm).
Proof.
  intros tol l m rm ND E. unfold merge_map in E. pose proof (sort_perm l) as P. set (q := sort_joints l) in *.
  assert (NDq : NoDup (map j_name q)) by (eapply Permutation_NoDup; [apply Permutation_map, Permutation_sym, P|exact ND]).
  assert (Iq : forall n, In n (map j_name l) <-> In n (map j_name q)).
  { intro n. split; apply Permutation_in, Permutation_map; [apply Permutation_sym|]; exact P. }
  destruct q as [|a r] eqn:Eq.
  - simpl in E. injection E as <- <-. split; [intros x []|]. intros n Hn. apply Iq in Hn. destruct Hn.
  - assert (Hm : forall b, In b r -> dget (j_name b) (map (fun j => (j_name j, j_name j)) (a :: r)) = Some (j_name b)).
    { intros b Hb. apply dget_self. right. apply in_map. exact Hb. }
    destruct (merge_spec tol r a _ m rm NDq Hm E) as [I1 [I2 I3]].
    assert (Ea : dget (j_name a) (map (fun j => (j_name j, j_name j)) (a :: r)) = Some (j_name a)) by (apply dget_self; left; reflexivity).
    rewrite Ea in I3.
    assert (Na : ~ In (j_name a) (map j_name r)) by (inversion NDq; assumption).
    assert (Nr : ~ In (j_name a) (map j_name rm)).
    { intro X. apply Na. apply in_map_iff in X. destruct X as [c [X1 X2]]. rewrite <- X1. apply in_map, I2, X2. }
    split.
    + intros x Hx. apply (Permutation_in x P). right. apply I2. exact Hx.
    + intros n Hn. apply Iq in Hn. simpl in Hn. destruct Hn as [Hn|Hn].
      * subst n. exists (j_name a). rewrite I1 by exact Na. split; [exact Ea|]. split; [apply Iq; left; reflexivity|exact Nr].
      * apply in_map_iff in Hn. destruct Hn as [b [<- Hb]]. destruct (I3 b Hb) as [x [Hx [Hx'|[Hx1 Hx2]]]]; exists x; (split; [exact Hx|]).
        -- subst x. split; [apply Iq; left; reflexivity|exact Nr].
        -- split; [apply Iq; right; exact Hx1|exact Hx2].
Qed.

(** ** Batches *)

Lemma batch_joints_spec : forall uuid L pts s s' ends, batch_joints uuid L pts s = (s', ends) ->
  grown s s' /\ List.length ends = List.length pts /\
  forall e, In e ends -> In (fst e) (map j_name (d_joints (s_db s'))) /\ In (snd e) (map j_name (d_joints (s_db s'))).
Proof.
  intros uuid L pts. induction pts as [|[[[x0 y0] z0] [[x1 y1] z1]] r IH]; intros s s' ends E.
  - simpl in E. injection E as <- <-. split; [|split; [reflexivity|intros e []]].
    split; [exists []; symmetry; apply app_nil_r|]. repeat split.
  - cbn [batch_joints add_joint] in E.
    match type of E with context [batch_joints uuid L r ?S] => destruct (batch_joints uuid L r S) as [s3 l] eqn:E3;
      destruct (IH _ _ _ E3) as [[[k Gk] [G1 [G2 [G3 G4]]]] [IL I]] end.
    injection E as <- <-. cbn [draw upd s_db with_joints d_joints d_frames d_tol d_unit d_secs s_next] in *.
    assert (J : d_joints (s_db s3) = d_joints (s_db s) ++
      ([Joint (uuid (s_next s)) (x0*L) (y0*L) (z0*L)] ++ [Joint (uuid (S (s_next s))) (x1*L) (y1*L) (z1*L)] ++ k)).
    { rewrite Gk. rewrite <- !app_assoc. reflexivity. }
    split; [|split].
    + split; [eexists; exact J|]. repeat split; assumption.
    + simpl. f_equal. exact IL.
    + intros e [X|X]; [|apply I; exact X]. subst e. cbn [fst snd]. rewrite J, map_app. split; apply in_or_app; right; [left|right; left]; reflexivity.
Qed.

Lemma batch_frames_spec : forall uuid sec m ends s s' names, batch_frames uuid sec m ends s = (s', names) ->
  exists fs, d_frames (s_db s') = d_frames (s_db s) ++ fs /\ map fr_name fs = names /\
    d_joints (s_db s') = d_joints (s_db s) /\ d_secs (s_db s') = d_secs (s_db s) /\
    d_rest (s_db s') = d_rest (s_db s) /\ d_jloads (s_db s') = d_jloads (s_db s) /\
    forall f, In f fs -> fr_section f = sec /\ fr_p0 f <> fr_p1 f /\
      exists e, In e ends /\ dget (fst e) m = Some (start_of f) /\ dget (snd e) m = Some (end_of f).
Proof.
  intros uuid sec m ends. induction ends as [|[a b] r IH]; intros s s' names E.
  - simpl in E. injection E as <- <-. exists []. rewrite app_nil_r. repeat split; contradiction.
  - cbn [batch_frames] in E. destruct (dget a m) as [a'|] eqn:Ea; cbn [bindO] in E.
    2:{ destruct (IH _ _ _ E) as [fs [H1 [H2 [H3 [H4 [H5 [H6 H7]]]]]]]. exists fs. repeat (split; [assumption|]).
        intros f Hf. destruct (H7 f Hf) as [X1 [X2 [e [X3 X4]]]]. split; [exact X1|]. split; [exact X2|]. exists e. split; [right; exact X3|exact X4]. }
    destruct (dget b m) as [b'|] eqn:Eb; cbn [bindO] in E.
    2:{ destruct (IH _ _ _ E) as [fs [H1 [H2 [H3 [H4 [H5 [H6 H7]]]]]]]. exists fs. repeat (split; [assumption|]).
        intros f Hf. destruct (H7 f Hf) as [X1 [X2 [e [X3 X4]]]]. split; [exact X1|]. split; [exact X2|]. exists e. split; [right; exact X3|exact X4]. }
    destruct (order_ends a' b') as [[[p q] o]|] eqn:EO.
    2:{ destruct (IH _ _ _ E) as [fs [H1 [H2 [H3 [H4 [H5 [H6 H7]]]]]]]. exists fs. repeat (split; [assumption|]).
        intros f Hf. destruct (H7 f Hf) as [X1 [X2 [e [X3 X4]]]]. split; [exact X1|]. split; [exact X2|]. exists e. split; [right; exact X3|exact X4]. }
    match type of E with context [batch_frames uuid sec m r ?S] => destruct (batch_frames uuid sec m r S) as [s2 l] eqn:E2;
      destruct (IH _ _ _ E2) as [fs [H1 [H2 [H3 [H4 [H5 [H6 H7]]]]]]] end.
    injection E as <- <-. cbn [draw upd s_db with_frames d_frames d_joints d_secs d_rest d_jloads] in *.
    exists (Frame (uuid (s_next s)) sec p q o :: fs). split; [rewrite H1, <- app_assoc; reflexivity|].
    split; [simpl; rewrite H2; reflexivity|]. repeat (split; [assumption|]).
    intros f [X|X].
    + subst f. cbn [fr_section fr_p0 fr_p1]. split; [reflexivity|].
      assert (Hne : a' <> b').
      { intro Y. subst b'. unfold order_ends, String.ltb in EO. rewrite compare_refl in EO. discriminate. }
      destruct (order_ends_spec _ _ _ _ _ EO) as [[-> [-> ->]]|[-> [-> ->]]].
      * split; [exact Hne|]. exists (a, b). split; [left; reflexivity|]. split; assumption.
      * split; [intro Y; apply Hne; symmetry; exact Y|]. exists (a, b). split; [left; reflexivity|]. split; assumption.
    + destruct (H7 f X) as [X1 [X2 [e [X3 X4]]]]. split; [exact X1|]. split; [exact X2|]. exists e. split; [right; exact X3|exact X4].
Qed.

Lemma removed_in : forall rm d d' n, remove_joints rm d = Some d' -> In n (map j_name (d_joints d)) -> ~ In n (map j_name rm) ->
  exists j, is_joint d' n j.
Proof.
  intros rm d d' n E Hn Hr. unfold remove_joints in E. destruct (forallb _ rm); [|discriminate]. injection E as E. subst d'.
  apply in_map_iff in Hn. destruct Hn as [j [Ej Hj]]. exists j. split; [|exact Ej]. cbn [with_joints d_joints].
  apply filter_In. split; [exact Hj|]. apply negb_true_iff. destruct (existsb _ rm) eqn:X; [|reflexivity]. exfalso. apply Hr.
  apply existsb_exists in X. destruct X as [k [Hk Ek]]. apply String.eqb_eq in Ek. rewrite <- Ej, <- Ek. apply in_map. exact Hk.
Qed.

Lemma c69_new_frames : forall uuid s pts sec s' names,
  fresh_names uuid -> drawn uuid s -> gstep uuid s (GAddBatch pts sec) = (s', GNames names) ->
  exists fs, d_frames (s_db s') = d_frames (s_db s) ++ fs /\ map fr_name fs = names /\
    forall f, In f fs -> fr_section f = sec /\ start_of f <> end_of f /\
      (exists a, is_joint (s_db s') (start_of f) a) /\ (exists b, is_joint (s_db s') (end_of f) b).
Proof.
  intros uuid s pts sec s' names Hf Hd E. pose proof (drawn_inv _ _ Hf Hd) as H. cbn [gstep] in E. unfold add_frame_batch in E.
  destruct pts as [|p pts]; [discriminate|]. destruct (dget sec (d_secs (s_db s))) as [g|]; [|discriminate].
  destruct (scale (d_unit (s_db s))) as [[F L]|]; [|discriminate].
  pose proof (ginv_batch_joints uuid L (p :: pts) s Hf H) as H0.
  destruct (batch_joints uuid L (p :: pts) s) as [s1 ends] eqn:E1. cbn [fst] in H0.
  destruct (batch_joints_spec _ _ _ _ _ _ E1) as [G [_ Ie]].
  destruct (merge_map (d_tol (s_db s1)) (d_joints (s_db s1))) as [m rm] eqn:Em.
  destruct (merge_map_spec _ _ _ _ (proj1 (proj2 (proj1 H0))) Em) as [M1 M2].
  destruct (batch_frames uuid sec m ends s1) as [s2 nm] eqn:E2.
  destruct (batch_frames_spec _ _ _ _ _ _ _ E2) as [fs [F1 [F2 [F3 [F4 [F5 [F6 F7]]]]]]].
  destruct (remove_joints rm (s_db s2)) as [d|] eqn:Er; [|discriminate].
  injection E as <- <-. cbn [commit upd s_db]. exists fs.
  assert (Ef : d_frames d = d_frames (s_db s2)).
  { unfold remove_joints in Er. destruct (forallb _ rm); [|discriminate]. injection Er as <-. reflexivity. }
  split; [rewrite Ef, F1; destruct G as [_ [G _]]; rewrite G; reflexivity|]. split; [exact F2|].
  intros f X. destruct (F7 f X) as [X1 [X2 [e [X3 [X4 X5]]]]]. split; [exact X1|]. split.
  - unfold start_of, end_of. destruct (String.eqb (fr_order f) "01"); [exact X2|]. intro Y. apply X2. symmetry. exact Y.
  - destruct (Ie e X3) as [N0 N1]. split.
    + destruct (M2 _ N0) as [x [Hx [Y1 Y2]]]. assert (x = start_of f) by congruence. subst x.
      eapply removed_in; [exact Er|rewrite F3; exact Y1|exact Y2].
    + destruct (M2 _ N1) as [x [Hx [Y1 Y2]]]. assert (x = end_of f) by congruence. subst x.
      eapply removed_in; [exact Er|rewrite F3; exact Y1|exact Y2].
Qed.

(** ** Witnesses *)

Ltac jdec := repeat (first [progress rdec | progress unfold joint_le | progress cbn [j_x j_y j_z j_name negb andb fold_right insert_joint sort_joints app]]).

(** Three joints in a row, each closer to the next than the tolerance 1. *)
Lemma merge_chain : forall a b c d,
  merge_map (1*1) [Joint a 0 0 0; Joint b (8/10) 0 0; Joint c (16/10*1) (0*1) (0*1); Joint d (10*1) (0*1) (0*1)] =
  merge_pairs (1*1) [Joint a 0 0 0; Joint b (8/10) 0 0; Joint c (16/10*1) (0*1) (0*1); Joint d (10*1) (0*1) (0*1)] [(a, a); (b, b); (c, c); (d, d)].
Proof.
  intros. unfold merge_map.
  assert (E : sort_joints [Joint a 0 0 0; Joint b (8/10) 0 0; Joint c (16/10*1) (0*1) (0*1); Joint d (10*1) (0*1) (0*1)]
            = [Joint a 0 0 0; Joint b (8/10) 0 0; Joint c (16/10*1) (0*1) (0*1); Joint d (10*1) (0*1) (0*1)]).
  { unfold sort_joints. cbn [fold_right insert_joint]. unfold joint_le. jdec. reflexivity. }
  rewrite E. reflexivity.
Qed.

Lemma c69_distance_refuted : exists uuid s p q s' n, fresh_names uuid /\ drawn uuid s /\
  gstep uuid s (GAddBatch [(p, q)] dflt) = (s', GNames [n]) /\
  forall f a, In f (d_frames (s_db s')) -> fr_name f = n -> is_joint (s_db s') (start_of f) a ->
    ~ lies (d_tol (s_db s)) (metres (d_unit (s_db s))) a p.
Proof.
  pose (ops := [GSetTolerance 1; GAddJoint 0 0 0; GAddJoint (8/10) 0 0]).
  pose (s := fst (grun ticks create ops)).
  pose (ja := Joint (ticks 0) 0 0 0). pose (jb := Joint (ticks 1) (8/10) 0 0).
  pose (jc := Joint (ticks 2) (16/10*1) (0*1) (0*1)). pose (jd := Joint (ticks 3) (10*1) (0*1) (0*1)).
  assert (Es : s = Session (with_joints [ja; jb] (with_tol (1*1) start_db)) start_db 2).
  { unfold s. rewrite create_eq. reflexivity. }
  pose (fr := Frame (ticks 4) dflt (ticks 0) (ticks 3) "01").
  pose (d' := with_joints [ja; jd] (with_frames [fr] (with_tol (1*1) start_db))).
  assert (G : gstep ticks s (GAddBatch [(((16/10, 0), 0), ((10, 0), 0))] dflt) = (Session d' d' 5, GNames [ticks 4])).
  { rewrite Es. cbn [gstep]. unfold add_frame_batch.
    cbn [s_db with_joints with_tol start_db d_secs d_unit dget dflt String.eqb Ascii.eqb Bool.eqb scale].
    cbn [batch_joints add_joint draw upd s_db s_next with_joints d_joints d_tol app].
    unfold ja, jb. rewrite merge_chain. rewrite !merge_pairs_cons.
    unfold dist2. cbn [j_x j_y j_z]. rdec. reflexivity. }
  exists ticks, s, ((16/10, 0), 0), ((10, 0), 0), (Session d' d' 5), (ticks 4).
  split; [exact ticks_fresh|]. split; [exists ops; reflexivity|]. split; [exact G|].
  rewrite Es. cbn [s_db with_joints with_tol d_unit d_tol start_db]. intros f a Hf _ [Ha E].
  cbn [d' with_joints with_frames d_frames] in Hf. destruct Hf as [<-|[]]. cbn [d' with_frames with_joints d_joints] in Ha.
  destruct Ha as [<-|[<-|[]]]; [|discriminate E]. unfold lies, near. cbn [ja j_x]. unfold metres. cbn. intros [[H|H] _].
  - lra.
  - rewrite Rabs_minus_sym, Rabs_pos_eq in H; lra.
Qed.

Lemma merge_old : forall a b c d,
  merge_map (1*1) [Joint a (5/10*1) (0*1) (0*1); Joint b 10 0 0; Joint c (0*1) (0*1) (0*1); Joint d (20*1) (0*1) (0*1)] =
  merge_pairs (1*1) [Joint c (0*1) (0*1) (0*1); Joint a (5/10*1) (0*1) (0*1); Joint b 10 0 0; Joint d (20*1) (0*1) (0*1)] [(c, c); (a, a); (b, b); (d, d)].
Proof.
  intros. unfold merge_map.
  assert (E : sort_joints [Joint a (5/10*1) (0*1) (0*1); Joint b 10 0 0; Joint c (0*1) (0*1) (0*1); Joint d (20*1) (0*1) (0*1)]
            = [Joint c (0*1) (0*1) (0*1); Joint a (5/10*1) (0*1) (0*1); Joint b 10 0 0; Joint d (20*1) (0*1) (0*1)]).
  { unfold sort_joints. cbn [fold_right insert_joint]. unfold joint_le. jdec. reflexivity. }
  rewrite E. reflexivity.
Qed.

Definition old_frame : list gop := [GSetTolerance 1; GAddFrame ((5/10, 0), 0) ((10, 0), 0) dflt (Some "F"%string)].
Definition old_db : db :=
  with_frames [Frame "F" dflt (ticks 0) (ticks 1) "01"]
    (with_joints [Joint (ticks 0) (5/10*1) (0*1) (0*1); Joint (ticks 1) 10 0 0] (with_tol (1*1) start_db)).
Lemma old_frame_eq : fst (grun ticks create old_frame) = Session old_db start_db 3.
Proof.
  rewrite create_eq. unfold old_frame. rewrite grun_fst_cons, grun_fst_cons.
  cbn [grun fst gstep]. unfold add_frame.
  cbn [set_tolerance upd s_db with_tol start_db d_unit d_secs d_frames find_frame find dget dflt String.eqb Ascii.eqb Bool.eqb scale fst].
  unfold joint_at at 1. cbn [upd s_db d_joints start_db with_tol find]. cbn [add_joint].
  unfold joint_at. cbn [draw upd s_db d_joints start_db with_tol with_joints find app d_tol].
  unfold at_point. cbn [j_x j_y j_z]. rdec. cbn [andb]. reflexivity.
Qed.

Lemma c69_earlier_refuted : exists uuid s p q s' names f, fresh_names uuid /\ drawn uuid s /\ frames_ok (s_db s) /\
  gstep uuid s (GAddBatch [(p, q)] dflt) = (s', GNames names) /\
  In f (d_frames (s_db s')) /\ (forall a, ~ is_joint (s_db s') (fr_p0 f) a) /\
  snd (gstep uuid s' (GEndNames (fr_name f))) = GNone.
Proof.
  pose (s := fst (grun ticks create old_frame)). assert (Es : s = Session old_db start_db 3) by apply old_frame_eq.
  pose (fr := Frame (ticks 5) dflt (ticks 3) (ticks 4) "01").
  pose (fo := Frame "F" dflt (ticks 0) (ticks 1) "01").
  pose (jb := Joint (ticks 1) 10 0 0). pose (jc := Joint (ticks 3) (0*1) (0*1) (0*1)). pose (jd := Joint (ticks 4) (20*1) (0*1) (0*1)).
  pose (d' := with_joints [jb; jc; jd] (with_frames [fo; fr] (with_tol (1*1) start_db))).
  assert (G : gstep ticks s (GAddBatch [(((0, 0), 0), ((20, 0), 0))] dflt) = (Session d' d' 6, GNames [ticks 5])).
  { rewrite Es. cbn [gstep]. unfold add_frame_batch.
    cbn [s_db old_db with_frames with_joints with_tol start_db d_secs d_unit dget dflt String.eqb Ascii.eqb Bool.eqb scale].
    cbn [batch_joints add_joint draw upd s_db s_next with_joints with_frames with_tol old_db d_joints d_tol app].
    rewrite merge_old. rewrite !merge_pairs_cons.
    unfold dist2. cbn [j_x j_y j_z]. rdec. reflexivity. }
  exists ticks, s, ((0, 0), 0), ((20, 0), 0), (Session d' d' 6), [ticks 5], fo.
  split; [exact ticks_fresh|]. split; [exists old_frame; reflexivity|]. split.
  { rewrite Es. intros f [<-|[]]. split; [|split].
    - eexists. split; [left; reflexivity|reflexivity].
    - eexists. split; [right; left; reflexivity|reflexivity].
    - discriminate. }
  split; [exact G|]. split; [left; reflexivity|]. split.
  - intros a [[<-|[<-|[<-|[]]]] E]; discriminate E.
  - reflexivity.
Qed.

(** ** Looking up joints by coordinates *)

Lemma coor_filter_spec : forall tol x v, coor_filter tol 1 x v = true <-> fits tol 1 x v.
Proof.
  intros tol [x|] v; simpl; [|tauto]. rewrite !Rmult_1_r. split.
  - intro H. apply andb_prop in H. destruct H as [H1 H2]. apply rltb_true in H1, H2. apply rabs_lt; lra.
  - intro H. apply Rabs_def2 in H. rewrite !rltb_yes by lra. reflexivity.
Qed.

Lemma c70_partial : forall uuid s x y z, fresh_names uuid -> drawn uuid s -> metres (d_unit (s_db s)) = 1 ->
  exists names, gstep uuid s (GByCoor x y z) = (s, GNames names) /\
  forall n, In n names <-> exists j, is_joint (s_db s) n j /\
    fits (d_tol (s_db s)) (metres (d_unit (s_db s))) x (j_x j) /\ fits (d_tol (s_db s)) (metres (d_unit (s_db s))) y (j_y j) /\
    fits (d_tol (s_db s)) (metres (d_unit (s_db s))) z (j_z j).
Proof.
  intros uuid s x y z Hf Hd HL. pose proof (drawn_inv _ _ Hf Hd) as H. cbn [gstep]. unfold get_joint_name_by_coor.
  rewrite (scale_units _ (proj1 (proj1 H))), HL. eexists. split; [reflexivity|]. intro n. rewrite in_map_iff. split.
  - intros [j [E Hj]]. apply filter_In in Hj. destruct Hj as [Hj C]. apply andb_prop in C. destruct C as [C C3]. apply andb_prop in C. destruct C as [C1 C2].
    exists j. split; [split; assumption|]. rewrite <- !coor_filter_spec. auto.
  - intros [j [[Hj E] [C1 [C2 C3]]]]. exists j. split; [exact E|]. apply filter_In. split; [exact Hj|].
    apply coor_filter_spec in C1, C2, C3. rewrite C1, C2, C3. reflexivity.
Qed.

Lemma c70_refuted : exists uuid s j, fresh_names uuid /\ drawn uuid s /\ is_joint (s_db s) (j_name j) j /\
  let L := metres (d_unit (s_db s)) in
  snd (gstep uuid s (GByCoor (Some (j_x j / L)) (Some (j_y j / L)) (Some (j_z j / L)))) = GNames [].
Proof.
  pose (ops := [GAddJoint 1 0 0; GSetUnit "N_mm_C"]). exists ticks, (fst (grun ticks create ops)), (Joint (ticks 0) 1 0 0).
  split; [exact ticks_fresh|]. split; [exists ops; reflexivity|].
  assert (Es : fst (grun ticks create ops) = Session (with_unit "N_mm_C" (with_joints [Joint (ticks 0) 1 0 0] start_db)) start_db 1).
  { rewrite create_eq. reflexivity. }
  rewrite Es. split; [split; [left; reflexivity|reflexivity]|]. cbv zeta. cbn [gstep]. unfold get_joint_name_by_coor.
  cbn [s_db with_unit with_joints d_unit start_db scale String.eqb Ascii.eqb Bool.eqb d_joints d_tol j_x j_y j_z snd filter map].
  unfold metres. cbn [String.eqb Ascii.eqb Bool.eqb orb]. unfold coor_filter. cbn [j_x j_y j_z]. rdec. reflexivity.
Qed.
