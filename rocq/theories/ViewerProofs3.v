(** Proofs about the viewers: which nodes are seen, the arrows of the loads, the buttons. *)
From Coq Require Import Reals Lra Lia List String Arith Bool.
From Verif Require Import Base BaseFacts Csys Sections Element Load FeModel Assembly Solver Post Api SpecApi ApiFacts WfFacts ApiProofs1 LoadFacts CsysFacts Viewer SpecViewer ViewerProofs ViewerProofs2.
Import ListNotations.
Local Open Scope R_scope.

(** ** Which nodes are seen *)
Definition tidy (s : window) : Prop :=
  snd (r_old s) = false /\ exists b, r_new s = Some (map snd (g_pts (r_shown s)), b).
Lemma presses_tidy ext w pic l : forall s s', tidy s -> presses ext w pic s l = Some s' -> tidy s'.
Proof.
  induction l as [|p l IH]; intros s s' T H; simpl in H; [inversion H; subst; auto|].
  destruct (handle ext w pic s p) as [s1|] eqn:E; [|discriminate]. simpl in H. apply IH with s1; auto. clear IH H.
  destruct T as (T1 & b & T2). destruct p as [k| |a]; simpl in E.
  - inversion E; subst. split; simpl; eauto.
  - rewrite T2 in E. inversion E; subst. split; simpl; eauto.
  - destruct (is_on a s).
    + inversion E; subst. split; simpl; eauto.
    + destruct (show_deformation ext w pic (r_scale s) a) as [g|]; [|discriminate]. simpl in E. inversion E; subst. split; simpl; eauto.
Qed.
Lemma tidy_seen s : tidy s -> seen_nodes s = [] \/ seen_nodes s = map snd (g_pts (r_shown s)).
Proof. intros (T1 & b & T2). unfold seen_nodes. rewrite T1, T2. destruct b; auto. Qed.
Lemma presses_start ext w pic l : nodes_later l -> forall s s',
  r_new s = None -> snd (r_old s) = false -> presses ext w pic s l = Some s' -> tidy s' \/ seen_nodes s' = [].
Proof.
  induction l as [|p l IH]; intros NL s s' N O H; simpl in *.
  - inversion H; subst. right. unfold seen_nodes. rewrite N, O. auto.
  - destruct p as [k| |a]; [| destruct NL |].
    + simpl in H. eapply IH in H; simpl; auto.
    + left. destruct (handle ext w pic s (PDeform a)) as [s1|] eqn:E; [|discriminate]. simpl in H. apply presses_tidy in H; auto.
      simpl in E. destruct (is_on a s).
      * inversion E; subst. split; simpl; eauto.
      * destruct (show_deformation ext w pic (r_scale s) a) as [g|]; [|discriminate]. simpl in E. inversion E; subst. split; simpl; eauto.
Qed.
Lemma c98_nodes ext w pic l s : nodes_later l -> presses ext w pic (open_window pic) l = Some s ->
  seen_nodes s = [] \/ seen_nodes s = map snd (g_pts (r_shown s)).
Proof. intros NL H. destruct (presses_start ext w pic l NL (open_window pic) s eq_refl eq_refl H); auto. now apply tidy_seen. Qed.

(** ** C99: arrows *)
Lemma force_get ext ops n f : let w := final ext init ops in
  force_on ext w n f <-> exists pt m1 m2 m3, get_pat w "pat1" = Some pt
    /\ dget n (p_nodal pt) = Some [vx f; vy f; vz f; m1; m2; m3] /\ In n (dkeys (f_nodes (k_fem (w_core w)))).
Proof.
  intros w. unfold force_on, node_exists, answer. cbn [step ret snd]. split.
  - intros (v & m1 & m2 & m3 & A & -> & l & L & I). inversion L; subst l. destruct (get_pat w "pat1") as [pt|]; [|discriminate].
    cbn [bindO] in A. unfold pat_nodal_f in A. destruct (dget n (p_nodal pt)) as [v|] eqn:E; [|discriminate].
    cbn in A. inversion A; subst. exists pt, m1, m2, m3. auto.
  - intros (pt & m1 & m2 & m3 & P & D & I). exists [vx f; vy f; vz f; m1; m2; m3], m1, m2, m3. rewrite P. cbn [bindO]. unfold pat_nodal_f.
    rewrite D. cbn. repeat split; auto. exists (model_node_names (k_fem (w_core w))). auto.
Qed.
Lemma pat_six ext ops pt n v : get_pat (final ext init ops) "pat1" = Some pt -> dget n (p_nodal pt) = Some v -> List.length v = 6%nat.
Proof.
  intros P D. destruct (whp_reach ext ops) as [[_ H] _]. unfold get_pat, bindO in P. destruct (dget "pat1" _) as [a|]; [|discriminate].
  destruct (H a pt P) as (X & _). apply (X n v). now apply dget_some_in.
Qed.

Definition entry_of (ext : externals) (w : world) (n : string) (e : vec3 * vec3 * R) : Prop :=
  match e with (p, f, m) => stands ext w n p /\ force_on ext w n f /\ m = size3 f end.
Lemma loaded_spec ext ops pt : let w := final ext init ops in get_pat w "pat1" = Some pt ->
  forall names, (forall n, In n names -> In n (dkeys (f_nodes (k_fem (w_core w))))) -> NoDup names ->
  exists t ns, loaded ext w (p_nodal pt) names = Some t /\ NoDup ns /\ Forall2 (entry_of ext w) ns t
    /\ (forall n, In n ns <-> In n names /\ exists f, force_on ext w n f).
Proof.
  intros w P. induction names as [|n names IH]; intros HN ND.
  - exists [], []. repeat split; simpl; try constructor; try tauto.
  - inversion ND; subst. destruct IH as (t & ns & L & N & F & I); [intros; apply HN; right; auto|auto|]. simpl.
    assert (Hn : In n (dkeys (f_nodes (k_fem (w_core w))))) by (apply HN; left; auto).
    destruct (dget n (p_nodal pt)) as [v|] eqn:E.
    + pose proof (pat_six ext ops pt n v P E) as LV.
      do 6 (destruct v as [|? v]; [discriminate|]). destruct v; [|discriminate].
      destruct (stands_total ext w n Hn) as [p Hp]. unfold stands, answer in Hp. unfold ask. rewrite Hp. fold w. rewrite L. cbn [bindO].
      set (f := V3 r r0 r1). assert (FO : force_on ext w n f).
      { apply (force_get ext ops). exists pt, r2, r3, r4. auto. }
      exists ((p, f, sqrt (r ^ 2 + r0 ^ 2 + r1 ^ 2)) :: t), (n :: ns). split; [reflexivity|]. split; [|split].
      * constructor; auto. rewrite I. tauto.
      * constructor; auto. split; auto. split; auto. unfold size3, f; simpl. f_equal. ring.
      * intros m. simpl. rewrite I. split.
        -- intros [<-|[? ?]]; split; auto. exists f; auto.
        -- intros [[<-|?] ?]; auto.
    + exists t, ns. fold w. rewrite L. repeat split; auto. all: rewrite I in *; try (right; tauto); try tauto.
      intros. destruct H as [[<-|X] (f & Hf)]; [|eauto]. exfalso.
      apply (force_get ext ops) in Hf. destruct Hf as (pt' & ? & ? & ? & P' & D & _). fold w in P'. rewrite P in P'. inversion P'; subst. congruence.
Qed.

Lemma c99_opens ext ops pic : let w := final ext init ops in
  (exists arrows, load_arrows ext w pic = Some arrows) <-> (exists n f, force_on ext w n f).
Proof.
  intros w. pose proof (reach_wf ext ops) as WF. fold w in WF.
  unfold load_arrows, ask. cbn [step ret snd]. split.
  - intros [arrows H]. destruct (get_pat w "pat1") as [pt|] eqn:P; cbn in H; [|discriminate].
    destruct (loaded_spec ext ops pt P (model_node_names (k_fem (w_core w)))) as (t & ns & L & _ & F & I); [auto| |fold w in L, F, I].
    { apply (wf_nodup _ WF). }
    rewrite L in H. cbn in H. inversion F; subst; [discriminate|]. destruct (proj1 (I x)) as [_ [f Hf]]; [left; auto|eauto].
  - intros (n & f & Hf). pose proof Hf as Hf'. apply (force_get ext ops) in Hf'. destruct Hf' as (pt & ? & ? & ? & P & D & IN). fold w in P, IN. rewrite P. cbn.
    destruct (loaded_spec ext ops pt P (model_node_names (k_fem (w_core w)))) as (t & ns & L & _ & F & I); [auto| |fold w in L, F, I].
    { apply (wf_nodup _ WF). }
    rewrite L. cbn. assert (Hn : In n ns) by (apply I; eauto). destruct t as [|e t]; [inversion F; subst; destruct Hn|].
    cbn. eauto.
Qed.

Lemma size3_scale k f : 0 <= k -> size3 (vscale k f) = k * size3 f.
Proof.
  intros K. unfold size3, vscale; cbn [vx vy vz].
  replace (k * vx f * (k * vx f) + k * vy f * (k * vy f) + k * vz f * (k * vz f))
    with ((k * k) * (vx f * vx f + vy f * vy f + vz f * vz f)) by ring.
  rewrite sqrt_mult; [|nra|]. { rewrite sqrt_square; auto. }
  pose proof (Rle_0_sqr (vx f)). pose proof (Rle_0_sqr (vy f)). pose proof (Rle_0_sqr (vz f)). unfold Rsqr in *. lra.
Qed.
Lemma size3_nonneg f : 0 <= size3 f.
Proof. apply sqrt_pos. Qed.
Lemma size3_zero f : size3 f = 0 -> f = V3 0 0 0.
Proof.
  intros H. pose proof (Rle_0_sqr (vx f)). pose proof (Rle_0_sqr (vy f)). pose proof (Rle_0_sqr (vz f)). unfold Rsqr in *.
  apply sqrt_eq_0 in H; [|lra]. apply vec3_eq; cbn [vx vy vz]; nra.
Qed.
Lemma radius_nonneg ext ops pic : open_view ext (final ext init ops) = Some pic -> 0 <= v_scale pic.
Proof.
  intros O. destruct (c97_picture ext ops pic O) as (_ & [H (m & n & p & q & Hm & Hn & _)] & _).
  destruct (H m m p p Hm Hm) as [X _]. pose proof (Rabs_pos (vx p - vx p)). lra.
Qed.

Lemma c99_arrows ext ops pic arrows : let w := final ext init ops in
  open_view ext w = Some pic -> load_arrows ext w pic = Some arrows ->
  exists k ns, 0 <= k /\ NoDup ns /\ (forall n, In n ns <-> exists f, force_on ext w n f)
    /\ Forall2 (arrow_of ext w k) ns arrows
    /\ ((exists n f, force_on ext w n f /\ f <> V3 0 0 0) ->
        (forall ar, In ar arrows -> arrow_length ar <= v_scale pic / 5)
        /\ exists ar, In ar arrows /\ arrow_length ar = v_scale pic / 5).
Proof.
  intros w O H. pose proof (reach_wf ext ops) as WF. fold w in WF. pose proof (radius_nonneg ext ops pic O) as RN.
  unfold load_arrows, ask in H. cbn [step ret snd] in H. destruct (get_pat w "pat1") as [pt|] eqn:P; cbn in H; [|discriminate].
  destruct (loaded_spec ext ops pt P (model_node_names (k_fem (w_core w)))) as (t & ns & L & ND & F & I); [auto|apply (wf_nodup _ WF)|fold w in L, F, I].
  rewrite L in H. cbn in H. destruct (maxl (map snd t)) as [M|] eqn:EM; [|discriminate]. cbn in H. injection H as H.
  destruct (maxl_spec _ _ EM) as [MI MX]. set (k := arrow_scale (v_scale pic) M) in *.
  assert (K : 0 <= k). { unfold k, arrow_scale. destruct (Reqb M 0); [lra|apply Rabs_pos]. }
  assert (ENT : forall p f m, In (p, f, m) t -> exists n, In n ns /\ stands ext w n p /\ force_on ext w n f /\ m = size3 f).
  { clear - F. induction F as [|n e ns t E F IH]; intros p f m X; [destruct X|]. destruct X as [X|X]; [subst e|].
    - exists n. simpl in E. split; [left; auto|tauto].
    - destruct (IH p f m X) as (n' & ? & ?). exists n'. split; [right; auto|auto]. }
  exists k, ns. split; auto. split; auto. split; [intros n; rewrite I; split; [tauto|]|split].
  - intros [f Hf]. split; [|eauto]. apply (force_get ext ops) in Hf. destruct Hf as (? & ? & ? & ? & _ & _ & X). exact X.
  - subst arrows. clear - F. induction F as [|n [[p f] m] ns t (S & FO & _) F IH]; simpl; constructor; auto.
    exists p, f. repeat split; auto. unfold vsub, vscale; cbn [fst snd vx vy vz]. apply vec3_eq; cbn [vx vy vz]; ring.
  - intros (n0 & f0 & F0 & NZ).
    assert (POS : 0 < M).
    { assert (Hn : In n0 ns). { apply I. split; [|eauto]. apply (force_get ext ops) in F0. destruct F0 as (? & ? & ? & ? & _ & _ & X). exact X. }
      assert (exists p, In (p, f0, size3 f0) t) as (p & Hp).
      { clear - F Hn F0. induction F as [|n [[p f] m] ns t (S & FO & EM) F IH]; [destruct Hn|]. destruct Hn as [->|Hn].
        - exists p. left. assert (f = f0) as ->; [|rewrite EM; auto].
          destruct FO as (v & ? & ? & ? & A & -> & _). destruct F0 as (v' & ? & ? & ? & A' & -> & _). rewrite A in A'.
          inversion A'. apply vec3_eq; auto.
        - destruct IH as (q & Hq); auto. exists q. right; auto. }
      pose proof (MX (size3 f0)) as X. assert (size3 f0 <= M). { apply X. apply in_map_iff. exists (p, f0, size3 f0); auto. }
      pose proof (size3_nonneg f0). destruct (Req_dec (size3 f0) 0) as [Z|Z]; [|lra]. apply size3_zero in Z. contradiction. }
    assert (EK : k * M = v_scale pic / 5).
    { unfold k, arrow_scale. destruct (Reqb M 0) eqn:B; [apply Reqb_true in B; lra|].
      rewrite Rabs_pos_eq; [field; lra|]. apply Rmult_le_pos; [|lra]. apply Rmult_le_pos; auto. left. now apply Rinv_0_lt_compat. }
    assert (LEN : forall p f, arrow_length (V3 (vx p - vx f * k) (vy p - vy f * k) (vz p - vz f * k), p) = k * size3 f).
    { intros p f. rewrite <- size3_scale by auto. unfold arrow_length. f_equal. unfold vsub, vscale; cbn [fst snd vx vy vz]. apply vec3_eq; cbn [vx vy vz]; ring. }
    split.
    + intros ar Har. subst arrows. apply in_map_iff in Har. destruct Har as ([[p f] m] & <- & X). rewrite LEN.
      destruct (ENT p f m X) as (_ & _ & _ & _ & ->). rewrite <- EK. apply Rmult_le_compat_l; auto. apply MX. apply in_map_iff. exists (p, f, size3 f); auto.
    + apply in_map_iff in MI. destruct MI as ([[p f] m] & E & X). simpl in E. subst m.
      exists (V3 (vx p - vx f * k) (vy p - vy f * k) (vz p - vz f * k), p). split.
      * subst arrows. apply in_map_iff. exists (p, f, M); auto.
      * rewrite LEN. destruct (ENT p f M X) as (_ & _ & _ & _ & <-). exact EK.
Qed.

(** ** C100: the buttons *)
Definition told_ok (s : toggles) : Prop := b_node s = s_node s /\ b_beam s = s_beam s /\ b_shell s = s_shell s.
Lemma basic_state l : forall s, told_ok s -> told_ok (fold_left (fun s t => basic_toggle t s) l s).
Proof. induction l as [|t l IH]; intros s H; simpl; auto. apply IH. destruct t; simpl; unfold told_ok in *; simpl; tauto. Qed.
Lemma even_S k : Nat.even (S k) = negb (Nat.even k).
Proof. rewrite Nat.even_succ. apply eq_sym, Nat.negb_even. Qed.
Lemma basic_count l : forall s, let s' := fold_left (fun s t => basic_toggle t s) l s in
  b_node s' = xorb (b_node s) (negb (pressed_even TNode l)) /\ b_beam s' = xorb (b_beam s) (negb (pressed_even TBeam l))
  /\ b_shell s' = xorb (b_shell s) (negb (pressed_even TShell l)).
Proof.
  induction l as [|t l IH]; intros s; cbv zeta; cbn [fold_left].
  - unfold pressed_even; simpl. destruct (b_node s), (b_beam s), (b_shell s); auto.
  - destruct (IH (basic_toggle t s)) as (-> & -> & ->). unfold pressed_even in *.
    destruct t; simpl filter; cbn [List.length]; rewrite ?even_S; cbn [basic_toggle b_node b_beam b_shell];
      repeat split; repeat match goal with |- context [Nat.even ?x] => destruct (Nat.even x) end;
      try destruct (b_node s); try destruct (b_beam s); try destruct (b_shell s); auto.
Qed.
Lemma c100_basic l : let s := fold_left (fun s t => basic_toggle t s) l open_toggles in
  s_node s = negb (pressed_even TNode l) /\ s_beam s = pressed_even TBeam l /\ s_shell s = pressed_even TShell l
  /\ b_node s = s_node s /\ b_beam s = s_beam s /\ b_shell s = s_shell s.
Proof.
  intros s. destruct (basic_count l open_toggles) as (A & B & C). fold s in A, B, C. simpl in A, B, C.
  assert (T : told_ok s) by (apply basic_state; split; auto). destruct T as (X & Y & Z).
  rewrite <- X, <- Y, <- Z, A, B, C. destruct (pressed_even TNode l), (pressed_even TBeam l), (pressed_even TShell l); repeat split; reflexivity.
Qed.

Definition load_state (l : list toggle) : toggles := fold_left (fun s t => load_toggle t s) l open_toggles.
Lemma load_snoc l t : load_state (l ++ [t]) = load_toggle t (load_state l).
Proof. unfold load_state. rewrite fold_left_app. reflexivity. Qed.
Lemma c100_load l : let s := load_state l in
  s_node s = negb (pressed_even TNode l) /\ b_node s = s_node s
  /\ b_beam s = pressed_even TBeam l
  /\ (s_beam s = true <-> ~ In TBeam l)
  /\ (~ In TBeam l -> s_shell s = pressed_even TShell l /\ b_shell s = s_shell s).
Proof.
  cbv zeta. unfold load_state.
  induction l as [|t l IH] using rev_ind.
  - unfold pressed_even; simpl. repeat split; auto.
  - fold (load_state l) in *. fold (load_state (l ++ [t])). rewrite load_snoc. destruct IH as (A & B & C & D & E).
    assert (PE : forall u, pressed_even u (l ++ [t]) = if same_toggle u t then negb (pressed_even u l) else pressed_even u l).
    { intros u. unfold pressed_even. rewrite filter_app, app_length. simpl. destruct (same_toggle u t); simpl.
      - rewrite Nat.add_1_r. apply even_S.
      - rewrite Nat.add_0_r. auto. }
    assert (IA : forall u, In u (l ++ [t]) <-> In u l \/ t = u) by (intros u; rewrite in_app_iff; simpl; tauto).
    rewrite !PE, IA. destruct t; simpl.
    + rewrite B, A. split; [auto|]. split; [auto|]. split; [auto|]. split.
      * rewrite D. split; [intros H [X|X]; [tauto|discriminate]|tauto].
      * intros H. apply E. tauto.
    + assert (Q : b_beam (load_state l) = false -> s_beam (load_state l) = false).
      { intros H. destruct (s_beam (load_state l)) eqn:S; auto. exfalso. rewrite H in C.
        assert (n : ~ In TBeam l) by (apply D; auto). clear - C n. unfold pressed_even in C.
        assert (filter (same_toggle TBeam) l = []) as X.
        { clear C. induction l as [|t l IH]; auto. simpl in n. destruct t; simpl; try (apply IH; tauto). exfalso; apply n; auto. }
        rewrite X in C. discriminate. }
      destruct (b_beam (load_state l)); simpl; rewrite <- C; (split; [auto|split; [auto|split; [auto|split; [|tauto]]]]).
      * split; [discriminate|tauto].
      * rewrite Q by auto. split; [discriminate|tauto].
    + split; [auto|]. split; [auto|]. split; [auto|]. split.
      * rewrite D. split; [intros H [X|X]; [tauto|discriminate]|tauto].
      * intros H. destruct E as [E1 E2]; [tauto|]. rewrite E2, E1. auto.
Qed.
Lemma c100_load_refuted : exists l, let s := load_state l in
  pressed_even TBeam l = true /\ pressed_even TShell l = false /\ s_beam s = false /\ b_beam s = true /\ s_shell s = true /\ b_shell s = false.
Proof. exists [TShell; TBeam; TBeam]. vm_compute. repeat split. Qed.
