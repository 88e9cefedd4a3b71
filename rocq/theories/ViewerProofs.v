(** Proofs about the viewers: what is drawn. *)
From Coq Require Import Reals Lra Lia List String Arith Bool.
From Verif Require Import Base BaseFacts Csys Sections Element Load FeModel Assembly Solver Post Api SpecApi ApiFacts WfFacts ApiProofs1 Viewer SpecViewer.
Import ListNotations.
Local Open Scope R_scope.

Definition places (m : fem) : dict vec3 := map (fun kv => (fst kv, n_loc (snd kv))) (f_nodes m).

Lemma dget_map {A B} (f : A -> B) (d : dict A) k :
  dget k (map (fun kv => (fst kv, f (snd kv))) d) = match dget k d with Some v => Some (f v) | None => None end.
Proof. induction d as [|[q v] d IH]; simpl; auto. destruct (String.eqb k q); auto. Qed.
Lemma dkeys_map {A B} (f : A -> B) (d : dict A) : dkeys (map (fun kv => (fst kv, f (snd kv))) d) = dkeys d.
Proof. unfold dkeys. rewrite map_map. reflexivity. Qed.
Lemma places_keys m : dkeys (places m) = dkeys (f_nodes m).
Proof. apply dkeys_map. Qed.
Lemma places_get ext w n p : dget n (places (k_fem (w_core w))) = Some p <-> stands ext w n p.
Proof.
  unfold places, stands, answer; simpl. rewrite dget_map. unfold model_node_location.
  destruct (dget n (f_nodes _)); simpl; split; intros H; inversion H; auto.
Qed.

(** ** The nodes *)
Definition indices (l : list string) : dict nat := combine l (seq 0 (List.length l)).

Lemma combine_snoc (l : list string) (n : string) : forall a,
  combine (l ++ [n]) (seq a (List.length (l ++ [n]))) = (combine l (seq a (List.length l)) ++ [(n, (a + List.length l)%nat)])%list.
Proof.
  induction l as [|x l IH]; intros a; simpl; [now rewrite Nat.add_0_r|]. f_equal. rewrite IH. do 3 f_equal. lia.
Qed.
Lemma add_points_spec ext w names : forall pts,
  NoDup (dkeys pts ++ names) ->
  (forall n, In n names -> exists p, stands ext w n p) ->
  exists pts', add_points ext w names pts (indices (dkeys pts)) = Some (pts', indices (dkeys pts'))
    /\ dkeys pts' = dkeys pts ++ names
    /\ (forall n p, dget n pts = Some p -> dget n pts' = Some p)
    /\ (forall n, In n names -> forall p, dget n pts' = Some p <-> stands ext w n p).
Proof.
  induction names as [|n r IH]; intros pts ND H.
  - exists pts. rewrite app_nil_r. simpl. split; [auto|split; [auto|split; [auto|intros ? []]]].
  - destruct (H n (or_introl eq_refl)) as [p Hp].
    assert (NI : ~ In n (dkeys pts)).
    { apply NoDup_remove_2 in ND. intros C. apply ND, in_or_app; auto. }
    assert (EI : dset n (List.length pts) (indices (dkeys pts)) = indices (dkeys (dset n p pts))).
    { rewrite dkeys_dset_new by auto. unfold indices. rewrite dset_new.
      - rewrite combine_snoc. simpl. unfold dkeys. now rewrite map_length.
      - unfold dkeys at 1. intros C. apply NI. apply in_map_iff in C. destruct C as ([a b] & E & C). simpl in E; subst.
        eapply in_combine_l; eauto. }
    simpl. unfold ask. unfold stands, answer in Hp. rewrite Hp. rewrite EI.
    destruct (IH (dset n p pts)) as (pts' & E & K & O & N).
    { rewrite dkeys_dset_new by auto. rewrite <- app_assoc. exact ND. }
    { intros q Hq. apply H; right; auto. }
    exists pts'. split; [exact E|]. split.
    { rewrite K, dkeys_dset_new by auto. now rewrite <- app_assoc. }
    split.
    { intros q v Hq. apply O. rewrite dget_dset_neq; auto. intros C; subst.
      apply NI. apply dget_in_keys. eauto. }
    intros q [<-|Hq]; auto. intros v. split.
    + intros Hv. rewrite (O n p) in Hv by apply dget_dset_eq. inversion Hv; subst; auto.
    + unfold stands, answer. rewrite Hp. intros Hv. inversion Hv; subst. apply O, dget_dset_eq.
Qed.

Lemma stands_total ext w n : In n (dkeys (f_nodes (k_fem (w_core w)))) -> exists p, stands ext w n p.
Proof.
  intros H. rewrite <- places_keys in H. apply dget_in_keys in H. destruct H as [p H]. exists p.
  now apply places_get.
Qed.

Lemma init_nodes_spec ext w : fem_wf (k_fem (w_core w)) ->
  init_nodes ext w = Some (places (k_fem (w_core w)), indices (dkeys (f_nodes (k_fem (w_core w))))).
Proof.
  intros WF. unfold init_nodes, ask; simpl. unfold model_node_names.
  destruct (add_points_spec ext w (dkeys (f_nodes (k_fem (w_core w)))) []) as (pts & E & K & _ & N).
  - simpl. apply wf_nodup; auto.
  - intros n Hn. now apply stands_total.
  - simpl in *. unfold indices at 1 in E. simpl in E. rewrite E.
    assert (EQ : pts = places (k_fem (w_core w))).
    { apply dget_ext_same_keys.
      - rewrite K. apply wf_nodup; auto.
      - rewrite K, places_keys; auto.
      - intros n. destruct (in_dec string_dec n (dkeys pts)) as [i|i].
        + rewrite K in i. destruct (stands_total ext w n i) as [p Hp].
          rewrite (proj2 (N n i p) Hp). symmetry. now apply places_get with ext.
        + pose proof i as i'. rewrite K, <- places_keys in i'.
          apply dget_none_notin in i. apply dget_none_notin in i'. congruence. }
    subst pts. rewrite places_keys. reflexivity.
Qed.

Lemma indices_get l n k : dget n (indices l) = Some k -> nth_error l k = Some n.
Proof.
  unfold indices. intros H. apply dget_some_in in H.
  apply In_nth_error in H. destruct H as [i H].
  assert (G : forall (l : list string) a i x y, nth_error (combine l (seq a (List.length l))) i = Some (x, y) ->
                nth_error l i = Some x /\ (y = a + i)%nat).
  { clear. induction l as [|z l IH]; intros a i x y; simpl.
    - destruct i; discriminate.
    - destruct i; simpl; intros H.
      + inversion H; subst. split; [reflexivity|lia].
      + apply IH in H. destruct H; split; auto. lia. }
  apply G in H. destruct H as [H E]. simpl in E; subst. auto.
Qed.
Lemma indices_total l n : In n l -> exists k, dget n (indices l) = Some k.
Proof.
  intros H. apply dget_in_keys. unfold dkeys, indices.
  assert (G : forall (l : list string) a, map fst (combine l (seq a (List.length l))) = l).
  { clear. induction l; intros; simpl; auto. f_equal; auto. }
  now rewrite G.
Qed.
Lemma corner_get (pts : dict vec3) k n : NoDup (dkeys pts) -> nth_error (dkeys pts) k = Some n ->
  exists p, corner pts k p /\ dget n pts = Some p.
Proof.
  intros ND H. unfold dkeys in H. rewrite nth_error_map in H.
  destruct (nth_error pts k) as [[q p]|] eqn:E; [|discriminate]. simpl in H. inversion H; subst.
  exists p. split.
  - unfold corner. rewrite nth_error_map, E. reflexivity.
  - apply in_dget_nodup; auto. eapply nth_error_In; eauto.
Qed.

(** ** The lines *)
Lemma add_lines_spec ext w pts names : forall lines,
  NoDup names ->
  (forall b, In b names -> exists s e p q, answer ext w (OpBeamNodeNames b) = RNames [s; e]
       /\ dget s pts = Some p /\ dget e pts = Some q) ->
  exists lines', add_lines ext w pts names lines = Some lines'
    /\ (forall b, ~ In b names -> dget b lines' = dget b lines)
    /\ (forall b s e, In b names -> answer ext w (OpBeamNodeNames b) = RNames [s; e] ->
          exists p q, dget b lines' = Some (p, q) /\ dget s pts = Some p /\ dget e pts = Some q)
    /\ ((forall b, In b names -> ~ In b (dkeys lines)) -> dkeys lines' = dkeys lines ++ names)
    /\ ((forall b, In b names -> In b (dkeys lines)) -> dkeys lines' = dkeys lines).
Proof.
  induction names as [|b r IH]; intros lines ND H.
  - exists lines. simpl. split; [auto|split; [auto|split]]. { intros ? ? ? []. }
    split; auto. intros _. now rewrite app_nil_r.
  - inversion ND; subst. destruct (H b (or_introl eq_refl)) as (s & e & p & q & A & P & Q).
    simpl. unfold ask. unfold answer in A. rewrite A, P, Q. simpl.
    destruct (IH (dset b (p, q) lines)) as (L & E & O & N & K1 & K2); auto.
    { intros; apply H; right; auto. }
    exists L. split; [exact E|]. split.
    { intros c Hc. rewrite O by (intros C; apply Hc; right; auto). rewrite dget_dset_neq; [reflexivity|]. intros ->; apply Hc; left; auto. }
    split.
    { intros c s' e' [<-|Hc] A'.
      - unfold answer in A'. rewrite A in A'. inversion A'; subst. exists p, q. rewrite O by auto.
        rewrite dget_dset_eq. auto.
      - apply N; auto. }
    split.
    + intros D. assert (NB : ~ In b (dkeys lines)) by (apply D; left; auto).
      rewrite K1.
      * rewrite dkeys_dset_new by auto. now rewrite <- app_assoc.
      * intros c Hc C. apply in_dkeys_dset in C. destruct C as [->|C]; [auto|].
        apply (D c); [right; auto|exact C].
    + intros D. rewrite K2.
      * apply dkeys_dset_old. apply D; left; auto.
      * intros c Hc. apply in_dkeys_dset. right. apply D; right; auto.
Qed.

(** ** The faces *)
Lemma add_faces_spec ext w ids names : forall faces,
  NoDup names -> (forall s, In s names -> ~ In s (dkeys faces)) ->
  (forall s, In s names -> exists n1 n2 n3 n4 a b c d, answer ext w (OpShellNodeNames s) = RNames [n1; n2; n3; n4]
       /\ dget n1 ids = Some a /\ dget n2 ids = Some b /\ dget n3 ids = Some c /\ dget n4 ids = Some d) ->
  exists faces', add_faces ext w ids names faces = Some faces'
    /\ dkeys faces' = dkeys faces ++ names
    /\ (forall s, ~ In s names -> dget s faces' = dget s faces)
    /\ (forall s n1 n2 n3 n4, In s names -> answer ext w (OpShellNodeNames s) = RNames [n1; n2; n3; n4] ->
          exists a b c d, dget s faces' = Some (a, b, c, d)
            /\ dget n1 ids = Some a /\ dget n2 ids = Some b /\ dget n3 ids = Some c /\ dget n4 ids = Some d).
Proof.
  induction names as [|s r IH]; intros faces ND D H.
  - exists faces. simpl. rewrite app_nil_r. split; [auto|split; [auto|split; [auto|]]]. intros ? ? ? ? ? [].
  - inversion ND; subst. destruct (H s (or_introl eq_refl)) as (n1 & n2 & n3 & n4 & a & b & c & d & A & P1 & P2 & P3 & P4).
    simpl. unfold ask. unfold answer in A. rewrite A, P1; simpl. rewrite P2; simpl. rewrite P3; simpl. rewrite P4; simpl.
    assert (NS : ~ In s (dkeys faces)) by (apply D; left; auto).
    destruct (IH (dset s (a, b, c, d) faces)) as (F & E & K & O & N); auto.
    { intros q Hq C. apply in_dkeys_dset in C. destruct C as [->|C]; auto. apply (D q); auto. right; auto. }
    { intros; apply H; right; auto. }
    exists F. split; [exact E|]. split.
    { rewrite K, dkeys_dset_new by auto. now rewrite <- app_assoc. }
    split.
    { intros q Hq. rewrite O by (intros C; apply Hq; right; auto). rewrite dget_dset_neq; [reflexivity|]. intros ->; apply Hq; left; auto. }
    intros q m1 m2 m3 m4 [<-|Hq] A'.
    + unfold answer in A'. rewrite A in A'. inversion A'; subst. exists a, b, c, d. rewrite O by auto.
      rewrite dget_dset_eq. auto 6.
    + apply N; auto.
Qed.
Lemma add_faces_none ext w ids names : forall faces s,
  In s names -> answer ext w (OpShellNodeNames s) = RNone -> add_faces ext w ids names faces = None.
Proof.
  induction names as [|q r IH]; intros faces s H A; [destruct H|]. simpl.
  destruct H as [<-|H].
  - unfold ask. unfold answer in A. now rewrite A.
  - unfold ask. destruct (snd (step ext w (OpShellNodeNames q))) as [ | | [|n1 [|n2 [|n3 [|n4 [|]]]]] | | | | | ]; auto.
    destruct (dget n1 ids); simpl; auto. destruct (dget n2 ids); simpl; auto. destruct (dget n3 ids); simpl; auto.
    destruct (dget n4 ids); simpl; auto. eapply IH; eauto.
Qed.

(** ** All of it, for any places *)
Lemma beam_ends ext w b : fem_wf (k_fem (w_core w)) -> In b (dkeys (f_beams (k_fem (w_core w)))) ->
  exists s e, answer ext w (OpBeamNodeNames b) = RNames [s; e]
    /\ In s (dkeys (f_nodes (k_fem (w_core w)))) /\ In e (dkeys (f_nodes (k_fem (w_core w)))).
Proof.
  intros WF H. apply dget_in_keys in H. destruct H as [B H].
  exists (n_name (b_ni B)), (n_name (b_nj B)). unfold answer; simpl. unfold model_beam_connection. rewrite H. simpl.
  split; auto. apply dget_some_in in H. destruct (wf_beam _ WF _ _ H) as [_ _ _ [Hi _] [Hj _]]. auto.
Qed.
Lemma shell_corners ext w s : fem_wf (k_fem (w_core w)) -> In s (dkeys (f_shells (k_fem (w_core w)))) ->
  answer ext w (OpShellNodeNames s) <> RNone ->
  exists n1 n2 n3 n4, answer ext w (OpShellNodeNames s) = RNames [n1; n2; n3; n4]
    /\ In n1 (dkeys (f_nodes (k_fem (w_core w)))) /\ In n2 (dkeys (f_nodes (k_fem (w_core w))))
    /\ In n3 (dkeys (f_nodes (k_fem (w_core w)))) /\ In n4 (dkeys (f_nodes (k_fem (w_core w)))).
Proof.
  intros WF H Q. apply dget_in_keys in H. destruct H as [S H].
  unfold answer in *; simpl in *. unfold model_shell_connection in *. rewrite H in *. simpl in *.
  apply dget_some_in in H. destruct (wf_shell _ WF _ _ H) as [_ [(a & b & c & E & _)|(a & b & c & d & E & _)] N];
    rewrite E in *; simpl in *.
  - now elim Q.
  - exists (n_name a), (n_name b), (n_name c), (n_name d). split; auto.
    split; [apply (N a); auto|split; [apply (N b); auto|split; [apply (N c); auto|apply (N d); auto 10]]].
Qed.

Lemma drawn_lemma ext w pts lines faces :
  let m := k_fem (w_core w) in
  fem_wf m -> dkeys pts = dkeys (f_nodes m) ->
  dkeys lines = dkeys (f_beams m) ->
  (forall b s e, In b (dkeys (f_beams m)) -> answer ext w (OpBeamNodeNames b) = RNames [s; e] ->
     exists p q, dget b lines = Some (p, q) /\ dget s pts = Some p /\ dget e pts = Some q) ->
  dkeys faces = dkeys (f_shells m) ->
  (forall s n1 n2 n3 n4, In s (dkeys (f_shells m)) -> answer ext w (OpShellNodeNames s) = RNames [n1; n2; n3; n4] ->
     exists a b c d, dget s faces = Some (a, b, c, d)
       /\ dget n1 (indices (dkeys (f_nodes m))) = Some a /\ dget n2 (indices (dkeys (f_nodes m))) = Some b
       /\ dget n3 (indices (dkeys (f_nodes m))) = Some c /\ dget n4 (indices (dkeys (f_nodes m))) = Some d) ->
  drawn_at ext w pts lines faces (fun n p => dget n pts = Some p).
Proof.
  intros m WF KP KL L KF F. split.
  { intros l Hl. unfold nodes_are, answer in Hl. simpl in Hl. inversion Hl. exact KP. }
  split. { intros n p. rewrite lookup_dget. tauto. }
  split. { intros l Hl. unfold beams_are, answer in Hl. simpl in Hl. inversion Hl. apply KL. }
  split.
  { intros b s e A. assert (I : In b (dkeys (f_beams m))).
    { unfold answer in A. simpl in A. unfold model_beam_connection in A. fold m in A.
      destruct (dget b (f_beams m)) eqn:E; [|discriminate]. apply dget_in_keys; eauto. }
    destruct (L b s e I A) as (p & q & E & P & Q). exists p, q. rewrite lookup_dget. auto. }
  split. { intros l Hl. unfold shells_are, answer in Hl. simpl in Hl. inversion Hl. apply KF. }
  intros s n1 n2 n3 n4 A. assert (I : In s (dkeys (f_shells m))).
  { unfold answer in A. simpl in A. unfold model_shell_connection in A. fold m in A.
    destruct (dget s (f_shells m)) eqn:E; [|discriminate]. apply dget_in_keys; eauto. }
  destruct (F s n1 n2 n3 n4 I A) as (a & b & c & d & E & Q1 & Q2 & Q3 & Q4).
  assert (ND : NoDup (dkeys pts)) by (rewrite KP; apply wf_nodup; auto).
  apply indices_get in Q1. apply indices_get in Q2. apply indices_get in Q3. apply indices_get in Q4.
  rewrite <- KP in Q1, Q2, Q3, Q4.
  destruct (corner_get pts a n1 ND Q1) as (p1 & C1 & D1). destruct (corner_get pts b n2 ND Q2) as (p2 & C2 & D2).
  destruct (corner_get pts c n3 ND Q3) as (p3 & C3 & D3). destruct (corner_get pts d n4 ND Q4) as (p4 & C4 & D4).
  exists a, b, c, d, p1, p2, p3, p4. rewrite lookup_dget. repeat (split; [assumption|]). assumption.
Qed.

Lemma drawn_ext ext w pts lines faces (P Q : string -> vec3 -> Prop) :
  (forall n p, P n p <-> Q n p) -> drawn_at ext w pts lines faces P -> drawn_at ext w pts lines faces Q.
Proof.
  intros E (A & B & C & D & F & G). split; auto. split.
  { intros n p. rewrite B. apply E. }
  split; auto. split.
  { intros b s e H. destruct (D b s e H) as (p & q & ? & ? & ?). exists p, q. rewrite <- !E. auto. }
  split; auto.
  intros s n1 n2 n3 n4 H. destruct (G s n1 n2 n3 n4 H) as (a & b & c & d & p1 & p2 & p3 & p4 & H0 & H1 & H2 & H3 & H4 & H5 & H6 & H7 & H8).
  exists a, b, c, d, p1, p2, p3, p4. rewrite <- !E. auto 10.
Qed.

(** ** Numbers *)
Lemma fold_max_ge l : forall x y, (y = x \/ In y l) -> y <= fold_left Rmax l x.
Proof.
  induction l as [|a l IH]; intros x y H; simpl.
  - destruct H as [->|[]]. lra.
  - destruct H as [->|[->|H]].
    + eapply Rle_trans; [|apply IH; left; reflexivity]. apply Rmax_l.
    + eapply Rle_trans; [|apply IH; left; reflexivity]. apply Rmax_r.
    + apply IH; right; auto.
Qed.
Lemma fold_max_in l : forall x, fold_left Rmax l x = x \/ In (fold_left Rmax l x) l.
Proof.
  induction l as [|a l IH]; intros x; simpl; auto.
  destruct (IH (Rmax x a)) as [->|H]; auto. unfold Rmax. destruct (Rle_dec x a); auto.
Qed.
Lemma fold_min_le l : forall x y, (y = x \/ In y l) -> fold_left Rmin l x <= y.
Proof.
  induction l as [|a l IH]; intros x y H; simpl.
  - destruct H as [->|[]]. lra.
  - destruct H as [->|[->|H]].
    + eapply Rle_trans; [apply IH; left; reflexivity|]. apply Rmin_l.
    + eapply Rle_trans; [apply IH; left; reflexivity|]. apply Rmin_r.
    + apply IH; right; auto.
Qed.
Lemma fold_min_in l : forall x, fold_left Rmin l x = x \/ In (fold_left Rmin l x) l.
Proof.
  induction l as [|a l IH]; intros x; simpl; auto.
  destruct (IH (Rmin x a)) as [->|H]; auto. unfold Rmin. destruct (Rle_dec x a); auto.
Qed.
Lemma maxl_spec l M : maxl l = Some M -> In M l /\ forall x, In x l -> x <= M.
Proof.
  destruct l as [|a l]; simpl; intros H; inversion H; subst. split.
  - destruct (fold_max_in l a) as [->|]; auto.
  - intros x [->|Hx]; apply fold_max_ge; auto.
Qed.
Lemma minl_spec l M : minl l = Some M -> In M l /\ forall x, In x l -> M <= x.
Proof.
  destruct l as [|a l]; simpl; intros H; inversion H; subst. split.
  - destruct (fold_min_in l a) as [->|]; auto.
  - intros x [->|Hx]; apply fold_min_le; auto.
Qed.
Lemma half_width_total l : l <> [] -> exists h, half_width l = Some h.
Proof. destruct l; [congruence|]. intros _. unfold half_width; simpl. eauto. Qed.
Lemma half_width_spec l h : half_width l = Some h ->
  (forall x y, In x l -> In y l -> Rabs (x - y) <= 2 * h) /\ exists x y, In x l /\ In y l /\ x - y = 2 * h.
Proof.
  unfold half_width. destruct (maxl l) as [M|] eqn:EM; [|discriminate]. destruct (minl l) as [m|] eqn:Em; [|discriminate].
  simpl. intros H; inversion H; subst. apply maxl_spec in EM. apply minl_spec in Em.
  destruct EM as [IM BM], Em as [Im Bm]. split.
  - intros x y Hx Hy. pose proof (BM x Hx). pose proof (BM y Hy). pose proof (Bm x Hx). pose proof (Bm y Hy).
    apply Rabs_le. split; lra.
  - exists M, m. repeat split; auto. lra.
Qed.

Lemma radius_total pts : pts <> [] -> exists r, scene_radius pts = Some r.
Proof.
  intros H. unfold scene_radius.
  assert (forall f : vec3 -> R, map f (dvals pts) <> []) by (intros f C; destruct pts; [auto|discriminate]).
  destruct (half_width_total (map vx (dvals pts))) as [rx ->]; auto.
  destruct (half_width_total (map vy (dvals pts))) as [ry ->]; auto.
  destruct (half_width_total (map vz (dvals pts))) as [rz ->]; auto. simpl. eauto.
Qed.
Lemma radius_spec ext w r : fem_wf (k_fem (w_core w)) ->
  scene_radius (places (k_fem (w_core w))) = Some r -> half_extent ext w r.
Proof.
  intros WF. unfold scene_radius. set (l := dvals (places (k_fem (w_core w)))).
  destruct (half_width (map vx l)) as [rx|] eqn:Ex; [|discriminate].
  destruct (half_width (map vy l)) as [ry|] eqn:Ey; [|discriminate].
  destruct (half_width (map vz l)) as [rz|] eqn:Ez; [|discriminate]. simpl. intros H; inversion H; subst r.
  apply half_width_spec in Ex. apply half_width_spec in Ey. apply half_width_spec in Ez.
  destruct Ex as [Bx (x1 & x2 & X1 & X2 & X)], Ey as [By (y1 & y2 & Y1 & Y2 & Y)], Ez as [Bz (z1 & z2 & Z1 & Z2 & Z)].
  assert (IN : forall n p, stands ext w n p -> In p l).
  { intros n p Hp. apply places_get in Hp. eapply dget_in_dvals; eauto. }
  assert (ND : NoDup (dkeys (places (k_fem (w_core w))))) by (rewrite places_keys; apply wf_nodup; auto).
  assert (OUT : forall p, In p l -> exists n, stands ext w n p).
  { intros p Hp. destruct (in_dvals_dget _ _ ND Hp) as [n Hn]. exists n. now apply places_get. }
  pose proof (Rmax_l (Rmax rx ry) rz). pose proof (Rmax_r (Rmax rx ry) rz).
  pose proof (Rmax_l rx ry). pose proof (Rmax_r rx ry). split.
  - intros m n p q Hp Hq. apply IN in Hp. apply IN in Hq.
    pose proof (Bx _ _ (in_map vx _ _ Hp) (in_map vx _ _ Hq)).
    pose proof (By _ _ (in_map vy _ _ Hp) (in_map vy _ _ Hq)).
    pose proof (Bz _ _ (in_map vz _ _ Hp) (in_map vz _ _ Hq)). split; [|split]; lra.
  - assert (CH : Rmax (Rmax rx ry) rz = rx \/ Rmax (Rmax rx ry) rz = ry \/ Rmax (Rmax rx ry) rz = rz).
    { unfold Rmax. destruct (Rle_dec rx ry); destruct (Rle_dec _ rz); auto. }
    apply in_map_iff in X1, X2, Y1, Y2, Z1, Z2.
    destruct X1 as (xp & <- & X1), X2 as (xq & <- & X2), Y1 as (yp & <- & Y1), Y2 as (yq & <- & Y2),
             Z1 as (zp & <- & Z1), Z2 as (zq & <- & Z2).
    destruct CH as [->|[->| ->]].
    + destruct (OUT _ X1) as [m Hm]. destruct (OUT _ X2) as [n Hn]. exists m, n, xp, xq. auto.
    + destruct (OUT _ Y1) as [m Hm]. destruct (OUT _ Y2) as [n Hn]. exists m, n, yp, yq. auto.
    + destruct (OUT _ Z1) as [m Hm]. destruct (OUT _ Z2) as [n Hn]. exists m, n, zp, zq. auto.
Qed.

(** ** The cones *)
Lemma node_cones_spec s p v c : In c (node_cones s p v) <->
  exists i, (i < 6)%nat /\ nth i v false = true /\ cone_of s p i c.
Proof.
  assert (S1 : forall (b : bool) (x c : cone), In c (if b then [x] else []) <-> b = true /\ c = x).
  { intros b x d. destruct b; simpl; split; intros H; intuition; try discriminate. }
  unfold node_cones. rewrite !in_app_iff, !S1.
  assert (C0 : cone_of s p 0 (Cone (V3 (vx p - 1 * s) (vy p) (vz p)) (V3 1 0 0) false)).
  { unfold cone_of, vsub, vscale; simpl. f_equal; f_equal; ring. }
  assert (C1 : cone_of s p 1 (Cone (V3 (vx p) (vy p - 1 * s) (vz p)) (V3 0 1 0) false)).
  { unfold cone_of, vsub, vscale; simpl. f_equal; f_equal; ring. }
  assert (C2 : cone_of s p 2 (Cone (V3 (vx p) (vy p) (vz p - 1 * s)) (V3 0 0 1) false)).
  { unfold cone_of, vsub, vscale; simpl. f_equal; f_equal; ring. }
  assert (C3 : cone_of s p 3 (Cone (V3 (vx p + 1 * s) (vy p) (vz p)) (V3 (-1) 0 0) true)).
  { unfold cone_of, vadd, vscale; simpl. f_equal; f_equal; ring. }
  assert (C4 : cone_of s p 4 (Cone (V3 (vx p) (vy p + 1 * s) (vz p)) (V3 0 (-1) 0) true)).
  { unfold cone_of, vadd, vscale; simpl. f_equal; f_equal; ring. }
  assert (C5 : cone_of s p 5 (Cone (V3 (vx p) (vy p) (vz p + 1 * s)) (V3 0 0 (-1)) true)).
  { unfold cone_of, vadd, vscale; simpl. f_equal; f_equal; ring. }
  split.
  - intros [[H ->]|[[H ->]|[[H ->]|[[H ->]|[[H ->]|[H ->]]]]]].
    + exists 0%nat; auto with arith.
    + exists 1%nat; auto with arith.
    + exists 2%nat; auto with arith.
    + exists 3%nat; auto with arith.
    + exists 4%nat; auto with arith.
    + exists 5%nat; auto with arith.
  - intros (i & Hi & Hv & Hc).
    assert (U : forall x, cone_of s p i x -> c = x).
    { intros x Hx. unfold cone_of in *. destruct (i <? 3)%nat; congruence. }
    destruct i as [|[|[|[|[|[|i]]]]]]; [apply U in C0|apply U in C1|apply U in C2|apply U in C3|apply U in C4|apply U in C5|lia]; auto 10.
Qed.

Lemma mapM_concat_in {A B} (f : A -> option (list B)) l r b :
  mapM f l = Some r -> (In b (List.concat r) <-> exists a x, In a l /\ f a = Some x /\ In b x).
Proof.
  intros H. rewrite in_concat. split.
  - intros (x & Hx & Hb). destruct (mapM_in _ _ _ H _ Hx) as (a & Ha & E). eauto.
  - intros (a & x & Ha & E & Hb). destruct (mapM_all _ _ _ H _ Ha) as (y & Ey & Hy).
    rewrite E in Ey. inversion Ey; subst. eauto.
Qed.

Lemma init_restraints_spec ext w r : fem_wf (k_fem (w_core w)) ->
  exists cones, init_restraints ext w (places (k_fem (w_core w))) r = Some cones
    /\ forall c, In c cones <-> exists n p i, stands ext w n p /\ (i < 6)%nat /\ restrained ext w n i /\ cone_of (r / 100) p i c.
Proof.
  intros WF. unfold init_restraints, ask. cbn [snd step]. set (m := k_fem (w_core w)) in *.
  set (f := fun kv : string * list bool => bindO (dget (fst kv) (places m)) (fun p => Some (node_cones (r / 100) p (snd kv)))).
  destruct (mapM_total f (f_rest m)) as [l Hl].
  { intros [k fl] H. unfold f; simpl. destruct (wf_rest _ WF _ _ H) as [I _]. rewrite <- places_keys in I.
    apply dget_in_keys in I. destruct I as [p ->]. simpl. eauto. }
  rewrite Hl. exists (List.concat l). simpl. split; auto. intros c.
  rewrite (mapM_concat_in _ _ _ _ Hl). split.
  - intros ([k fl] & x & Hin & E & Hc). unfold f in E; simpl in E.
    destruct (dget k (places m)) as [p|] eqn:P; [|discriminate]. simpl in E. inversion E; subst x.
    apply node_cones_spec in Hc. destruct Hc as (i & Hi & Hv & Hc).
    exists k, p, i. split; [apply places_get; exact P|]. split; [auto|]. split; auto.
    exists (f_rest m), fl. split; [reflexivity|]. split; auto. rewrite lookup_dget.
    apply in_dget_nodup; auto. apply wf_rest_nodup; auto.
  - intros (n & p & i & Hp & Hi & (d & fl & A & L & Hv) & Hc).
    unfold answer in A. simpl in A. inversion A; subst d. rewrite lookup_dget in L.
    exists (n, fl), (node_cones (r / 100) p fl). split; [apply dget_some_in; exact L|].
    split; [|apply node_cones_spec; eauto]. unfold f; simpl. apply places_get in Hp. fold m in Hp. now rewrite Hp.
Qed.

(** ** Opening *)
Definition view_ok (ext : externals) (w : world) (pic : picture) : Prop :=
  let m := k_fem (w_core w) in
  v_pts pic = places m
  /\ dkeys (v_lines pic) = dkeys (f_beams m)
  /\ (forall b s e, In b (dkeys (f_beams m)) -> answer ext w (OpBeamNodeNames b) = RNames [s; e] ->
        exists p q, dget b (v_lines pic) = Some (p, q) /\ dget s (places m) = Some p /\ dget e (places m) = Some q)
  /\ dkeys (v_faces pic) = dkeys (f_shells m)
  /\ (forall s n1 n2 n3 n4, In s (dkeys (f_shells m)) -> answer ext w (OpShellNodeNames s) = RNames [n1; n2; n3; n4] ->
        exists a b c d, dget s (v_faces pic) = Some (a, b, c, d)
          /\ dget n1 (indices (dkeys (f_nodes m))) = Some a /\ dget n2 (indices (dkeys (f_nodes m))) = Some b
          /\ dget n3 (indices (dkeys (f_nodes m))) = Some c /\ dget n4 (indices (dkeys (f_nodes m))) = Some d)
  /\ scene_radius (places m) = Some (v_scale pic)
  /\ init_restraints ext w (places m) (v_scale pic) = Some (v_cones pic).

Lemma open_spec ext w : fem_wf (k_fem (w_core w)) ->
  f_nodes (k_fem (w_core w)) <> [] ->
  (forall s, In s (dkeys (f_shells (k_fem (w_core w)))) -> answer ext w (OpShellNodeNames s) <> RNone) ->
  exists pic, open_view ext w = Some pic /\ view_ok ext w pic.
Proof.
  intros WF NE SH. unfold open_view. rewrite init_nodes_spec by auto. simpl.
  set (m := k_fem (w_core w)) in *.
  destruct (add_lines_spec ext w (places m) (dkeys (f_beams m)) []) as (L & EL & _ & NL & KL & _).
  { apply wf_beam_nodup; auto. }
  { intros b Hb. destruct (beam_ends ext w b WF Hb) as (s & e & A & Is & Ie). fold m in Is, Ie.
    rewrite <- places_keys in Is, Ie. apply dget_in_keys in Is. apply dget_in_keys in Ie.
    destruct Is as [p Hp], Ie as [q Hq]. exists s, e, p, q. auto. }
  unfold init_beams, ask. cbn [snd step]. fold m. unfold model_beam_names. rewrite EL. simpl.
  destruct (add_faces_spec ext w (indices (dkeys (f_nodes m))) (dkeys (f_shells m)) []) as (F & EF & KF & _ & NF).
  { apply wf_shell_nodup; auto. } { auto. }
  { intros s Hs. destruct (shell_corners ext w s WF Hs (SH s Hs)) as (n1 & n2 & n3 & n4 & A & I1 & I2 & I3 & I4).
    fold m in I1, I2, I3, I4.
    apply indices_total in I1. apply indices_total in I2. apply indices_total in I3. apply indices_total in I4.
    destruct I1 as [a ?], I2 as [b ?], I3 as [c ?], I4 as [d ?]. exists n1, n2, n3, n4, a, b, c, d. auto. }
  unfold init_shells, ask. cbn [snd step]. fold m. unfold model_shell_names. rewrite EF. simpl.
  destruct (radius_total (places m)) as [r Hr].
  { intros C. apply NE. apply map_eq_nil in C. exact C. }
  rewrite Hr. simpl. destruct (init_restraints_spec ext w r WF) as (cs & Hc & _). fold m in Hc. rewrite Hc. simpl.
  eexists. split; [reflexivity|]. unfold view_ok. fold m. simpl.
  split; [auto|]. split; [rewrite KL; auto|]. split; [auto|]. split; [exact KF|]. auto.
Qed.

Lemma open_none_nodes ext w : f_nodes (k_fem (w_core w)) = [] -> fem_wf (k_fem (w_core w)) -> open_view ext w = None.
Proof.
  intros H WF. unfold open_view. rewrite init_nodes_spec by auto. unfold places. rewrite H. simpl.
  destruct (init_beams ext w []); simpl; auto. destruct (init_shells ext w _); simpl; auto.
Qed.
Lemma open_none_shell ext w s : fem_wf (k_fem (w_core w)) ->
  In s (dkeys (f_shells (k_fem (w_core w)))) -> answer ext w (OpShellNodeNames s) = RNone -> open_view ext w = None.
Proof.
  intros WF H A. unfold open_view. rewrite init_nodes_spec by auto. simpl.
  destruct (init_beams ext w _); simpl; auto. unfold init_shells, ask. cbn [snd step]. unfold model_shell_names.
  rewrite add_faces_none with (s := s); auto.
Qed.

Lemma reach_wf ext ops : fem_wf (k_fem (w_core (final ext init ops))).
Proof. apply cw_fem. apply (proj1 (wwf_reach ext ops)). Qed.

Lemma open_view_ok ext w pic : fem_wf (k_fem (w_core w)) -> open_view ext w = Some pic -> view_ok ext w pic.
Proof.
  intros WF H.
  destruct (list_eq_dec string_dec (dkeys (f_nodes (k_fem (w_core w)))) []) as [E|NE].
  { rewrite open_none_nodes in H; auto; [discriminate|]. destruct (f_nodes _); auto. discriminate. }
  assert (SH : forall s, In s (dkeys (f_shells (k_fem (w_core w)))) -> answer ext w (OpShellNodeNames s) <> RNone).
  { intros s Hs C. rewrite (open_none_shell ext w s) in H; auto. discriminate. }
  destruct (open_spec ext w) as (pic' & E & V); auto.
  { intros C. apply NE. rewrite C. reflexivity. }
  congruence.
Qed.

(** ** C97 *)
Lemma c97_opens ext ops nodes shells :
  let w := final ext init ops in
  nodes_are ext w nodes -> shells_are ext w shells ->
  ((exists pic, open_view ext w = Some pic) <->
   (nodes <> [] /\ forall s, In s shells -> answer ext w (OpShellNodeNames s) <> RNone)).
Proof.
  intros w HN HS. pose proof (reach_wf ext ops) as WF. fold w in WF.
  unfold nodes_are, answer in HN. unfold shells_are, answer in HS. simpl in HN, HS. inversion HN; inversion HS; subst.
  unfold model_node_names, model_shell_names. split.
  - intros [pic H]. split.
    + intros C. rewrite open_none_nodes in H; auto; [discriminate|]. destruct (f_nodes _); auto. discriminate.
    + intros s Hs C. rewrite (open_none_shell ext w s) in H; auto. discriminate.
  - intros [N S]. destruct (open_spec ext w) as (pic & E & _); eauto.
    intros C. apply N. rewrite C. reflexivity.
Qed.

Lemma view_drawn ext w pic : fem_wf (k_fem (w_core w)) -> view_ok ext w pic ->
  drawn_at ext w (v_pts pic) (v_lines pic) (v_faces pic) (stands ext w).
Proof.
  intros WF (P & KL & L & KF & F & _). apply drawn_ext with (P := fun n p => dget n (v_pts pic) = Some p).
  - intros n p. rewrite P. apply places_get.
  - apply drawn_lemma; rewrite ?P; auto. apply places_keys.
Qed.

Lemma c97_picture ext ops pic :
  let w := final ext init ops in
  open_view ext w = Some pic ->
  drawn_at ext w (v_pts pic) (v_lines pic) (v_faces pic) (stands ext w)
  /\ half_extent ext w (v_scale pic)
  /\ (forall c, In c (v_cones pic) <->
        exists n p i, stands ext w n p /\ (i < 6)%nat /\ restrained ext w n i /\ cone_of (v_scale pic / 100) p i c).
Proof.
  intros w H. pose proof (reach_wf ext ops) as WF. fold w in WF.
  pose proof (open_view_ok ext w pic WF H) as V. split; [apply view_drawn; auto|].
  destruct V as (_ & _ & _ & _ & _ & R1 & R2). split; [apply radius_spec; auto|].
  destruct (init_restraints_spec ext w (v_scale pic) WF) as (cs & Hc & S). rewrite R2 in Hc. inversion Hc; subst cs. exact S.
Qed.

(** ** Files *)
Lemma is_abs_app a b : is_abs a = true -> is_abs (a ++ b) = true.
Proof. destruct a; simpl; auto. discriminate. Qed.
Lemma ends_slash_cons c a b : ends_slash (String c (a ++ "/" ++ b))%string = ends_slash (a ++ "/" ++ b)%string.
Proof. destruct a; reflexivity. Qed.
Lemma append_assoc (a b c : string) : ((a ++ b) ++ c)%string = (a ++ (b ++ c))%string.
Proof. induction a; simpl; congruence. Qed.
Lemma path_join_abs a b : is_abs a = true -> is_abs (path_join a b) = true.
Proof.
  intros H. unfold path_join. destruct (is_abs b) eqn:E; auto. destruct (_ || _)%bool; apply is_abs_app; auto.
Qed.
Lemma c97_file wp fn : is_abs wp = true -> viewer_path wp fn = saved_path wp fn.
Proof.
  intros H. unfold viewer_path, saved_path. unfold path_join at 1. rewrite is_abs_app by (apply path_join_abs; auto).
  unfold path_join. destruct (is_abs fn) eqn:E.
  - rewrite is_abs_app by auto. reflexivity.
  - destruct (is_abs (fn ++ ".sep")) eqn:E2.
    + destruct fn; [discriminate E2|]. simpl in *. congruence.
    + destruct (_ || _)%bool; rewrite ?append_assoc; reflexivity.
Qed.
Lemma c97_file_refuted : exists wp fn, wp <> ""%string /\ viewer_path wp fn <> saved_path wp fn.
Proof. exists "work"%string, "bridge"%string. split; [discriminate|]. intros C. vm_compute in C. discriminate. Qed.
