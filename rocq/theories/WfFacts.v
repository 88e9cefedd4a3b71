(** Invariants of every state reachable through the interface. *)
From Coq Require Import Reals Lra Lia List String Arith Bool.
From Verif Require Import Base BaseFacts Csys Sections Element Load FeModel Assembly Solver Post Api SpecApi ApiFacts.
Import ListNotations.
Local Open Scope R_scope.

(** ** Nodes *)
Definition global_axes (c : csys) : Prop :=
  cs_x c = V3 1 0 0 /\ cs_y c = V3 0 1 0 /\ cs_z c = V3 0 0 1.

Lemma mk_node_total name x y z :
  mk_node name x y z = Some (Node name (CS (V3 x y z) (V3 1 0 0) (V3 0 1 0) (V3 0 0 1)) [0;0;0;0;0;0]).
Proof.
  unfold mk_node, cartesian, vsub, cross; simpl.
  replace (x + 1 - x) with 1 by ring. replace (y + 1 - y) with 1 by ring.
  replace (y - y) with 0 by ring. replace (z - z) with 0 by ring. replace (x - x) with 0 by ring.
  replace (0 * 0 - 0 * 1) with 0 by ring. replace (0 * 0 - 1 * 0) with 0 by ring.
  replace (1 * 1 - 0 * 0) with 1 by ring.
  unfold max_abs; simpl. rewrite Rabs_R0, Rabs_R1.
  rewrite (Rmax_right 0 1) by lra. rewrite (Rmax_right 0 1) by lra.
  destruct (Rltb 1 abs_tol) eqn:E.
  { apply Rltb_true in E. unfold abs_tol in E. lra. }
  unfold norm, dot3, vdiv; simpl.
  replace (1 * 1 + 0 * 0 + 0 * 0) with 1 by ring. replace (0 * 0 + 0 * 0 + 1 * 1) with 1 by ring.
  rewrite sqrt_1. replace (1 / 1) with 1 by field. replace (0 / 1) with 0 by field.
  replace (0 * 0 - 1 * 0) with 0 by ring. replace (1 * 1 - 0 * 0) with 1 by ring.
  replace (0 * 0 - 0 * 1) with 0 by ring. reflexivity.
Qed.

(** ** Well-formed finite element models *)
Definition node_ok (m : fem) (n : node) : Prop :=
  In (n_name n) (dkeys (f_nodes m)) /\ global_axes (n_csys n).

Record beam_ok (m : fem) (k : string) (b : beam) : Prop := {
  bo_name : b_name b = k;
  bo_rel : b_rel b = no_releases;
  bo_csys : line_csys (n_loc (b_ni b)) (n_loc (b_nj b)) = Some (b_csys b);
  bo_ni : node_ok m (b_ni b);
  bo_nj : node_ok m (b_nj b) }.

Record shell_ok (m : fem) (k : string) (s : shell) : Prop := {
  so_name : sh_name s = k;
  so_shape : (exists a b c, sh_nodes s = [a;b;c] /\ tria_csys (n_loc a) (n_loc b) (n_loc c) = Some (sh_csys s)
                 /\ sh_area s = tria_area (n_loc a) (n_loc b) (n_loc c))
          \/ (exists a b c d, sh_nodes s = [a;b;c;d]
                 /\ quad_csys (n_loc a) (n_loc b) (n_loc c) (n_loc d) = Some (sh_csys s)
                 /\ sh_area s = quad_area (n_loc a) (n_loc b) (n_loc c) (n_loc d));
  so_nodes : forall n, In n (sh_nodes s) -> node_ok m n }.

Record fem_wf (m : fem) : Prop := {
  wf_nodup : NoDup (dkeys (f_nodes m));
  wf_hkeys : dkeys (f_hnode m) = dkeys (f_nodes m);
  wf_node : forall k n, In (k, n) (f_nodes m) -> n_name n = k /\ global_axes (n_csys n);
  wf_rest_nodup : NoDup (dkeys (f_rest m));
  wf_rest : forall k fl, In (k, fl) (f_rest m) -> In k (dkeys (f_nodes m)) /\ List.length fl = 6%nat;
  wf_beam_nodup : NoDup (dkeys (f_beams m));
  wf_beam : forall k b, In (k, b) (f_beams m) -> beam_ok m k b;
  wf_shell_nodup : NoDup (dkeys (f_shells m));
  wf_shell : forall k s, In (k, s) (f_shells m) -> shell_ok m k s }.

Lemma new_fem_wf : fem_wf new_fem.
Proof. constructor; simpl; try constructor; try easy. Qed.

(** growing the node dictionary keeps objects well-formed *)
Lemma node_ok_mono m m' n :
  (forall k, In k (dkeys (f_nodes m)) -> In k (dkeys (f_nodes m'))) -> node_ok m n -> node_ok m' n.
Proof. intros H [H1 H2]; split; auto. Qed.
Lemma beam_ok_mono m m' k b :
  (forall k, In k (dkeys (f_nodes m)) -> In k (dkeys (f_nodes m'))) -> beam_ok m k b -> beam_ok m' k b.
Proof. intros H []; constructor; auto; eapply node_ok_mono; eauto. Qed.
Lemma shell_ok_mono m m' k s :
  (forall k, In k (dkeys (f_nodes m)) -> In k (dkeys (f_nodes m'))) -> shell_ok m k s -> shell_ok m' k s.
Proof. intros H []; constructor; auto. intros; eapply node_ok_mono; eauto. Qed.

Lemma in_dkeys {A} k (v : A) (d : dict A) : In (k, v) d -> In k (dkeys d).
Proof. intros H. apply in_map_iff. exists (k, v). auto. Qed.

Lemma wf_add_node n x y z m hid m' :
  fem_wf m -> model_add_node n x y z false m = Some (hid, m') -> fem_wf m'.
Proof.
  intros W. unfold model_add_node. rewrite mk_node_total. intros H; inversion H; subst; clear H.
  destruct W. constructor; simpl; auto.
  - now apply nodup_dset.
  - rewrite !dkeys_dset. unfold dmem.
    assert (forall k, In k (dkeys (f_hnode m)) <-> In k (dkeys (f_nodes m))) as HK by (rewrite wf_hkeys0; tauto).
    specialize (HK n). rewrite !dget_in_keys in HK.
    destruct (dget n (f_hnode m)), (dget n (f_nodes m)); try rewrite wf_hkeys0; auto;
      exfalso; destruct HK as [H1 H2]; [destruct H1|destruct H2]; eauto; discriminate.
  - intros k nd HI. apply in_dset in HI as [[-> ->]|HI].
    + simpl. repeat split.
    + apply wf_node0; auto.
  - intros k fl HI. apply wf_rest0 in HI as [H1 H2]. split; auto. apply in_dkeys_dset; auto.
  - intros k b HI. eapply beam_ok_mono; [|eapply wf_beam0; eauto].
    intros; simpl; apply in_dkeys_dset; auto.
  - intros k b HI. eapply shell_ok_mono; [|eapply wf_shell0; eauto].
    intros; simpl; apply in_dkeys_dset; auto.
Qed.

Lemma wf_set_restraint n fl m :
  List.length fl = 6%nat -> fem_wf m -> fem_wf (snd (model_set_restraint n fl m)).
Proof.
  intros L W. unfold model_set_restraint. destruct (dmem n (f_nodes m)) eqn:E; simpl; auto.
  apply dmem_spec in E. destruct W. constructor; simpl; auto.
  - now apply nodup_dset.
  - intros k f HI. apply in_dset in HI as [[-> ->]|HI]; auto.
  - intros k b HI. eapply beam_ok_mono; [|eapply wf_beam0; eauto]. auto.
  - intros k b HI. eapply shell_ok_mono; [|eapply wf_shell0; eauto]. auto.
Qed.

Lemma wf_set_mass n ms m m' : fem_wf m -> model_set_mass n ms m = Some m' -> fem_wf m'.
Proof.
  intros W. unfold model_set_mass. destruct (dget n (f_nodes m)) as [nd|] eqn:E; [|easy].
  intros H; inversion H; subst; clear H.
  assert (In n (dkeys (f_nodes m))) as HI by (apply dget_in_keys; eauto).
  destruct W. constructor; simpl; auto.
  - now apply nodup_dset.
  - rewrite dkeys_dset_old; auto.
  - intros k nd' H. apply in_dset in H as [[-> ->]|H]; auto.
    apply dget_some_in in E. apply wf_node0 in E. auto.
  - intros k fl H. rewrite dkeys_dset_old; auto.
  - intros k b H. eapply beam_ok_mono; [|eapply wf_beam0; eauto]. simpl; intros. rewrite dkeys_dset_old; auto.
  - intros k b H. eapply shell_ok_mono; [|eapply wf_shell0; eauto]. simpl; intros. rewrite dkeys_dset_old; auto.
Qed.

Lemma wf_same_geometry m m' :
  fem_wf m -> f_nodes m' = f_nodes m -> f_rest m' = f_rest m -> f_beams m' = f_beams m ->
  f_shells m' = f_shells m -> f_hnode m' = f_hnode m -> fem_wf m'.
Proof.
  intros [] E1 E2 E3 E4 E5. constructor; rewrite ?E1, ?E2, ?E3, ?E4, ?E5; auto.
  - intros k b HI. eapply beam_ok_mono; [|eapply wf_beam0; eauto]. rewrite E1; auto.
  - intros k b HI. eapply shell_ok_mono; [|eapply wf_shell0; eauto]. rewrite E1; auto.
Qed.

Lemma wf_add_material n rho E mu a m : fem_wf m -> fem_wf (model_add_material n rho E mu a m).
Proof. intros W. eapply wf_same_geometry; eauto. Qed.

Lemma wf_add_bsection n mt mk m m' : fem_wf m -> model_add_bsection n mt mk m = Some m' -> fem_wf m'.
Proof.
  intros W. unfold model_add_bsection, bindO. destruct (dget mt (f_mats m)); [|easy].
  destruct (mk m0); [|easy]. intros H; inversion H; subst. eapply wf_same_geometry; eauto.
Qed.

Lemma wf_add_ssection n mt t ty m m' : fem_wf m -> model_add_ssection n mt t ty m = Some m' -> fem_wf m'.
Proof.
  intros W. unfold model_add_ssection, bindO. destruct (dget mt (f_mats m)); [|easy].
  intros H; inversion H; subst. eapply wf_same_geometry; eauto.
Qed.

Lemma node_ok_dget m k n : fem_wf m -> dget k (f_nodes m) = Some n -> node_ok m n /\ n_name n = k.
Proof.
  intros W H. pose proof (dget_some_in _ _ _ H) as HI. apply (wf_node _ W) in HI as [<- A].
  split; auto. split; auto. apply dget_in_keys. eauto.
Qed.

Lemma wf_put_beam n ni nj p m hid m' :
  fem_wf m -> node_ok m ni -> node_ok m nj -> model_put_beam n ni nj p false m = Some (hid, m') ->
  fem_wf m'.
Proof.
  intros W Hi Hj. unfold model_put_beam, mk_beam, bindO.
  destruct (line_csys (n_loc ni) (n_loc nj)) as [c|] eqn:E; [|easy].
  intros H; inversion H; subst; clear H. destruct W. constructor; simpl; auto.
  - now apply nodup_dset.
  - intros k b H. apply in_dset in H as [[-> ->]|H].
    + constructor; simpl; auto.
    + eapply beam_ok_mono; [|eapply wf_beam0; eauto]. auto.
  - intros k b H. eapply shell_ok_mono; [|eapply wf_shell0; eauto]. auto.
Qed.

Lemma wf_add_beam n s e sec m hid m' :
  fem_wf m -> model_add_beam n s e sec false m = Some (hid, m') -> fem_wf m'.
Proof.
  intros W. unfold model_add_beam.
  destruct (dget s (f_nodes m)) as [ni|] eqn:Es; simpl; [|easy].
  destruct (dget e (f_nodes m)) as [nj|] eqn:Ee; simpl; [|easy].
  destruct (dget sec (f_bsecs m)) eqn:Ec; simpl; [|easy].
  apply node_ok_dget in Es as [Hi _], Ee as [Hj _]; auto. now apply wf_put_beam.
Qed.

Lemma wf_add_simple_beam n s e E mu A I2 I3 J rho m hid m' :
  fem_wf m -> model_add_simple_beam n s e E mu A I2 I3 J rho false m = Some (hid, m') -> fem_wf m'.
Proof.
  intros W. unfold model_add_simple_beam.
  destruct (dget s (f_nodes m)) as [ni|] eqn:Es; simpl; [|easy].
  destruct (dget e (f_nodes m)) as [nj|] eqn:Ee; simpl; [|easy].
  apply node_ok_dget in Es as [Hi _], Ee as [Hj _]; auto. now apply wf_put_beam.
Qed.

Lemma wf_add_shell n sec a b c d m hid m' :
  fem_wf m -> model_add_shell n sec a b c d m = Some (hid, m') -> fem_wf m'.
Proof.
  intros W. unfold model_add_shell.
  destruct (dget sec (f_ssecs m)) eqn:Ec; simpl; [|easy].
  destruct (dget a (f_nodes m)) as [na|] eqn:Ea; simpl; [|easy].
  destruct (dget b (f_nodes m)) as [nb|] eqn:Eb; simpl; [|easy].
  destruct (dget c (f_nodes m)) as [nc|] eqn:Ecc; simpl; [|easy].
  apply node_ok_dget in Ea as [Ha _], Eb as [Hb _], Ecc as [Hc _]; auto.
  assert (forall sh, (sh_name sh = n /\
            ((exists a b c, sh_nodes sh = [a;b;c] /\ tria_csys (n_loc a) (n_loc b) (n_loc c) = Some (sh_csys sh)
                 /\ sh_area sh = tria_area (n_loc a) (n_loc b) (n_loc c))
          \/ (exists a b c d, sh_nodes sh = [a;b;c;d]
                 /\ quad_csys (n_loc a) (n_loc b) (n_loc c) (n_loc d) = Some (sh_csys sh)
                 /\ sh_area sh = quad_area (n_loc a) (n_loc b) (n_loc c) (n_loc d)))
            /\ forall n, In n (sh_nodes sh) -> node_ok m n) ->
            fem_wf (Fem (f_nodes m) (f_rest m) (f_mats m) (f_bsecs m) (f_ssecs m) (f_beams m)
                 (dset n sh (f_shells m)) (f_hnode m) (f_hbeam m) (dset n (List.length (f_shells m)) (f_hshell m)))) as KEY.
  { intros sh (H1 & H2 & H3). destruct W. constructor; simpl; auto.
    - intros k q H. eapply beam_ok_mono; [|eapply wf_beam0; eauto]. auto.
    - now apply nodup_dset.
    - intros k q H. apply in_dset in H as [[-> ->]|H].
      + constructor; auto.
      + eapply shell_ok_mono; [|eapply wf_shell0; eauto]. auto. }
  destruct d as [d|].
  - destruct (dget d (f_nodes m)) as [nd|] eqn:Ed; simpl; [|easy].
    apply node_ok_dget in Ed as [Hd _]; auto.
    unfold mk_quad. destruct (quad_csys _ _ _ _) eqn:Eq; simpl; [|easy].
    intros H; inversion H; subst. apply KEY. split; [|split]; simpl; auto.
    + right. exists na, nb, nc, nd. auto.
    + intros q [<-|[<-|[<-|[<-|[]]]]]; auto.
  - unfold mk_tria. destruct (tria_csys _ _ _) eqn:Eq; simpl; [|easy].
    intros H; inversion H; subst. apply KEY. split; [|split]; simpl; auto.
    + left. exists na, nb, nc. auto.
    + intros q [<-|[<-|[<-|[]]]]; auto.
Qed.

(** ** Patterns and cases *)
Record case_ok (heap : list pattern) (k : string) (c : lcase) : Prop := {
  co_name : c_name c = k;
  co_nodup : NoDup (dkeys (c_factor c));
  co_pkeys : dkeys (c_pats c) = dkeys (c_factor c);
  co_ckeys : dkeys (c_curve c) = dkeys (c_factor c);
  co_pat : forall p a, In (p, a) (c_pats c) ->
             exists pt, nth_error heap a = Some pt /\ p_name pt = p;
  co_curve : forall p cv, In (p, cv) (c_curve c) -> cv = default_curve;
  co_rest_nodup : NoDup (dkeys (c_rest c));
  co_rest : forall n fl, In (n, fl) (c_rest c) -> List.length fl = 6%nat }.

Record core_wf (c : core) : Prop := {
  cw_fem : fem_wf (k_fem c);
  cw_pats_nodup : NoDup (dkeys (k_pats c));
  cw_addr_nodup : NoDup (dvals (k_pats c));
  cw_pats : forall k a, In (k, a) (k_pats c) ->
              exists pt, nth_error (k_heap c) a = Some pt /\ p_name pt = k;
  cw_cases_nodup : NoDup (dkeys (k_cases c));
  cw_cases : forall k lc, In (k, lc) (k_cases c) -> case_ok (k_heap c) k lc }.

Lemma new_core_wf : core_wf new_core.
Proof. constructor; simpl; try constructor; try easy; apply new_fem_wf. Qed.

Lemma core_wf_fem c m : core_wf c -> fem_wf m -> core_wf (with_fem c m).
Proof. intros [] W. constructor; simpl; auto. Qed.

Definition heap_ext (h h' : list pattern) : Prop :=
  forall a pt, nth_error h a = Some pt -> exists pt', nth_error h' a = Some pt' /\ p_name pt' = p_name pt.

Lemma heap_ext_refl h : heap_ext h h.
Proof. intros a pt H; eauto. Qed.
Lemma heap_ext_app h l : heap_ext h (h ++ l).
Proof.
  intros a pt H. exists pt. split; auto. rewrite nth_error_app1; auto. eapply nth_error_lt; eauto.
Qed.
Lemma heap_ext_set h a p p' :
  nth_error h a = Some p -> p_name p' = p_name p -> heap_ext h (set_nth a p' h).
Proof.
  intros H E b pt Hb. destruct (Nat.eq_dec a b).
  - subst. exists p'. split; [apply nth_error_set_nth_eq; eapply nth_error_lt; eauto|]. congruence.
  - exists pt. split; auto. rewrite nth_error_set_nth_neq; auto.
Qed.
Lemma case_ok_heap h h' k c : heap_ext h h' -> case_ok h k c -> case_ok h' k c.
Proof.
  intros HE []. constructor; auto. intros p a HI. destruct (co_pat0 _ _ HI) as (pt & H1 & H2).
  destruct (HE _ _ H1) as (pt' & H3 & H4). exists pt'. split; congruence.
Qed.

Lemma core_wf_heap c h' :
  core_wf c -> heap_ext (k_heap c) h' -> core_wf (Core (k_fem c) (k_pats c) h' (k_cases c)).
Proof.
  intros [] HE. constructor; simpl; auto.
  - intros k a HI. destruct (cw_pats0 _ _ HI) as (pt & H1 & H2).
    destruct (HE _ _ H1) as (pt' & H3 & H4). exists pt'. split; congruence.
  - intros k lc HI. eapply case_ok_heap; eauto.
Qed.

Lemma core_wf_add_pattern c p :
  core_wf c ->
  core_wf (Core (k_fem c) (dset p (List.length (k_heap c)) (k_pats c))
                (k_heap c ++ [new_pattern p]) (k_cases c)).
Proof.
  intros W. pose proof W as []. constructor; simpl; auto.
  - now apply nodup_dset.
  - assert (forall x, In x (dvals (k_pats c)) -> (x < List.length (k_heap c))%nat) as HB.
    { intros x HI. apply in_map_iff in HI as [[k a] [E HI]]. simpl in E; subst.
      destruct (cw_pats0 _ _ HI) as (pt & H1 & _). eapply nth_error_lt; eauto. }
    generalize cw_addr_nodup0. revert HB. generalize (List.length (k_heap c)) as N.
    generalize (k_pats c). intros d N. clear. induction d as [|[k v] r IH]; simpl; intros HB ND.
    + repeat constructor; auto.
    + inversion ND; subst. destruct (String.eqb p k); simpl; constructor; auto.
      * intros HI. specialize (HB N (or_intror HI)). lia.
      * intros HI. apply in_dvals_dset in HI as [->|HI]; auto.
        specialize (HB N (or_introl eq_refl)). lia.
  - intros k a HI. apply in_dset in HI as [[-> ->]|HI].
    + exists (new_pattern p). split; auto. rewrite nth_error_app2 by lia. now rewrite Nat.sub_diag.
    + destruct (cw_pats0 _ _ HI) as (pt & H1 & H2).
      destruct (heap_ext_app _ [new_pattern p] _ _ H1) as (pt' & H3 & H4). exists pt'. split; congruence.
  - intros k lc HI. eapply case_ok_heap; [apply heap_ext_app|]. eauto.
Qed.

Lemma core_wf_set_case c k lc :
  core_wf c -> case_ok (k_heap c) k lc ->
  core_wf (Core (k_fem c) (k_pats c) (k_heap c) (dset k lc (k_cases c))).
Proof.
  intros [] H. constructor; simpl; auto.
  - now apply nodup_dset.
  - intros q lc' HI. apply in_dset in HI as [[-> ->]|HI]; auto.
Qed.

Lemma new_case_ok h kd k : case_ok h k (new_case kd k).
Proof. constructor; simpl; try constructor; easy. Qed.

Lemma dkeys_dset_eq {A B} (d : dict A) (d' : dict B) k v w :
  dkeys d = dkeys d' -> dkeys (dset k v d) = dkeys (dset k w d').
Proof.
  intros E. rewrite !dkeys_dset, E. unfold dmem.
  assert (In k (dkeys d) <-> In k (dkeys d')) as HK by (rewrite E; tauto).
  rewrite !dget_in_keys in HK.
  destruct (dget k d), (dget k d'); auto; exfalso; destruct HK as [H1 H2]; [destruct H1|destruct H2]; eauto; discriminate.
Qed.

Lemma add_pattern_ok h k lc pt a f :
  case_ok h k lc -> nth_error h a = Some pt ->
  case_ok h k (case_add_pattern (p_name pt) a f None lc).
Proof.
  intros [] H. constructor; simpl; auto.
  - now apply nodup_dset.
  - now apply dkeys_dset_eq.
  - now apply dkeys_dset_eq.
  - intros p b HI. apply in_dset in HI as [[-> ->]|HI]; eauto.
  - intros p cv HI. apply in_dset in HI as [[-> ->]|HI]; eauto.
Qed.

Lemma set_restraint_ok h k lc n fl :
  List.length fl = 6%nat -> case_ok h k lc -> case_ok h k (case_set_restraint n fl lc).
Proof.
  intros L []. constructor; simpl; auto.
  - now apply nodup_dset.
  - intros q f HI. apply in_dset in HI as [[-> ->]|HI]; eauto.
Qed.

Lemma list6_length {A} (s : six A) : List.length (list6 s) = 6%nat.
Proof. destruct s as [[[[[]]]]]; reflexivity. Qed.

Lemma core_wf_step ext w o :
  core_wf (w_core w) -> is_load o = false -> core_wf (w_core (after ext w o)).
Proof.
  intros W NL. unfold after.
  assert (forall r, (forall m', r = Some m' -> fem_wf m') -> core_wf (w_core (fst (ret_fem w r)))) as RF.
  { intros [m'|] H; simpl; auto. apply core_wf_fem; auto. }
  assert (forall (r : option (nat * fem)), (forall h m', r = Some (h, m') -> fem_wf m') ->
           core_wf (w_core (fst (ret_fem w (bindO r (fun r => Some (snd r))))))) as RF2.
  { intros [[h m']|] H; simpl; auto. apply core_wf_fem; auto. eauto. }
  assert (forall p u, (forall q, p_name (u q) = p_name q) -> core_wf (w_core (fst (ret_pat w p u)))) as RP.
  { intros p u Hu. unfold ret_pat, bindO.
    destruct (dget p (k_pats (w_core w))) as [a|]; simpl; auto.
    destruct (nth_error (k_heap (w_core w)) a) as [pt|] eqn:E; simpl; auto.
    apply core_wf_heap; auto. eapply heap_ext_set; eauto. }
  pose proof (cw_fem _ W) as WF.
  destruct o; simpl; try discriminate NL; try exact W;
    try (apply RF; intros m' H; solve [eapply wf_add_bsection; eauto | eapply wf_set_mass; eauto
           | eapply wf_add_ssection; eauto | discriminate H]);
    try (apply RF2; intros h m' H; solve [eapply wf_add_node; eauto | eapply wf_add_beam; eauto
           | eapply wf_add_simple_beam; eauto | eapply wf_add_shell; eauto]).
  - destruct casename; simpl; auto.
  - apply core_wf_fem; auto. apply wf_add_material; auto.
  - now apply core_wf_add_pattern.
  - apply core_wf_fem; auto. apply wf_set_restraint; auto. apply list6_length.
  - destruct (dget case (k_cases (w_core w))) as [lc|] eqn:E; simpl; auto.
    apply core_wf_set_case; auto. apply set_restraint_ok; [apply list6_length|].
    apply (cw_cases _ W). now apply dget_some_in.
  - destruct f as [[[[[f1 f2] f3] m1] m2] m3]. apply RP. auto.
  - apply RP; auto.
  - destruct F as [[[[[f1 f2] f3] m1] m2] m3]. apply RP. auto.
  - apply core_wf_set_case; auto. apply new_case_ok.
  - apply core_wf_set_case; auto. apply new_case_ok.
  - destruct (dget case (k_cases (w_core w))) as [lc|] eqn:E; simpl; auto.
    destruct (dget pattern (k_pats (w_core w))) as [a|] eqn:Ep; simpl; auto.
    destruct (nth_error (k_heap (w_core w)) a) as [pt|] eqn:Eh; simpl; auto.
    apply core_wf_set_case; auto. apply add_pattern_ok; auto.
    apply (cw_cases _ W). now apply dget_some_in.
  - destruct (mk_asm _ _ _); simpl; auto.
  - unfold do_solve_static. destruct (read_asb w); simpl; auto.
    destruct (assemble_K _ _); simpl; auto. destruct (solve_linear _ _ _); simpl; auto.
Qed.

(** assemblies made from well-formed states *)
Definition asm_of (c : core) (a : asm) : Prop :=
  mk_asm (k_fem c) (dvals (k_cases c)) (k_heap c) = Some a.
Definition asm_wf (a : asm) : Prop := exists c, core_wf c /\ asm_of c a.

Definition wwf : world -> Prop := winv core_wf asm_wf.

Lemma wwf_step ext w o : wwf w -> wwf (after ext w o).
Proof.
  intros H. apply (winv_step ext (fun _ _ => True)); auto.
  - intros w' o' _ [HP _] L. now apply core_wf_step.
  - intros c a HP E. exists c. auto.
Qed.
Lemma wwf_run ext w ops : wwf w -> wwf (final ext w ops).
Proof. revert w; induction ops; intros w H; auto. rewrite final_cons. apply IHops, wwf_step, H. Qed.
Lemma wwf_init : wwf init.
Proof. apply winv_init, new_core_wf. Qed.
Lemma wwf_reach ext ops : wwf (final ext init ops).
Proof. apply wwf_run, wwf_init. Qed.
