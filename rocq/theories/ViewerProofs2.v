(** Proofs about the viewers: lines and beams, the deformed picture, arrows, buttons. *)
From Coq Require Import Reals Lra Lia List String Arith Bool.
From Verif Require Import Base BaseFacts Csys Sections Element Load FeModel Assembly Solver Post Api SpecApi ApiFacts WfFacts ApiProofs1 Viewer SpecViewer ViewerProofs.
Import ListNotations.
Local Open Scope R_scope.

(** ** Beams stand between the nodes of their names unless a node is added anew *)
Definition same_place (m : fem) (n : node) : Prop :=
  exists n', dget (n_name n) (f_nodes m) = Some n' /\ n_loc n' = n_loc n.
Definition held (m : fem) : Prop :=
  forall k b, In (k, b) (f_beams m) -> same_place m (b_ni b) /\ same_place m (b_nj b).
Lemma held_same m m' : held m -> f_nodes m' = f_nodes m -> f_beams m' = f_beams m -> held m'.
Proof. intros H E1 E2 k b. unfold same_place. rewrite E1, E2. apply H. Qed.
Lemma held_grow m m' : held m -> f_beams m' = f_beams m -> (forall n, same_place m n -> same_place m' n) -> held m'.
Proof. intros H E G k b. rewrite E. intros Hb. destruct (H k b Hb). split; auto. Qed.
Lemma held_put_beam n ni nj p m h m' : held m -> same_place m ni -> same_place m nj ->
  model_put_beam n ni nj p false m = Some (h, m') -> held m'.
Proof.
  intros H Hi Hj. unfold model_put_beam, bindO. destruct (mk_beam n ni nj p) as [b|] eqn:E; [|discriminate].
  intros X; inversion X; subst; clear X. unfold mk_beam in E. destruct (line_csys _ _); [|discriminate]. inversion E; subst.
  intros k b HI. simpl in HI. apply in_dset in HI. destruct HI as [[-> ->]|HI]; simpl; [split; auto|]. apply (H k b HI).
Qed.
Lemma same_place_self m k n : fem_wf m -> dget k (f_nodes m) = Some n -> same_place m n.
Proof. intros WF H. exists n. destruct (node_ok_dget _ _ _ WF H) as [_ ->]. auto. Qed.

Lemma held_step ext w o : fresh_node ext w o -> core_wf (w_core w) -> held (k_fem (w_core w)) -> is_load o = false ->
  held (k_fem (w_core (after ext w o))).
Proof.
  intros G W H NL. pose proof (cw_fem _ W) as WF. unfold after.
  assert (RF : forall r, (forall m', r = Some m' -> held m') -> held (k_fem (w_core (fst (ret_fem w r))))).
  { intros [m'|] X; simpl; auto. }
  assert (RF2 : forall (r : option (nat * fem)), (forall h m', r = Some (h, m') -> held m') ->
           held (k_fem (w_core (fst (ret_fem w (bindO r (fun r => Some (snd r)))))))).
  { intros [[h m']|] X; simpl; auto. eauto. }
  assert (SEC : forall n mt mk m', model_add_bsection n mt mk (k_fem (w_core w)) = Some m' -> held m').
  { intros n mt mk m'. unfold model_add_bsection, bindO. destruct (dget mt _); [|discriminate]. destruct (mk m); [|discriminate].
    intros X; inversion X; subst. eapply held_same; eauto. }
  assert (RP : forall p u, held (k_fem (w_core (fst (ret_pat w p u))))).
  { intros p u. unfold ret_pat, bindO. destruct (dget p (k_pats (w_core w))) as [a|]; simpl; auto.
    destruct (nth_error (k_heap (w_core w)) a); simpl; auto. }
  destruct o; simpl in *; try discriminate NL; try exact H; try (apply RF; intros m' X; solve [eapply SEC; exact X | discriminate X]).
  - apply RF2. intros h m' X. destruct G as (l & A & NI). unfold answer in A; simpl in A. inversion A; subst l.
    unfold model_add_node in X. destruct (mk_node name x y z) as [nd|]; [|discriminate]. inversion X; subst.
    eapply held_grow; eauto. intros q (n' & Hq & L). exists n'. simpl. split; auto. rewrite dget_dset_neq; auto.
    intros C. apply NI. unfold model_node_names. rewrite <- C. apply dget_in_keys. eauto.
  - destruct casename; exact H.
  - apply RF. intros m' X. unfold model_set_mass in X. destruct (dget name _) as [nd|] eqn:E; [|discriminate]. inversion X; subst.
    eapply held_grow; eauto. intros q (n' & Hq & L). simpl. unfold same_place; simpl.
    destruct (string_dec (n_name q) name) as [Eq|NE].
    + rewrite Eq in *. rewrite E in Hq. inversion Hq; subst. exists (set_mass (list6 mass) n'). rewrite dget_dset_eq. split; auto.
    + exists n'. rewrite dget_dset_neq; auto.
  - apply RF. intros m' X. unfold model_add_ssection, bindO in X. destruct (dget mat _); [|discriminate]. inversion X; subst.
    eapply held_same; eauto.
  - apply RF2. intros h m' X. unfold model_add_beam, bindO in X. destruct (dget start _) as [ni|] eqn:E1; [|discriminate].
    destruct (dget end_ _) as [nj|] eqn:E2; [|discriminate]. destruct (dget section _); [|discriminate].
    eapply held_put_beam; [..|exact X]; auto; eapply same_place_self; eauto.
  - apply RF2. intros h m' X. unfold model_add_simple_beam, bindO in X. destruct (dget start _) as [ni|] eqn:E1; [|discriminate].
    destruct (dget end_ _) as [nj|] eqn:E2; [|discriminate].
    eapply held_put_beam; [..|exact X]; auto; eapply same_place_self; eauto.
  - apply RF2. intros h m' X. unfold model_add_shell, bindO in X. repeat (destruct (dget _ _); [|discriminate]).
    destruct section as [q4|].
    + destruct (dget q4 _); [|discriminate]. destruct (mk_quad _ _ _ _ _ _); [|discriminate]. inversion X; subst. eapply held_same; eauto.
    + destruct (mk_tria _ _ _ _ _); [|discriminate]. inversion X; subst. eapply held_same; eauto.
  - unfold model_set_restraint. destruct (negb _); simpl; auto.
  - destruct (dget case _); simpl; auto.
  - destruct f as [[[[[f1 f2] f3] m1] m2] m3]. apply RP.
  - apply RP.
  - destruct F as [[[[[f1 f2] f3] m1] m2] m3]. apply RP.
  - destruct (bindO _ _); simpl; auto.
  - destruct (mk_asm _ _ _); simpl; auto.
  - unfold do_solve_static. destruct (read_asb w); simpl; auto.
    destruct (assemble_K _ _); simpl; auto. destruct (solve_linear _ _ _); simpl; auto.
Qed.

Lemma held_reach ext ops : never_readds_nodes ext ops -> held (k_fem (w_core (final ext init ops))).
Proof.
  intros H. pose proof (winv_reach ext (fresh_node ext) (fun c => core_wf c /\ held (k_fem c)) (fun _ => True)) as I.
  apply I; auto.
  - intros w o G ((W & Hh) & _) NL. split; [now apply core_wf_step|]. now apply held_step.
  - split; [apply new_core_wf|]. intros k b [].
Qed.

Lemma c97_beams ext ops pic b p q :
  never_readds_nodes ext ops -> open_view ext (final ext init ops) = Some pic ->
  answer ext (final ext init ops) (OpBeamLocation b) = RVec3s p q -> lookup b (v_lines pic) = Some (p, q).
Proof.
  intros NR O A. set (w := final ext init ops) in *. pose proof (reach_wf ext ops) as WF. fold w in WF.
  destruct (open_view_ok ext w pic WF O) as (_ & _ & L & _).
  unfold answer in A. simpl in A. unfold model_beam_location, bindO in A.
  destruct (dget b (f_beams (k_fem (w_core w)))) as [B|] eqn:E; [|discriminate]. simpl in A. inversion A; subst p q.
  assert (I : In b (dkeys (f_beams (k_fem (w_core w))))) by (apply dget_in_keys; eauto).
  assert (A2 : answer ext w (OpBeamNodeNames b) = RNames [n_name (b_ni B); n_name (b_nj B)]).
  { unfold answer; simpl. unfold model_beam_connection. rewrite E. reflexivity. }
  destruct (L b _ _ I A2) as (p & q & EL & P & Q). rewrite lookup_dget, EL.
  destruct (held_reach ext ops NR b B) as [(n1 & D1 & L1) (n2 & D2 & L2)]. { now apply dget_some_in. }
  fold w in D1, D2. unfold places in P, Q. rewrite dget_map in P, Q. rewrite D1 in P. rewrite D2 in Q.
  inversion P; inversion Q; subst. now rewrite L1, L2.
Qed.

(** ** The deformed picture *)
Lemma displace_spec k a d : forall pts disp pts' disp',
  NoDup (map fst d) ->
  (forall n, In n (map fst d) -> In n (dkeys pts)) ->
  (forall n, In n (map fst d) -> ~ In n (dkeys disp)) ->
  displace k a d pts disp = Some (pts', disp') ->
  dkeys pts' = dkeys pts
  /\ dkeys disp' = dkeys disp ++ map fst d
  /\ (forall n, ~ In n (map fst d) -> dget n pts' = dget n pts)
  /\ (forall n v, In (n, v) d -> exists o u rest, dget n pts = Some o /\ v = vx u :: vy u :: vz u :: rest
        /\ dget n pts' = Some (vadd o (vscale k u)))
  /\ exists xs, dvals disp' = dvals disp ++ xs /\ Forall2 (fun nv x => exists u rest, snd nv = vx u :: vy u :: vz u :: rest /\ x = component a u) d xs.
Proof.
  induction d as [|[n v] d IH]; intros pts disp pts' disp' ND IN NI H; simpl in *.
  - inversion H; subst. rewrite app_nil_r. split; [auto|split; [auto|split; [auto|split]]].
    + intros ? ? [].
    + exists []. rewrite app_nil_r. auto.
  - inversion ND; subst.
    destruct (dget n pts) as [o|] eqn:EO; [|discriminate]. simpl in H.
    destruct v as [|v0 [|v1 [|v2 rest]]]; try discriminate. simpl in H.
    edestruct IH as (K & KD & O & N & xs & X & F); [exact H3| | |exact H|].
    { intros q Hq. apply in_dkeys_dset. right. apply IN; auto. }
    { intros q Hq C. apply in_dkeys_dset in C. destruct C as [->|C]; auto. apply (NI q); auto. }
    assert (NN : ~ In n (dkeys disp)) by (apply NI; auto).
    split; [rewrite K; apply dkeys_dset_old, IN; auto|]. split.
    { rewrite KD, dkeys_dset_new by auto. now rewrite <- app_assoc. }
    split.
    { intros q Hq. rewrite O by tauto. apply dget_dset_neq. intros ->; tauto. }
    split.
    { intros q v [E|Hq].
      - inversion E; subst. exists o, (V3 v0 v1 v2), rest. simpl. split; [exact EO|]. split; auto. rewrite O by auto. rewrite dget_dset_eq.
        unfold vadd, vscale; simpl. do 2 f_equal; ring.
      - destruct (N q v Hq) as (o' & u & rs & E1 & E2 & E3). exists o', u, rs. split; [|auto].
        rewrite dget_dset_neq in E1; auto. intros ->. apply H2. apply in_map_iff. exists (n, v). auto. }
    exists ((match a with AX => v0 | AY => v1 | AZ => v2 end) :: xs). split.
    + rewrite X, dset_new by auto. unfold dvals. rewrite map_app. simpl. now rewrite <- app_assoc.
    + constructor; [|exact F]. simpl. exists (V3 v0 v1 v2), rest. split; [reflexivity|]. destruct a; reflexivity.
Qed.
Lemma displace_total k a d : forall pts disp,
  (forall n v, In (n, v) d -> In n (dkeys pts) /\ (3 <= List.length v)%nat) -> exists r, displace k a d pts disp = Some r.
Proof.
  induction d as [|[n v] d IH]; intros pts disp H; simpl; [eauto|].
  destruct (H n v (or_introl eq_refl)) as [I L]. apply dget_in_keys in I. destruct I as [o ->]. simpl.
  destruct v as [|v0 [|v1 [|v2 r]]]; simpl in L; try lia. simpl. apply IH.
  intros q u Hq. destruct (H q u (or_intror Hq)). split; auto. apply in_dkeys_dset. auto.
Qed.

(** the dictionary of displacements is what the single queries answer, node by node *)
Lemma all_disp_spec ext w c d : answer ext w (OpAllNodalDisp c) = RDict d ->
  map fst d = dkeys (f_nodes (k_fem (w_core w)))
  /\ forall n v, In (n, v) d -> answer ext w (OpNodalDisp n c) = RVec v.
Proof.
  unfold answer. cbn [snd step ret]. unfold model_node_names.
  destruct (read_asb w) as [A|]; cbn [bindO]; [|discriminate].
  set (f := fun n => bindO (read_disp w c) (fun d0 => bindO (resolve_nodal_displacement A d0 n) (fun v => Some (n, v)))).
  destruct (mapM f (dkeys (f_nodes (k_fem (w_core w))))) as [r|] eqn:E; [|discriminate]. intros H; inversion H; subst r.
  assert (FF : forall n x, f n = Some x -> fst x = n /\ bindO (read_disp w c) (fun d0 => resolve_nodal_displacement A d0 n) = Some (snd x)).
  { intros n x. unfold f. destruct (read_disp w c); [|discriminate]. simpl. destruct (resolve_nodal_displacement A l n); [|discriminate].
    simpl. intros X; inversion X; subst; auto. }
  split.
  - clear H. revert d E. induction (dkeys (f_nodes (k_fem (w_core w)))) as [|n l IH]; intros d E; simpl in E.
    + inversion E; reflexivity.
    + destruct (f n) as [x|] eqn:Ef; [|discriminate]. destruct (mapM f l); [|discriminate]. inversion E; subst. simpl.
      f_equal; [apply (FF _ _ Ef)|auto].
  - intros n v Hin. destruct (mapM_in _ _ _ E _ Hin) as (q & _ & Eq). destruct (FF _ _ Eq) as [E1 E2]. simpl in *; subst q.
    now rewrite E2.
Qed.
Lemma all_disp_total ext w c l : nodes_are ext w l -> read_asb w <> None ->
  (forall n, In n l -> exists v, answer ext w (OpNodalDisp n c) = RVec v) -> exists d, answer ext w (OpAllNodalDisp c) = RDict d.
Proof.
  intros HN HA H. unfold nodes_are, answer in HN. simpl in HN. inversion HN; subst l.
  unfold answer in *. cbn [snd step ret] in *.
  destruct (read_asb w) as [A|]; cbn [bindO] in *; [|congruence].
  destruct (mapM_total (fun n => bindO (read_disp w c) (fun d0 => bindO (resolve_nodal_displacement A d0 n) (fun v => Some (n, v))))
              (model_node_names (k_fem (w_core w)))) as [r ->]; [|eauto].
  intros n Hn. destruct (H n Hn) as [v Hv]. destruct (read_disp w c); simpl in *; [|discriminate].
  destruct (resolve_nodal_displacement A l n); simpl in *; [eauto|discriminate].
Qed.

Lemma line_scals_spec ext w disp names :
  (forall b, In b names -> exists s e x y, answer ext w (OpBeamNodeNames b) = RNames [s; e]
     /\ dget s disp = Some x /\ dget e disp = Some y) ->
  exists ls, line_scals ext w disp names = Some (List.concat ls)
    /\ Forall2 (fun b l => exists s e x y, answer ext w (OpBeamNodeNames b) = RNames [s; e]
         /\ dget s disp = Some x /\ dget e disp = Some y /\ l = [x; y]) names ls.
Proof.
  induction names as [|b r IH]; intros H.
  - exists []. simpl. auto.
  - destruct (H b (or_introl eq_refl)) as (s & e & x & y & A & X & Y).
    destruct IH as (ls & E & F); [intros; apply H; right; auto|].
    exists ([x; y] :: ls). split.
    + simpl. unfold ask. unfold answer in A. rewrite A, X. simpl. rewrite Y. simpl. rewrite E. reflexivity.
    + constructor; auto. exists s, e, x, y. auto.
Qed.

Lemma show_ok ext w pic k a d : fem_wf (k_fem (w_core w)) -> open_view ext w = Some pic ->
  answer ext w (OpAllNodalDisp "case1") = RDict d -> (forall n v, In (n, v) d -> (3 <= List.length v)%nat) ->
  exists g, show_deformation ext w pic k a = Some g.
Proof.
  intros WF O A LEN. pose proof (open_view_ok ext w pic WF O) as (P & KL & _).
  destruct (all_disp_spec _ _ _ _ A) as [KD AD].
  assert (NE : d <> []).
  { intros ->. simpl in KD. rewrite open_none_nodes in O; auto; [discriminate|]. destruct (f_nodes _); auto; discriminate. }
  destruct (displace_total k a d (v_pts pic) []) as [[pts disp] E].
  { intros n v H. split; [|eauto]. rewrite P, places_keys, <- KD. apply in_map_iff. exists (n, v); auto. }
  unfold show_deformation, ask. unfold answer in A. rewrite A. cbn [snd step]. rewrite E. cbn [bindO fst snd].
  edestruct displace_spec as (K & KX & _ & _ & xs & X & F); [ | | |exact E|].
  { rewrite KD. apply wf_nodup; auto. } { intros n. rewrite P, places_keys, KD. auto. } { auto. }
  assert (MX : exists M, maxl xs = Some M) by (destruct F; [congruence|simpl; eauto]).
  destruct MX as [M MX]. rewrite X. simpl. rewrite MX. simpl. unfold model_beam_names.
  destruct (add_lines_spec ext w pts (dkeys (f_beams (k_fem (w_core w)))) (v_lines pic)) as (L & EL & _).
  { apply wf_beam_nodup; auto. }
  { intros b Hb. destruct (beam_ends ext w b WF Hb) as (s & e & A' & Is & Ie). rewrite <- places_keys, <- P, <- K in Is, Ie.
    apply dget_in_keys in Is. apply dget_in_keys in Ie. destruct Is as [p ?], Ie as [q ?]. exists s, e, p, q. auto. }
  rewrite EL. simpl.
  destruct (line_scals_spec ext w disp (dkeys (f_beams (k_fem (w_core w))))) as (ls & EL2 & _).
  { intros b Hb. destruct (beam_ends ext w b WF Hb) as (s & e & A' & Is & Ie). simpl in KX. rewrite <- KD, <- KX in Is, Ie.
    apply dget_in_keys in Is. apply dget_in_keys in Ie. destruct Is as [p ?], Ie as [q ?]. exists s, e, p, q. auto. }
  rewrite EL2. simpl. eauto.
Qed.

Lemma show_spec ext w pic k a g : fem_wf (k_fem (w_core w)) -> open_view ext w = Some pic ->
  show_deformation ext w pic k a = Some g -> deformed ext w k a g.
Proof.
  intros WF O H. pose proof (open_view_ok ext w pic WF O) as (P & KL & _ & KF & FF & _).
  unfold show_deformation, ask in H. cbn [snd step] in H.
  destruct (answer ext w (OpAllNodalDisp "case1")) as [ | | | | | | |d] eqn:A; unfold answer in A; cbn [snd step] in A; rewrite A in H; try discriminate.
  destruct (all_disp_spec ext w "case1" d A) as [KD AD]. clear A.
  destruct (displace k a d (v_pts pic) []) as [[pts disp]|] eqn:E; [|discriminate]. cbn [bindO fst snd] in H.
  destruct (maxl (dvals disp)); [|discriminate]. cbn [bindO] in H. unfold model_beam_names in H.
  set (m := k_fem (w_core w)) in *.
  edestruct displace_spec as (K & KX & _ & DN & xs & X & F); [ | | |exact E|].
  { rewrite KD. apply wf_nodup; auto. } { intros n. rewrite P, places_keys, KD. auto. } { auto. }
  assert (KP : dkeys pts = dkeys (f_nodes m)) by (rewrite K, P; apply places_keys).
  destruct (add_lines_spec ext w pts (dkeys (f_beams m)) (v_lines pic)) as (L & EL & _ & NL & _ & KL2).
  { apply wf_beam_nodup; auto. }
  { intros b Hb. destruct (beam_ends ext w b WF Hb) as (s & e & A' & Is & Ie). fold m in Is, Ie. rewrite <- KP in Is, Ie.
    apply dget_in_keys in Is. apply dget_in_keys in Ie. destruct Is as [p ?], Ie as [q ?]. exists s, e, p, q. auto. }
  rewrite EL in H. cbn [bindO] in H. simpl in KX.
  destruct (line_scals_spec ext w disp (dkeys (f_beams m))) as (ls & EL2 & FL).
  { intros b Hb. destruct (beam_ends ext w b WF Hb) as (s & e & A' & Is & Ie). fold m in Is, Ie. rewrite <- KD, <- KX in Is, Ie.
    apply dget_in_keys in Is. apply dget_in_keys in Ie. destruct Is as [p ?], Ie as [q ?]. exists s, e, p, q. auto. }
  rewrite EL2 in H. cbn [bindO] in H. inversion H; subst g; clear H.
  assert (NDD : NoDup (map fst d)) by (rewrite KD; apply wf_nodup; auto).
  assert (DB : forall n v, In (n, v) d -> forall u rest, v = vx u :: vy u :: vz u :: rest -> displaced_by ext w n u).
  { intros n v Hn u rest Ev. exists v, rest. split; auto. }
  assert (UNI : forall n u u', displaced_by ext w n u -> displaced_by ext w n u' -> u = u').
  { intros n u u' (v & rs & A1 & E1) (v' & rs' & A2 & E2). rewrite A1 in A2. inversion A2; subst. inversion H0.
    destruct u, u'; simpl in *; subst; auto. }
  split.
  - simpl. apply drawn_ext with (P := fun n p => dget n pts = Some p).
    + intros n p. split.
      * intros Hp. assert (I : In n (map fst d)) by (rewrite KD, <- KP; apply dget_in_keys; eauto).
        apply in_map_iff in I. destruct I as ([q v] & Eq & I). simpl in Eq; subst q.
        destruct (DN n v I) as (o & u & rest & E1 & E2 & E3). rewrite E3 in Hp. inversion Hp; subst p.
        exists o, u. split; [apply places_get; fold m; rewrite <- P; exact E1|]. split; [eapply DB; eauto|auto].
      * intros (o & u & So & Su & ->). apply places_get in So. fold m in So.
        assert (I : In n (map fst d)) by (rewrite KD, <- places_keys; apply dget_in_keys; eauto).
        apply in_map_iff in I. destruct I as ([q v] & Eq & I). simpl in Eq; subst q.
        destruct (DN n v I) as (o' & u' & rest & E1 & E2 & E3). rewrite P, So in E1. inversion E1; subst o'.
        rewrite (UNI n u u' Su (DB n v I u' rest E2)). exact E3.
    + apply drawn_lemma; auto. fold m. rewrite KL2; auto. intros b Hb. rewrite KL. auto.
  - assert (SX : dvals disp = xs) by (rewrite X; reflexivity). simpl. split.
    + intros l Hl. unfold nodes_are, answer in Hl. simpl in Hl. inversion Hl; subst l. unfold model_node_names. fold m.
      rewrite SX, <- KD. clear - F DB. induction F as [|[n v] x d xs (u & rest & E1 & E2) F IH]; simpl; constructor.
      * exists u. split; auto. eapply DB; [left; reflexivity|]. exact E1.
      * apply IH. intros; eapply DB; eauto. right; auto.
    + intros l Hl. unfold beams_are, answer in Hl. simpl in Hl. inversion Hl; subst l. unfold model_beam_names. fold m.
      exists ls. split; auto.
      assert (DV : forall n x, dget n disp = Some x -> exists u, displaced_by ext w n u /\ x = component a u).
      { intros n x Hx. assert (G : forall d xs, Forall2 (fun nv x => exists u rest, snd nv = vx u :: vy u :: vz u :: rest /\ x = component a u) d xs ->
            forall disp : dict R, dkeys disp = map fst d -> dvals disp = xs -> In (n, x) disp ->
            exists v u rest, In (n, v) d /\ v = vx u :: vy u :: vz u :: rest /\ x = component a u).
        { clear. induction 1 as [|[q v] y d xs (u & rest & E1 & E2) F IH]; intros disp K V I.
          - destruct disp; [destruct I|discriminate].
          - destruct disp as [|[q' y'] disp]; [discriminate|]. simpl in K, V. inversion K; inversion V; subst. simpl in *. destruct I as [I|I].
            + inversion I; subst. eexists _, u, rest. split; [left; reflexivity|auto].
            + destruct (IH disp) as (v' & u' & r' & ? & ? & ?); auto. exists v', u', r'. auto. }
        destruct (G d xs F disp KX SX (dget_some_in _ _ _ Hx)) as (v & u & rest & I & E1 & E2). exists u. split; [|auto]. eapply DB; eauto. }
      clear - FL DV. induction FL as [|b l bs ls (s & e & x & y & A & X & Y & ->) FL IH]; constructor; auto.
      destruct (DV _ _ X) as (u & Hu & ->). destruct (DV _ _ Y) as (v & Hv & ->). exists s, e, u, v. auto.
Qed.

(** ** C98 *)
Lemma c98_shows ext ops pic k a :
  let w := final ext init ops in
  open_view ext w = Some pic ->
  ((exists g, show_deformation ext w pic k a = Some g) <-> all_displaced ext w).
Proof.
  intros w O. pose proof (reach_wf ext ops) as WF. fold w in WF. split.
  - intros [g H]. destruct (show_spec ext w pic k a g WF O H) as (D & SC & _).
    intros l n Hl Hn. specialize (SC l Hl). clear - SC Hn. induction SC as [|x y l l' (u & Hu & _) F IH]; [destruct Hn|].
    destruct Hn as [<-|Hn]; eauto.
  - intros AD. assert (HN : nodes_are ext w (model_node_names (k_fem (w_core w)))) by reflexivity.
    assert (RA : read_asb w <> None).
    { destruct (dkeys (f_nodes (k_fem (w_core w)))) as [|n l] eqn:EN.
      - rewrite open_none_nodes in O; auto; [discriminate|]. destruct (f_nodes _); auto; discriminate.
      - destruct (AD _ n HN) as (u & v & rest & A & _). { unfold model_node_names. rewrite EN. left; auto. }
        unfold answer in A. cbn [snd step ret] in A. destruct (read_asb w); [discriminate|]. discriminate. }
    destruct (all_disp_total ext w "case1" _ HN RA) as [d Hd].
    { intros n Hn. destruct (AD _ n HN Hn) as (u & v & rest & A & _). eauto. }
    apply show_ok with d; auto. intros n v Hv. destruct (all_disp_spec _ _ _ _ Hd) as [KD S].
    destruct (AD _ n HN) as (u & v' & rest & A & E). { unfold model_node_names. rewrite <- KD. apply in_map_iff. exists (n, v); auto. }
    rewrite (S n v Hv) in A. inversion A; subst. simpl. lia.
Qed.
Lemma c98_deformed ext ops pic k a g :
  let w := final ext init ops in
  open_view ext w = Some pic -> show_deformation ext w pic k a = Some g -> deformed ext w k a g.
Proof. intros w. apply show_spec, reach_wf. Qed.

(** the window *)
Definition label (a : axis) (s : window) : bool := is_on a s.
Definition agrees (cur : option (axis * R)) (ext : externals) (w : world) (pic : picture) (s : window) : Prop :=
  match cur with
  | None => r_x s = false /\ r_y s = false /\ r_z s = false /\ r_shown s = undeformed pic
  | Some (a, k) => r_x s = (axis_index a =? 0)%nat /\ r_y s = (axis_index a =? 1)%nat /\ r_z s = (axis_index a =? 2)%nat
      /\ show_deformation ext w pic k a = Some (r_shown s)
  end.
Lemma presses_agree ext w pic l : forall s cur s',
  agrees cur ext w pic s -> presses ext w pic s l = Some s' -> agrees (wanted l (r_scale s) cur) ext w pic s'.
Proof.
  induction l as [|p l IH]; intros s cur s' A H; simpl in *.
  - inversion H; subst; auto.
  - destruct (handle ext w pic s p) as [s1|] eqn:E; [|discriminate]. simpl in H. destruct p as [k| |a].
    + simpl in E. inversion E; subst. eapply IH in H; [exact H|]. destruct cur as [[b k']|]; exact A.
    + simpl in E. destruct (r_new s) as [[ps on]|]; inversion E; subst; (eapply IH in H; [exact H|]); destruct cur as [[b k']|]; exact A.
    + simpl in E. destruct (is_on a s) eqn:ON.
      * inversion E; subst. assert (C : exists k', cur = Some (a, k')).
        { destruct cur as [[b k']|].
          - exists k'. destruct A as (X & Y & Z & _). destruct a, b; simpl in *; congruence.
          - destruct A as (X & Y & Z & _). destruct a; simpl in *; congruence. }
        destruct C as [k' ->]. rewrite Nat.eqb_refl. eapply IH in H; [exact H|]. simpl.
        replace (is_on a _) with true by (destruct a; simpl in *; auto). destruct a; auto.
      * destruct (show_deformation ext w pic (r_scale s) a) as [g|] eqn:G; [|discriminate]. simpl in E. inversion E; subst.
        assert (C : (match cur with Some (b, _) => if (axis_index a =? axis_index b)%nat then None else Some (a, r_scale s) | None => Some (a, r_scale s) end)
                    = Some (a, r_scale s)).
        { destruct cur as [[b k']|]; auto. destruct A as (X & Y & Z & _). destruct a, b; simpl in *; congruence. }
        rewrite C. eapply IH in H; [exact H|]. simpl.
        replace (is_on a (redraw g (r_node s) s)) with false by (destruct a; simpl in *; auto). destruct a; simpl; auto.
Qed.

Lemma undeformed_plain ext w pic : fem_wf (k_fem (w_core w)) -> open_view ext w = Some pic -> plain_drawing ext w (undeformed pic).
Proof. intros WF O. split; [|auto]. simpl. apply view_drawn; auto. apply open_view_ok; auto. Qed.

Lemma c98_window ext ops pic l s :
  let w := final ext init ops in
  open_view ext w = Some pic -> presses ext w pic (open_window pic) l = Some s ->
  match wanted l 0 None with
  | None => plain_drawing ext w (r_shown s) /\ (forall b, is_on b s = false)
  | Some (a, k) => deformed ext w k a (r_shown s) /\ (forall b, is_on b s = true <-> b = a)
  end.
Proof.
  intros w O H. pose proof (reach_wf ext ops) as WF. fold w in WF.
  assert (A : agrees None ext w pic (open_window pic)) by (simpl; auto).
  pose proof (presses_agree ext w pic l _ None s A H) as B. simpl in B.
  destruct (wanted l 0 None) as [[a k]|].
  - destruct B as (X & Y & Z & D). split; [eapply show_spec; eauto|]. intros b.
    destruct a, b; simpl in *; rewrite ?X, ?Y, ?Z; split; intros Q; congruence.
  - destruct B as (X & Y & Z & D). split; [rewrite D; apply undeformed_plain; auto|]. intros b. destruct b; simpl; auto.
Qed.

