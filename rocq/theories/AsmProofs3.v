(** Proofs about the order of creation and the direction of members (C25, C38). *)
From Coq Require Import Reals Lra Lia List String Arith Bool ZArith Sorting.Permutation.
From Verif Require Import Base BaseFacts Csys Sections Element Load FeModel Assembly Solver Post Api
  SpecApi ApiFacts WfFacts HidFacts LoadFacts SpecGeom CsysFacts SpecBeam BeamFacts AsmFacts SpecAsm AsmProofs
  AsmTotal AsmProofs2 SpecLoad LoadProofs BeamProofs Demo.
Import ListNotations.
Local Open Scope R_scope.

(** ** Adding a beam as an update of the beam table *)
Definition made (m : fem) (o : op) : option (string * beam) :=
  match o with
  | OpAddBeam n s e sec =>
      bindO (dget s (f_nodes m)) (fun ni => bindO (dget e (f_nodes m)) (fun nj =>
      bindO (dget sec (f_bsecs m)) (fun x => bindO (mk_beam n ni nj (PSection x)) (fun b => Some (n, b)))))
  | OpAddSimpleBeam n s e E mu A I2 I3 J rho =>
      bindO (dget s (f_nodes m)) (fun ni => bindO (dget e (f_nodes m)) (fun nj =>
      bindO (mk_beam n ni nj (PSimple E mu A I2 I3 J rho)) (fun b => Some (n, b))))
  | _ => None
  end.
Definition put (m : fem) (o : op) : fem :=
  match made m o with
  | Some (n, b) => Fem (f_nodes m) (f_rest m) (f_mats m) (f_bsecs m) (f_ssecs m)
                     (dset n b (f_beams m)) (f_shells m) (f_hnode m)
                     (dset n (List.length (f_beams m)) (f_hbeam m)) (f_hshell m)
  | None => m
  end.
Lemma with_fem_id w : with_fem_w w (k_fem (w_core w)) = w.
Proof. destruct w as [[]]. reflexivity. Qed.

Lemma step_put ext w o : adds_beam o <> None ->
  after ext w o = with_fem_w w (put (k_fem (w_core w)) o)
  /\ answer ext w o = RBool (match made (k_fem (w_core w)) o with Some _ => true | None => false end).
Proof.
  unfold after, answer, put. destruct o; cbn [adds_beam]; intros H; try (exfalso; apply H; reflexivity); clear H;
    cbn [step made]; unfold model_add_beam, model_add_simple_beam, model_put_beam.
  - destruct (dget start _); cbn [bindO]; [|rewrite with_fem_id; split; reflexivity].
    destruct (dget end_ _); cbn [bindO]; [|rewrite with_fem_id; split; reflexivity].
    destruct (dget section _); cbn [bindO]; [|rewrite with_fem_id; split; reflexivity].
    destruct (mk_beam _ _ _ _); cbn [bindO]; [|rewrite with_fem_id; split; reflexivity].
    split; reflexivity.
  - destruct (dget start _); cbn [bindO]; [|rewrite with_fem_id; split; reflexivity].
    destruct (dget end_ _); cbn [bindO]; [|rewrite with_fem_id; split; reflexivity].
    destruct (mk_beam _ _ _ _); cbn [bindO]; [|rewrite with_fem_id; split; reflexivity].
    split; reflexivity.
Qed.

Record same_base (m m' : fem) : Prop := {
  sb_nodes : f_nodes m = f_nodes m'; sb_rest : f_rest m = f_rest m'; sb_bsecs : f_bsecs m = f_bsecs m';
  sb_shells : f_shells m = f_shells m'; sb_hnode : f_hnode m = f_hnode m' }.
Lemma same_base_refl m : same_base m m. Proof. constructor; reflexivity. Qed.
Lemma same_base_sym m m' : same_base m m' -> same_base m' m. Proof. intros []; constructor; congruence. Qed.
Lemma same_base_trans m m' m'' : same_base m m' -> same_base m' m'' -> same_base m m''.
Proof. intros [] []; constructor; congruence. Qed.
Lemma put_base m o : same_base (put m o) m.
Proof. unfold put. destruct (made m o) as [[n b]|]; constructor; reflexivity. Qed.
Lemma made_base m m' o : same_base m m' -> made m o = made m' o.
Proof. intros []. unfold made. destruct o; try reflexivity; rewrite sb_nodes0, ?sb_bsecs0; reflexivity. Qed.
Lemma puts_base adds : forall m, same_base (fold_left put adds m) m.
Proof.
  induction adds as [|o l IH]; intros m; [apply same_base_refl|]. cbn [fold_left].
  eapply same_base_trans; [apply IH|apply put_base].
Qed.

Definition look (m0 : fem) (k : string) (acc : option beam) (o : op) : option beam :=
  match made m0 o with Some (n, b) => if String.eqb k n then Some b else acc | None => acc end.
Lemma puts_get m0 k adds : forall m, same_base m m0 ->
  dget k (f_beams (fold_left put adds m)) = fold_left (look m0 k) adds (dget k (f_beams m)).
Proof.
  induction adds as [|o l IH]; intros m SB; [reflexivity|]. cbn [fold_left].
  rewrite IH by (eapply same_base_trans; [apply put_base|exact SB]). f_equal.
  unfold put, look. rewrite (made_base _ _ _ SB). destruct (made m0 o) as [[n b]|]; [|reflexivity].
  cbn [f_beams]. apply dget_dset.
Qed.
Lemma made_name m o n b : made m o = Some (n, b) -> adds_beam o = Some n.
Proof.
  destruct o; cbn [made adds_beam]; intros H; try discriminate;
    repeat (apply bindO_some in H as (? & _ & H)); injection H as <- <-; reflexivity.
Qed.
Lemma look_perm m0 k l l' : Permutation l l' -> NoDup (map adds_beam l) -> forall acc,
  fold_left (look m0 k) l acc = fold_left (look m0 k) l' acc.
Proof.
  induction 1 as [|o l l' P IH|o o' l|l l' l'' P1 IH1 P2 IH2]; intros ND acc; cbn [fold_left]; [reflexivity| | |].
  - apply IH. inversion ND; assumption.
  - f_equal. unfold look. destruct (made m0 o) as [[n b]|] eqn:E, (made m0 o') as [[n' b']|] eqn:E'; try reflexivity.
    destruct (String.eqb_spec k n), (String.eqb_spec k n'); try reflexivity. exfalso.
    apply made_name in E, E'. cbn [map] in ND. inversion ND as [|? ? H _]. apply H. left. congruence.
  - rewrite IH1 by assumption. apply IH2. eapply Permutation_NoDup; [apply Permutation_map; exact P1|exact ND].
Qed.

Lemma nodup_pairs {A} (d : dict A) : NoDup (dkeys d) -> NoDup d.
Proof. unfold dkeys. apply NoDup_map_inv. Qed.
Lemma dict_perm {A} (d d' : dict A) : NoDup (dkeys d) -> NoDup (dkeys d') -> (forall k, dget k d = dget k d') -> Permutation d d'.
Proof.
  intros N N' H. apply NoDup_Permutation; auto using nodup_pairs. intros [k v]. split; intros I.
  - apply dget_some_in. rewrite <- H. apply in_dget_nodup; assumption.
  - apply dget_some_in. rewrite H. apply in_dget_nodup; assumption.
Qed.

Lemma finals_put ext adds : forall w, (forall o, In o adds -> adds_beam o <> None) ->
  final ext w adds = with_fem_w w (fold_left put adds (k_fem (w_core w))).
Proof.
  induction adds as [|o l IH]; intros w H.
  - rewrite final_nil. symmetry. apply with_fem_id.
  - rewrite final_cons, IH by (intros; apply H; right; assumption).
    destruct (step_put ext w o) as [-> _]; [apply H; left; reflexivity|]. reflexivity.
Qed.

(** ** Assembling two models with permuted beam tables *)
Record perm_model (m m' : fem) : Prop := { pm_base : same_base m m'; pm_beams : Permutation (f_beams m) (f_beams m') }.

Lemma hid_base m m' n : same_base m m' -> model_node_hid n m = model_node_hid n m'.
Proof. intros []. unfold model_node_hid. rewrite sb_hnode0. reflexivity. Qed.
Lemma beam_hids_base m m' b : same_base m m' -> beam_hids b m = beam_hids b m'.
Proof. intros S. unfold beam_hids. rewrite !(hid_base m m') by exact S. reflexivity. Qed.
Lemma shell_hids_base m m' s : same_base m m' -> shell_hids s m = shell_hids s m'.
Proof. intros S. unfold shell_hids. apply mapM_ext. intros. apply hid_base; exact S. Qed.
Lemma rest_dofs_base m m' r : same_base m m' -> rest_dofs m r = rest_dofs m' r.
Proof.
  intros S. unfold rest_dofs. f_equal. apply mapM_ext. intros. rewrite (hid_base m m') by exact S. reflexivity.
Qed.
Lemma perm_concat {A} (l l' : list (list A)) : Permutation l l' -> Permutation (List.concat l) (List.concat l').
Proof.
  induction 1; cbn [List.concat]; auto.
  - apply Permutation_app_head; assumption.
  - rewrite !app_assoc. apply Permutation_app_tail, Permutation_app_comm.
  - etransitivity; eauto.
Qed.
Lemma inrange_perm nr nc L L' : Permutation L L' -> coo_inrange nr nc L = true -> coo_inrange nr nc L' = true.
Proof.
  intros P H. apply coo_inrange_spec. intros r c v I. apply coo_inrange_spec with (r := r) (c := c) (v := v) in H; [exact H|].
  eapply Permutation_in; [symmetry; exact P|exact I].
Qed.
Lemma coo_make_perm nr nc L L' K : Permutation L L' -> coo_make nr nc L = Some K ->
  exists K', coo_make nr nc L' = Some K' /\ Permutation K K'.
Proof.
  intros P H. apply coo_make_some in H as [-> R]. exists L'. split; [|exact P]. apply coo_make_ok. eapply inrange_perm; eassumption.
Qed.

Lemma assemble_K_perm ker a a' K : perm_model (a_model a) (a_model a') -> assemble_K ker a = Some K ->
  exists K', assemble_K ker a' = Some K' /\ Permutation K K'.
Proof.
  intros [S P] H. unfold assemble_K in *. apply bindO_some in H as (bs & H1 & H). apply bindO_some in H as (ss & H2 & H).
  assert (PV : Permutation (dvals (f_beams (a_model a))) (dvals (f_beams (a_model a')))) by (apply Permutation_map; exact P).
  destruct (mapM_perm _ _ _ PV _ H1) as (bs' & H1' & PB).
  rewrite (mapM_ext (beam_triplets (a_model a')) (beam_triplets (a_model a))).
  2:{ intros b _. unfold beam_triplets. rewrite (beam_hids_base _ _ b S). reflexivity. }
  rewrite H1'. cbn [bindO].
  rewrite (mapM_ext (shell_triplets ker (a_model a')) (shell_triplets ker (a_model a))).
  2:{ intros s _. unfold shell_triplets. rewrite (shell_hids_base _ _ s S). reflexivity. }
  rewrite <- (sb_shells _ _ S), H2. cbn [bindO]. unfold node_count in *. rewrite <- (sb_nodes _ _ S).
  eapply coo_make_perm; [|exact H]. apply Permutation_app_tail, perm_concat, PB.
Qed.

Lemma assemble_M_perm a a' c M : perm_model (a_model a) (a_model a') -> a_cases a = a_cases a' ->
  assemble_M a c = Some M -> exists M', assemble_M a' c = Some M' /\ Permutation M M'.
Proof.
  intros [S P] EC H. unfold assemble_M in *. rewrite <- EC. apply bindO_some in H as (u & H0 & H). rewrite H0. cbn [bindO].
  apply bindO_some in H as (ns & H1 & H). apply bindO_some in H as (bs & H2 & H).
  assert (PV : Permutation (dvals (f_beams (a_model a))) (dvals (f_beams (a_model a')))) by (apply Permutation_map; exact P).
  destruct (mapM_perm _ _ _ PV _ H2) as (bs' & H2' & PB).
  unfold model_node_names in *. rewrite <- (sb_nodes _ _ S).
  rewrite (mapM_ext (node_mass_triplets (a_model a')) (node_mass_triplets (a_model a))).
  2:{ intros n _. unfold node_mass_triplets. rewrite (hid_base _ _ n S), (sb_nodes _ _ S). reflexivity. }
  rewrite H1. cbn [bindO].
  rewrite (mapM_ext (beam_mass_triplets (a_model a')) (beam_mass_triplets (a_model a))).
  2:{ intros b _. unfold beam_mass_triplets. rewrite (beam_hids_base _ _ b S). reflexivity. }
  rewrite H2'. cbn [bindO]. unfold node_count in *. rewrite <- (sb_nodes _ _ S).
  eapply coo_make_perm; [|exact H]. apply Permutation_app_head, perm_concat, PB.
Qed.

Lemma assemble_f_perm a a' cn t f : perm_model (a_model a) (a_model a') -> a_cases a = a_cases a' -> a_heap a = a_heap a' ->
  assemble_f a cn t = Some f -> exists f', assemble_f a' cn t = Some f' /\ Permutation f f'.
Proof.
  intros [S P] EC EH H. unfold assemble_f in *. rewrite <- EC. apply bindO_some in H as (c & H0 & H). rewrite H0. cbn [bindO].
  apply bindO_some in H as (ns & H1 & H). apply bindO_some in H as (bs & H2 & H).
  destruct (mapM_perm _ _ _ P _ H2) as (bs' & H2' & PB).
  unfold model_node_names in *. rewrite <- (sb_nodes _ _ S).
  rewrite (mapM_ext (node_f_triplets a' c t) (node_f_triplets a c t)).
  2:{ intros n _. unfold node_f_triplets. rewrite (hid_base _ _ n S), (sb_nodes _ _ S), EH. reflexivity. }
  rewrite H1. cbn [bindO].
  rewrite (mapM_ext (beam_f_triplets a' c) (beam_f_triplets a c)).
  2:{ intros b _. unfold beam_f_triplets. rewrite (beam_hids_base _ _ (snd b) S), EH. reflexivity. }
  rewrite H2'. cbn [bindO]. unfold node_count in *. rewrite <- (sb_nodes _ _ S).
  eapply coo_make_perm; [|exact H]. apply Permutation_app_head, perm_concat, PB.
Qed.

(** ** C25 *)
Lemma core_reach_wf ext ops : core_wf (w_core (final ext init ops)).
Proof. apply (wwf_reach ext ops). Qed.

Lemma assembled_perm ext ops adds adds' :
  Permutation adds adds' -> NoDup (map adds_beam adds) -> (forall o, In o adds -> adds_beam o <> None) ->
  let w1 := final ext init (ops ++ adds ++ [OpAssemble]) in
  let w2 := final ext init (ops ++ adds' ++ [OpAssemble]) in
  match read_asb w1, read_asb w2 with
  | Some a, Some a' => perm_model (a_model a) (a_model a') /\ a_cases a = a_cases a' /\ a_heap a = a_heap a'
                       /\ a_dof a = a_dof a' /\ a_fixed a = a_fixed a'
  | None, None => True
  | _, _ => False
  end.
Proof.
  intros P ND HA w1 w2.
  assert (HA' : forall o, In o adds' -> adds_beam o <> None) by (intros o I; apply HA; eapply Permutation_in; [symmetry; exact P|exact I]).
  pose proof (core_reach_wf ext (ops ++ adds)) as W1. pose proof (core_reach_wf ext (ops ++ adds')) as W2.
  rewrite final_app, finals_put in W1 by exact HA. rewrite final_app, finals_put in W2 by exact HA'.
  subst w1 w2. rewrite !final_app. set (w := final ext init ops) in *. rewrite (finals_put ext adds) by exact HA. rewrite (finals_put ext adds') by exact HA'.
  set (m1 := fold_left put adds _) in *. set (m2 := fold_left put adds' _) in *.
  assert (PM : perm_model m1 m2).
  { split.
    - eapply same_base_trans; [apply puts_base|apply same_base_sym, puts_base].
    - apply dict_perm; [apply (wf_beam_nodup _ (cw_fem _ W1))|apply (wf_beam_nodup _ (cw_fem _ W2))|].
      intros k. unfold m1, m2. rewrite !(puts_get (k_fem (w_core w))) by apply same_base_refl. apply look_perm; assumption. }
  unfold read_asb. rewrite !final_cons, !final_nil, !step_asb. unfold with_fem_w; cbn [w_core k_fem k_cases k_heap with_core with_fem w_files].
  unfold mk_asm. rewrite <- (sb_rest _ _ (pm_base _ _ PM)), <- (rest_dofs_base _ _ (f_rest m1) (pm_base _ _ PM)).
  destruct (rest_dofs m1 (f_rest m1)) as [l|]; cbn [bindO].
  - cbn [a_model a_cases a_heap a_dof a_fixed]. split; [exact PM|]. unfold node_count. rewrite (sb_nodes _ _ (pm_base _ _ PM)). repeat split.
  - destruct (dget asb_file _) as [[]|]; auto. split; [split; [apply same_base_refl|apply Permutation_refl]|repeat split].
Qed.

Lemma c25_order ext ops adds adds' :
  Permutation adds adds' -> NoDup (map adds_beam adds) -> (forall o, In o adds -> adds_beam o <> None) ->
  let w1 := final ext init (ops ++ adds ++ [OpAssemble]) in
  let w2 := final ext init (ops ++ adds' ++ [OpAssemble]) in
  (forall K, stiffness ext w1 = Some K -> exists K', stiffness ext w2 = Some K' /\ forall p q, coo_get K' p q = coo_get K p q)
  /\ (forall case f, load_vector w1 case = Some f ->
        exists f', load_vector w2 case = Some f' /\ forall q, coo_get f' q 0 = coo_get f q 0)
  /\ (forall M, mass_matrix w1 = Some M -> exists M', mass_matrix w2 = Some M' /\ forall p q, coo_get M' p q = coo_get M p q).
Proof.
  intros P ND HA w1 w2. pose proof (assembled_perm ext ops adds adds' P ND HA) as H. cbv zeta in H. fold w1 w2 in H.
  unfold stiffness, load_vector, mass_matrix. destruct (read_asb w1) as [a|], (read_asb w2) as [a'|]; try contradiction; cbn [bindO].
  - destruct H as (PM & EC & EH & _). split; [|split].
    + intros K HK. destruct (assemble_K_perm _ _ _ _ PM HK) as (K' & -> & PK). exists K'. split; [reflexivity|]. intros. symmetry. apply coo_get_perm, PK.
    + intros case f HF. destruct (assemble_f_perm _ _ _ _ _ PM EC EH HF) as (f' & -> & PF). exists f'. split; [reflexivity|]. intros. symmetry. apply coo_get_perm, PF.
    + intros M HM. destruct (assemble_M_perm _ _ _ _ PM EC HM) as (M' & -> & PF). exists M'. split; [reflexivity|]. intros. symmetry. apply coo_get_perm, PF.
  - split; [|split]; intros; discriminate.
Qed.

(** ** C38 *)
Lemma plan_offset_sym p q : plan_offset q p = plan_offset p q.
Proof. unfold plan_offset. rewrite (Rabs_minus_sym (vx q)), (Rabs_minus_sym (vy q)). reflexivity. Qed.
Lemma rise_sym p q : rise q p = rise p q.
Proof. unfold rise. apply Rabs_minus_sym. Qed.
Lemma separated_sym p q : well_separated p q -> well_separated q p.
Proof. unfold well_separated. rewrite plan_offset_sym, rise_sym. auto. Qed.
Lemma distance_sym p q : distance q p = distance p q.
Proof. unfold distance. f_equal. ring. Qed.
Lemma unit3_opp v : unit3 (vscale (-1) v) = vscale (-1) (unit3 v).
Proof.
  unfold unit3, vscale; cbn [vx vy vz].
  replace ((-1 * vx v) ^ 2 + (-1 * vy v) ^ 2 + (-1 * vz v) ^ 2) with (vx v ^ 2 + vy v ^ 2 + vz v ^ 2) by ring. f_equal; ring.
Qed.
Lemma axes_swap p q : axis_x q p = vscale (-1) (axis_x p q) /\ axis_y q p = axis_y p q /\ axis_z q p = vscale (-1) (axis_z p q).
Proof.
  assert (X : axis_x q p = vscale (-1) (axis_x p q)).
  { unfold axis_x. rewrite <- unit3_opp. f_equal. unfold vsub, vscale; cbn. f_equal; ring. }
  assert (U : up_for q p = up_for p q) by (unfold up_for; rewrite plan_offset_sym; reflexivity).
  assert (Z : axis_z q p = vscale (-1) (axis_z p q)).
  { unfold axis_z. rewrite <- unit3_opp, X, U. f_equal. unfold cross, vscale; cbn. f_equal; ring. }
  repeat split; auto. unfold axis_y. rewrite X, Z. unfold cross, vscale; cbn. f_equal; ring.
Qed.
Lemma member_swap s l ex ey ez d1 r1 d2 r2 d1' r1' d2' r2' :
  member_work s l (ends_along (vscale (-1) ex) ey (vscale (-1) ez) (Ends d2 r2 d1 r1))
                  (ends_along (vscale (-1) ex) ey (vscale (-1) ez) (Ends d2' r2' d1' r1'))
  = member_work s l (ends_along ex ey ez (Ends d1 r1 d2 r2)) (ends_along ex ey ez (Ends d1' r1' d2' r2')).
Proof.
  assert (N : forall e v, dot3 (vscale (-1) e) v = - dot3 e v) by (intros; unfold dot3, vscale; cbn; ring).
  unfold member_work, ends_along, along, bend; cbn [d_i r_i d_j r_j vx vy vz]. rewrite !N. unfold Rdiv. ring.
Qed.
Lemma beam_work_swap m x y b b' : b_ni b' = b_nj b -> b_nj b' = b_ni b -> b_prop b' = b_prop b ->
  beam_work m x y b' = beam_work m x y b.
Proof.
  intros E1 E2 E3. unfold beam_work, beam_ends, ends_at. rewrite E1, E2, E3.
  destruct (axes_swap (n_loc (b_ni b)) (n_loc (b_nj b))) as (-> & -> & ->). rewrite distance_sym. apply member_swap.
Qed.

Lemma mk_beam_flip n ni nj p b : mk_beam n ni nj p = Some b ->
  exists b', mk_beam n nj ni p = Some b' /\ b_ni b' = b_nj b /\ b_nj b' = b_ni b /\ b_prop b' = b_prop b /\ b_name b' = b_name b.
Proof.
  unfold mk_beam. intros H. apply bindO_some in H as (c & Hc & H). apply some_inj in H. subst b. cbn.
  destruct (line_csys (n_loc nj) (n_loc ni)) as [c'|] eqn:E.
  - cbn [bindO]. eexists. split; [reflexivity|]. cbn. auto.
  - exfalso. apply line_csys_none in E. apply E, separated_sym.
    destruct (sep_dec (n_loc ni) (n_loc nj)) as [S|S]; [exact S|]. exfalso. apply line_csys_none in S. congruence.
Qed.
Lemma made_flip m o n b : made m o = Some (n, b) ->
  exists b', made m (flipped o) = Some (n, b') /\ b_ni b' = b_nj b /\ b_nj b' = b_ni b /\ b_prop b' = b_prop b.
Proof.
  destruct o; cbn [made flipped]; intros H; try discriminate.
  - apply bindO_some in H as (ni & H1 & H). apply bindO_some in H as (nj & H2 & H). apply bindO_some in H as (s & H3 & H).
    apply bindO_some in H as (b0 & H4 & H). injection H as <- <-. rewrite H1, H2, H3. cbn [bindO].
    destruct (mk_beam_flip _ _ _ _ _ H4) as (b' & -> & E1 & E2 & E3 & _). cbn [bindO]. eauto.
  - apply bindO_some in H as (ni & H1 & H). apply bindO_some in H as (nj & H2 & H).
    apply bindO_some in H as (b0 & H4 & H). injection H as <- <-. rewrite H1, H2. cbn [bindO].
    destruct (mk_beam_flip _ _ _ _ _ H4) as (b' & -> & E1 & E2 & E3 & _). cbn [bindO]. eauto.
Qed.
Lemma flip_flip o : flipped (flipped o) = o. Proof. destruct o; reflexivity. Qed.
Lemma flip_adds o : adds_beam (flipped o) = adds_beam o. Proof. destruct o; reflexivity. Qed.

Lemma lsum_dvals_dset {A} (g : A -> R) k v v' (d : dict A) : g v = g v' ->
  lsum (map g (dvals (dset k v d))) = lsum (map g (dvals (dset k v' d))).
Proof.
  intros H. unfold dvals. induction d as [|[k0 v0] d IH]; cbn [dset map lsum snd]; [rewrite H; reflexivity|].
  destruct (String.eqb k k0); cbn [map lsum snd]; [rewrite H; reflexivity|rewrite IH; reflexivity].
Qed.

Lemma K_equal ker a a' K K' :
  fem_wf (a_model a) -> fem_wf (a_model a') -> assemble_K ker a = Some K -> assemble_K ker a' = Some K' ->
  (forall x y, lsum (map (beam_work (a_model a) x y) (dvals (f_beams (a_model a))))
             = lsum (map (beam_work (a_model a') x y) (dvals (f_beams (a_model a'))))) ->
  (forall x y, lsum (map (shell_work ker (a_model a) x y) (dvals (f_shells (a_model a))))
             = lsum (map (shell_work ker (a_model a') x y) (dvals (f_shells (a_model a'))))) ->
  forall p q, coo_get K p q = coo_get K' p q.
Proof.
  intros W W' H H' EB ES p q. rewrite <- !bil_delta.
  destruct (assemble_K_bil ker a K (delta p) (delta q) W H) as [-> _].
  destruct (assemble_K_bil ker a' K' (delta p) (delta q) W' H') as [-> _]. rewrite EB, ES. reflexivity.
Qed.

Lemma num_base m m' k : f_hnode m = f_hnode m' -> num m k = num m' k.
Proof. intros H. unfold num. rewrite H. reflexivity. Qed.

Lemma c38_flip ext ops o K K' : adds_beam o <> None ->
  let w1 := final ext init (ops ++ [o; OpAssemble]) in
  let w2 := final ext init (ops ++ [flipped o; OpAssemble]) in
  stiffness ext w1 = Some K -> stiffness ext w2 = Some K' -> forall p q, coo_get K p q = coo_get K' p q.
Proof.
  intros A w1 w2 HK HK'. unfold stiffness in *.
  apply bindO_some in HK as (a & R1 & HK). apply bindO_some in HK' as (a' & R2 & HK').
  pose proof (assembled_wf ext _ w1 a eq_refl R1) as W1. pose proof (assembled_wf ext _ w2 a' eq_refl R2) as W2.
  subst w1 w2. rewrite final_app, final_cons in R1, R2.
  destruct (step_put ext (final ext init ops) o A) as [E1 _]. rewrite E1 in R1.
  destruct (step_put ext (final ext init ops) (flipped o)) as [E2 _]; [rewrite flip_adds; exact A|]. rewrite E2 in R2.
  set (w := final ext init ops) in *. set (m := k_fem (w_core w)) in *.
  rewrite final_cons, final_nil in R1, R2. unfold read_asb in R1, R2. rewrite step_asb in R1, R2.
  unfold with_fem_w in R1, R2; cbn [w_core k_fem k_cases k_heap with_core with_fem w_files] in R1, R2.
  assert (SB : same_base (put m o) (put m (flipped o))).
  { eapply same_base_trans; [apply put_base|apply same_base_sym, put_base]. }
  unfold mk_asm in R1, R2. rewrite <- (sb_rest _ _ SB), <- (rest_dofs_base _ _ _ SB) in R2.
  destruct (rest_dofs (put m o) (f_rest (put m o))) as [l|]; cbn [bindO] in R1, R2.
  2:{ rewrite R1 in R2. apply some_inj in R2. subst a'. rewrite HK in HK'. apply some_inj in HK'. subst. reflexivity. }
  apply some_inj in R1, R2.
  assert (M1 : a_model a = put m o) by (subst a; reflexivity). assert (M2 : a_model a' = put m (flipped o)) by (subst a'; reflexivity).
  clear R1 R2. apply (K_equal _ _ _ _ _ W1 W2 HK HK'); intros x y; rewrite M1, M2.
  - assert (BW : forall b, beam_work (put m (flipped o)) x y b = beam_work (put m o) x y b).
    { intros b. unfold beam_work, beam_ends. rewrite !(num_base (put m (flipped o)) (put m o)) by (symmetry; apply SB). reflexivity. }
    rewrite (lsum_map_ext (beam_work (put m (flipped o)) x y) (beam_work (put m o) x y)) by (intros; apply BW).
    unfold put at 2 4. destruct (made m o) as [[n b]|] eqn:EM.
    + destruct (made_flip _ _ _ _ EM) as (b' & EM' & F1 & F2 & F3). rewrite EM'. cbn [f_beams].
      apply lsum_dvals_dset. symmetry. apply beam_work_swap; assumption.
    + destruct (made m (flipped o)) as [[n b]|] eqn:EM'; [|reflexivity]. exfalso.
      apply made_flip in EM' as (b' & EM' & _). rewrite flip_flip in EM'. congruence.
  - rewrite <- (sb_shells _ _ SB). apply lsum_map_ext. intros s _. unfold shell_work, shell_values.
    assert (NS : forall k, num (put m o) k = num (put m (flipped o)) k) by (intros; apply num_base, SB).
    apply rsum_ext; intros r _. apply rsum_ext; intros c _.
    destruct (nth_error (sh_nodes s) (r / 6)), (nth_error (sh_nodes s) (c / 6)); rewrite ?NS; reflexivity.
Qed.

Lemma c38_accepted ext ops o : adds_beam o <> None ->
  let w := final ext init ops in answer ext w (flipped o) = answer ext w o.
Proof.
  intros A w. destruct (step_put ext w o A) as [_ ->].
  destruct (step_put ext w (flipped o)) as [_ ->]; [rewrite flip_adds; exact A|].
  destruct (made _ o) as [[n b]|] eqn:E.
  - destruct (made_flip _ _ _ _ E) as (b' & -> & _). reflexivity.
  - destruct (made _ (flipped o)) as [[n b]|] eqn:E'; [|reflexivity]. exfalso.
    apply made_flip in E' as (b' & E' & _). rewrite flip_flip in E'. congruence.
Qed.

Local Open Scope string_scope.
Local Open Scope R_scope.
(** ** C27: a load put on a name that is no node *)
Definition stray : list op :=
  [OpAddNode "A" 0 0 0; OpAddPattern "P"; OpSetNodalLoad "P" "Z" tip_load; OpAddStatic "C"; OpAddCasePattern "C" "P" 1; OpAssemble].
Lemma c27_stray_refuted : forall ext, outs ext init stray = repeat (RBool true) 6 /\
  exists f, load_vector (final ext init stray) "C" = Some f /\ (forall q, coo_get f q 0 = 0)
    /\ answer ext (final ext init stray) (OpGetNodalLoad "P" "Z") = RVec [1; 0; 0; 0; 0; 0].
Proof.
  intros ext.
  assert (R : exists w, run ext init stray = (w, repeat (RBool true) 6)
     /\ (exists a f, read_asb w = Some a /\ f_nodes (a_model a) = [("A", nodeA)] /\ f_beams (a_model a) = []
            /\ dget "C" (a_cases a) = Some (LCase KStatic "C" [("P", 0%nat)] [("P", 1)] [("P", default_curve)] [])
            /\ a_heap a = [Pattern "P" [("Z", [1;0;0;0;0;0])] [] [] []]
            /\ assemble_f a "C" 0 = Some f)
     /\ answer ext w (OpGetNodalLoad "P" "Z") = RVec [1; 0; 0; 0; 0; 0]).
  { unfold stray. cbn [run]. rewrite !step_add_node.
    eexists. split; [reflexivity|]. split; [|reflexivity].
    eexists. eexists. split; [reflexivity|]. split; [reflexivity|]. split; [reflexivity|]. split; [reflexivity|]. split; [reflexivity|].
    unfold assemble_f. cbn. unfold node_f_triplets. cbn [dget f_nodes a_model]. cbn [bindO String.eqb Ascii.eqb Bool.eqb].
    cbn. rewrite !(proj2 (Reqb_true _ _)) by ring.
    reflexivity. }
  destruct R as (w & HR & (a & f & Ra & N & B & Cc & Hh & HF) & HA).
  assert (EW : final ext init stray = w) by (unfold final; rewrite HR; reflexivity).
  split; [unfold outs; rewrite HR; reflexivity|]. rewrite EW. exists f.
  assert (LV : load_vector w "C" = Some f) by (unfold load_vector; rewrite Ra; exact HF).
  split; [exact LV|]. split; [|exact HA]. intros q.
  destruct (load_inv ext stray w (a_model a) "C" f) as (_ & _ & BL); [symmetry; exact EW|unfold assembled_model; rewrite Ra; reflexivity|exact LV|].
  rewrite <- bil_delta. fold one0. rewrite (BL (delta q)). unfold applied. rewrite Ra, Cc, Hh. cbn [applied_in flat_map c_factor fst snd dget c_pats].
  unfold applied_in; cbn. unfold pattern_power. rewrite N, B. unfold node_power, node_force, node_moment, triple, load_entry; cbn.
  unfold dot3; cbn. ring.
Qed.
