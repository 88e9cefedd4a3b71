(** When assembly and solving go through. *)
From Coq Require Import Reals Lra Lia List String Arith Bool Permutation ZArith.
From Verif Require Import Base BaseFacts Csys Sections Element Load FeModel Assembly Solver Post Api
  SpecApi ApiFacts WfFacts HidFacts LoadFacts CsysFacts SpecGeom SpecBeam BeamFacts AsmFacts SpecAsm AsmProofs SpecElim ElimFacts.
Import ListNotations.
Local Open Scope R_scope.

(** ** The stored assembly of a reachable state *)
Lemma asm_cases c a : core_wf c -> asm_of c a -> a_cases a = k_cases c.
Proof.
  intros W H. unfold asm_of, mk_asm in H. apply bindO_some in H as (fx & _ & H).
  apply some_inj in H. subst a. cbn [a_cases].
  pose proof (cw_cases_nodup _ W) as ND. pose proof (cw_cases _ W) as OK.
  assert (G : forall l d, NoDup (dkeys d ++ dkeys l) -> (forall k lc, In (k, lc) l -> c_name lc = k) ->
     fold_left (fun d c => dset (c_name c) c d) (dvals l) d = d ++ l).
  { induction l as [|[k v] l IH]; intros d N E; cbn [dvals map fold_left fst snd].
    - rewrite app_nil_r. reflexivity.
    - rewrite (E k v) by (simpl; auto). rewrite dset_new.
      2:{ intros HI. rewrite <- (app_nil_l (dkeys ((k,v)::l))) in N. cbn [dkeys map fst] in N.
          apply NoDup_remove_2 in N. apply N. apply in_or_app. left. exact HI. }
      change (map snd l) with (dvals l).
      rewrite IH.
      + rewrite <- app_assoc. reflexivity.
      + unfold dkeys in *. rewrite map_app, <- app_assoc. exact N.
      + intros; apply E; simpl; auto. }
  rewrite G; [reflexivity|exact ND|]. intros k lc HI. eapply co_name. apply OK. exact HI.
Qed.

Lemma asm_reach ext ops a : read_asb (final ext init ops) = Some a ->
  exists c, core_wf c /\ heap_ok (k_heap c) /\ asm_of c a /\ a_model a = k_fem c /\ a_heap a = k_heap c
    /\ a_cases a = k_cases c /\ (never_readds_nodes ext ops -> good (k_fem c)).
Proof.
  intros H. unfold read_asb in H.
  destruct (dget asb_file _) as [[]|] eqn:E; try discriminate. apply some_inj in H. subst a0.
  destruct (whp_reach ext ops) as (_ & _ & HA). destruct (HA _ E) as (c & [W HO] & Ha).
  exists c. pose proof (asm_of_model _ _ Ha) as [E1 E2].
  split; [exact W|]. split; [exact HO|]. split; [exact Ha|]. split; [exact E1|]. split; [exact E2|].
  split; [apply asm_cases; assumption|].
  intros N. destruct (wgood_reach ext ops N) as (_ & _ & HB). destruct (HB _ E) as (c2 & [_ G2] & Ha2).
  apply asm_of_model in Ha2 as [E3 _]. rewrite <- E1, E3. exact G2.
Qed.

(** ** Index ranges *)
Lemma in_mat_coo n m A r c v : In (r, c, v) (mat_coo n m A) -> (r < n)%nat /\ (c < m)%nat.
Proof.
  unfold mat_coo. intros H. apply in_flat_map in H as (i & Hi & H). apply in_map_iff in H as (j & E & Hj).
  apply in_seq in Hi, Hj. inversion E. subst. lia.
Qed.
Lemma inrange_scatter n f k m A : (forall r, (r < k)%nat -> (f r < n)%nat) -> k = m ->
  coo_inrange n n (scatter f (nz (mat_coo k m A))) = true.
Proof.
  intros H ->. apply coo_inrange_spec. intros r c v HI. unfold scatter in HI. apply in_map_iff in HI as ([[r' c'] v'] & E & HI).
  inversion E. subst. unfold nz in HI. apply filter_In in HI as [HI _]. apply in_mat_coo in HI as []. auto.
Qed.
Lemma inrange_app nr nc L M : coo_inrange nr nc (L ++ M) = (coo_inrange nr nc L && coo_inrange nr nc M)%bool.
Proof. unfold coo_inrange. apply forallb_app. Qed.
Lemma inrange_concat nr nc LL : (forall L, In L LL -> coo_inrange nr nc L = true) -> coo_inrange nr nc (List.concat LL) = true.
Proof.
  induction LL as [|L LL IH]; cbn [List.concat]; intros H; [reflexivity|].
  rewrite inrange_app, (H L) by (left; reflexivity). apply IH. intros; apply H; right; assumption.
Qed.
Lemma coo_make_ok nr nc L : coo_inrange nr nc L = true -> coo_make nr nc L = Some L.
Proof. unfold coo_make. intros ->. reflexivity. Qed.

Lemma scat2_lt n i j r : (i < n -> j < n -> r < 12 -> scat2 i j r < n * 6)%nat.
Proof. intros. unfold scat2. destruct (Nat.ltb_spec r 6); lia. Qed.
Lemma scatL_lt n hids r : (forall i, In i hids -> i < n)%nat -> (r < 6 * List.length hids)%nat -> (scatL hids r < n * 6)%nat.
Proof.
  intros H Hr. unfold scatL. pose proof (Nat.div_mod r 6 ltac:(lia)). pose proof (Nat.mod_upper_bound r 6 ltac:(lia)).
  assert (nth (r / 6) hids O < n)%nat by (apply H, nth_In; apply Nat.div_lt_upper_bound; lia). lia.
Qed.

Lemma node_hid m n : good m -> node_ok m n -> exists i, model_node_hid (n_name n) m = Some i /\ (i < node_count m)%nat.
Proof.
  intros G [HI _]. destruct (hid_total m (n_name n)) as [i Hi]; [apply G|exact HI|].
  exists i. split; [exact Hi|]. eapply good_hid_lt; eauto.
Qed.

Lemma beam_triplets_total m k b : good m -> beam_ok m k b -> 1 + bp_mu (b_prop b) <> 0 ->
  exists L, beam_triplets m b = Some L /\ coo_inrange (node_count m * 6) (node_count m * 6) L = true.
Proof.
  intros G OK MU. unfold beam_triplets.
  destruct (node_hid m (b_ni b) G (bo_ni _ _ _ OK)) as (i & Hi & Li).
  destruct (node_hid m (b_nj b) G (bo_nj _ _ _ OK)) as (j & Hj & Lj).
  unfold beam_hids. rewrite Hi, Hj. cbn [bindO fst snd]. unfold beam_K.
  destruct (Reqb (1 + bp_mu (b_prop b)) 0) eqn:E; [apply Reqb_true in E; contradiction|]. cbn [bindO].
  eexists; split; [reflexivity|]. apply inrange_scatter; [|reflexivity]. intros; apply scat2_lt; assumption.
Qed.

Lemma shell_hids_total m s : good m -> (forall n, In n (sh_nodes s) -> node_ok m n) ->
  exists hids, shell_hids s m = Some hids /\ (forall i, In i hids -> i < node_count m)%nat /\ List.length hids = List.length (sh_nodes s).
Proof.
  intros G H. unfold shell_hids. induction (sh_nodes s) as [|n l IH]; cbn [mapM].
  - exists []. split; [reflexivity|]. split; [intros ? []|reflexivity].
  - destruct (node_hid m n G) as (i & Hi & Li); [apply H; simpl; auto|]. rewrite Hi.
    destruct IH as (hs & -> & L & E); [intros; apply H; simpl; auto|].
    exists (i :: hs). split; [reflexivity|]. split; [|simpl; congruence].
    intros q [<-|HI]; auto.
Qed.

Lemma shell_triplets_total ker m k s : good m -> shell_ok m k s ->
  exists L, shell_triplets ker m s = Some L /\ coo_inrange (node_count m * 6) (node_count m * 6) L = true.
Proof.
  intros G OK. destruct (shell_hids_total m s G (so_nodes _ _ _ OK)) as (hids & Hh & Lh & E).
  unfold shell_triplets. rewrite Hh. cbn [bindO].
  destruct (so_shape _ _ _ OK) as [(a & b & c & EN & _)|(a & b & c & d & EN & _)]; rewrite EN in E;
    destruct hids as [|x1 [|x2 [|x3 [|x4 [|? ?]]]]]; try discriminate E; eexists; (split; [reflexivity|]);
    (apply inrange_scatter; [|reflexivity]); intros r Hr.
  - rewrite scat3_L by exact Hr. apply scatL_lt; [exact Lh|simpl; lia].
  - rewrite scat4_L by exact Hr. apply scatL_lt; [exact Lh|simpl; lia].
Qed.

Lemma mapM_total_P {A B} (f : A -> option B) (P : B -> Prop) l :
  (forall a, In a l -> exists b, f a = Some b /\ P b) -> exists bs, mapM f l = Some bs /\ forall b, In b bs -> P b.
Proof.
  induction l as [|a l IH]; intros H; cbn [mapM].
  - exists []. split; [reflexivity|intros ? []].
  - destruct (H a) as (b & -> & Pb); [simpl; auto|]. destruct IH as (bs & -> & Q); [intros; apply H; simpl; auto|].
    exists (b :: bs). split; [reflexivity|]. intros x [<-|HI]; auto.
Qed.

Lemma assemble_K_total ker a : good (a_model a) ->
  (forall k b, In (k, b) (f_beams (a_model a)) -> 1 + bp_mu (b_prop b) <> 0) ->
  exists K, assemble_K ker a = Some K.
Proof.
  intros G MU. unfold assemble_K. set (m := a_model a) in *. pose proof G as (W & _).
  destruct (mapM_total_P (beam_triplets m) (fun L => coo_inrange (node_count m * 6) (node_count m * 6) L = true) (dvals (f_beams m)))
    as (bs & -> & Hb).
  { intros b Hb. apply in_dvals_ex in Hb as [k Hk]. eapply beam_triplets_total; eauto. apply (wf_beam _ W), Hk. }
  destruct (mapM_total_P (shell_triplets ker m) (fun L => coo_inrange (node_count m * 6) (node_count m * 6) L = true) (dvals (f_shells m)))
    as (ss & -> & Hs).
  { intros s Hs. apply in_dvals_ex in Hs as [k Hk]. eapply shell_triplets_total; eauto. apply (wf_shell _ W), Hk. }
  cbn [bindO]. eexists. apply coo_make_ok. rewrite inrange_app, !inrange_concat by assumption. reflexivity.
Qed.

(** ** Loads *)
Lemma inrange_vec n f v : (forall k, (k < List.length v)%nat -> (f k < n)%nat) -> coo_inrange n 1 (vec_triplets f v) = true.
Proof.
  intros H. apply coo_inrange_spec. intros r c x HI. unfold vec_triplets in HI. apply in_flat_map in HI as (k & Hk & HI).
  apply in_seq in Hk. cbv zeta in HI. destruct (Reqb (nth k v 0) 0); [destruct HI|]. destruct HI as [E|[]].
  inversion E. subst. split; [apply H; lia|lia].
Qed.

Lemma matT_list_length n T v : List.length (matT_list n T v) = n.
Proof. unfold matT_list. rewrite map_length, seq_length. reflexivity. Qed.

Lemma node_f_total a c k n : good (a_model a) -> case_ok (a_heap a) k c -> heap_ok (a_heap a) ->
  In n (model_node_names (a_model a)) ->
  exists L, node_f_triplets a c 0 n = Some L /\ coo_inrange (node_count (a_model a) * 6) 1 L = true.
Proof.
  intros G OK HO Hn. unfold node_f_triplets. set (m := a_model a) in *.
  assert (HK : In n (dkeys (f_nodes m))) by exact Hn.
  apply dget_in_keys in HK as [nd Hd]. rewrite Hd. cbn [bindO].
  destruct (case_nodal_f_sum (a_heap a) c n 0) as (v & Hv & Lv & _).
  { intros p Hp. destruct (case_deref _ _ _ OK HO p Hp) as (pat & H1 & H2 & _). eauto. }
  { intros p Hp. apply (case_curve _ _ _ 0 OK ltac:(lia) p Hp). }
  rewrite Hv. cbn [bindO].
  destruct (hid_total m n) as [i Hi]; [apply G|exact Hn|]. unfold model_node_hid. rewrite Hi. cbn [bindO].
  eexists; split; [reflexivity|]. apply inrange_vec. rewrite matT_list_length. intros q Hq.
  apply good_hid_lt in Hi; [|exact G]. lia.
Qed.

Lemma condensate_f_id r k : condensate_f no_releases r k = r.
Proof. reflexivity. Qed.

Lemma beam_f_total a c k nb : good (a_model a) -> case_ok (a_heap a) k c -> heap_ok (a_heap a) ->
  In nb (f_beams (a_model a)) -> 1 + bp_mu (b_prop (snd nb)) <> 0 ->
  exists L, beam_f_triplets a c nb = Some L /\ coo_inrange (node_count (a_model a) * 6) 1 L = true.
Proof.
  intros G OK HO HI MU. unfold beam_f_triplets. set (m := a_model a) in *. destruct nb as [bn b].
  pose proof G as (W & _). pose proof (wf_beam _ W _ _ HI) as BO. cbn [fst snd] in *.
  destruct (node_hid m (b_ni b) G (bo_ni _ _ _ BO)) as (i & Hi & Li).
  destruct (node_hid m (b_nj b) G (bo_nj _ _ _ BO)) as (j & Hj & Lj).
  unfold beam_hids. rewrite Hi, Hj. cbn [bindO fst snd].
  destruct (case_beam_f_sum (a_heap a) c bn (b_length b)) as (v & Hv & Lv & _).
  { intros p Hp. destruct (case_deref _ _ _ OK HO p Hp) as (pat & H1 & _). eauto. }
  rewrite Hv. cbn [bindO]. unfold beam_K.
  destruct (Reqb (1 + bp_mu (b_prop b)) 0) eqn:E; [apply Reqb_true in E; contradiction|]. cbn [bindO].
  eexists; split; [reflexivity|]. apply inrange_vec. rewrite matT_list_length. intros q Hq. apply scat2_lt; assumption.
Qed.

Lemma assemble_f_total a cn c : good (a_model a) -> dget cn (a_cases a) = Some c ->
  case_ok (a_heap a) cn c -> heap_ok (a_heap a) ->
  (forall k b, In (k, b) (f_beams (a_model a)) -> 1 + bp_mu (b_prop b) <> 0) ->
  exists f, assemble_f a cn 0 = Some f.
Proof.
  intros G HC OK HO MU. unfold assemble_f. set (m := a_model a) in *. rewrite HC. cbn [bindO].
  destruct (mapM_total_P (node_f_triplets a c 0) (fun L => coo_inrange (node_count m * 6) 1 L = true) (model_node_names m)) as (ns & -> & Hns).
  { intros n Hn. eapply node_f_total; eauto. }
  destruct (mapM_total_P (beam_f_triplets a c) (fun L => coo_inrange (node_count m * 6) 1 L = true) (f_beams m)) as (bs & -> & Hbs).
  { intros [k b] Hb. eapply beam_f_total; eauto. }
  cbn [bindO]. eexists. apply coo_make_ok. rewrite inrange_app, !inrange_concat by assumption. reflexivity.
Qed.

(** ** Restrained equations *)
Lemma in_node_dofs i fl q : List.length fl = 6%nat ->
  In q (node_dofs i fl) <-> exists j, (j < 6)%nat /\ nth j fl false = true /\ q = (6 * i + j)%nat.
Proof.
  intros L. unfold node_dofs. rewrite in_map_iff. split.
  - intros (j & E & H). apply filter_In in H as [H1 H2]. apply in_seq in H1. exists j. split; [lia|]. split; [exact H2|lia].
  - intros (j & H1 & H2 & ->). exists j. split; [lia|]. apply filter_In. split; [apply in_seq; lia|exact H2].
Qed.

Lemma nodup_node_dofs i fl : NoDup (node_dofs i fl).
Proof.
  unfold node_dofs. apply FinFun.Injective_map_NoDup.
  - intros x y H. lia.
  - apply NoDup_filter, seq_NoDup.
Qed.

Lemma node_dofs_range i fl q : In q (node_dofs i fl) -> (q / 6 = i)%nat.
Proof.
  unfold node_dofs. intros H. apply in_map_iff in H as (j & E & H). apply filter_In in H as [H _]. apply in_seq in H.
  subst q. rewrite Nat.div_add_l by lia. rewrite Nat.div_small by lia. lia.
Qed.

Lemma NoDup_app_intro {A} (l l' : list A) : NoDup l -> NoDup l' -> (forall x, In x l -> ~ In x l') -> NoDup (l ++ l').
Proof.
  induction l as [|a l IH]; cbn [app]; intros H1 H2 H3; [exact H2|]. inversion H1. subst. constructor.
  - rewrite in_app_iff. intros [X|X]; [contradiction|]. apply (H3 a); simpl; auto.
  - apply IH; auto. intros x Hx. apply H3. simpl; auto.
Qed.

Lemma rest_dofs_spec m rest : good m -> NoDup (dkeys rest) ->
  (forall k fl, In (k, fl) rest -> In k (dkeys (f_nodes m)) /\ List.length fl = 6%nat) ->
  exists l, rest_dofs m rest = Some l /\ NoDup l
    /\ forall q, In q l <-> exists k i j, nth_error (dkeys (f_nodes m)) i = Some k /\ (j < 6)%nat /\ q = (6 * i + j)%nat
         /\ exists fl, dget k rest = Some fl /\ nth j fl false = true.
Proof.
  intros G. pose proof G as (W & HP & _). unfold rest_dofs. induction rest as [|[k fl] rest IH]; intros ND H.
  - exists []. split; [reflexivity|]. split; [constructor|]. intros q. split; [intros []|].
    intros (k & i & j & _ & _ & _ & fl & E & _). discriminate.
  - cbn [dkeys map fst] in ND. inversion ND as [|? ? N1 N2]. subst.
    destruct IH as (l & E & NL & S); [exact N2|intros; apply H; simpl; auto|].
    apply bindO_some in E as (ll & E1 & E2). apply some_inj in E2. subst l.
    cbn [mapM fst snd]. destruct (H k fl) as [HK L]; [simpl; auto|].
    destruct (hid_total m k W HK) as [i Hi]. unfold model_node_hid at 1. rewrite Hi. cbn [bindO]. rewrite E1. cbn [bindO List.concat].
    eexists; split; [reflexivity|].
    assert (Ki : nth_error (dkeys (f_nodes m)) i = Some k) by (apply good_hid_key; assumption).
    assert (DJ : forall q, In q (node_dofs i fl) -> ~ In q (List.concat ll)).
    { intros q H1 H2. apply S in H2 as (k' & i' & j' & H3 & H4 & H5 & fl' & H6 & _).
      apply node_dofs_range in H1.
      assert (i' = i) by (subst q; rewrite Nat.mul_comm, Nat.div_add_l, Nat.div_small in H1 by lia; lia). subst i'.
      rewrite H3 in Ki. inversion Ki. subst k'. apply N1. apply dget_in_keys. eauto. }
    split.
    + apply NoDup_app_intro; [apply nodup_node_dofs|exact NL|exact DJ].
    + intros q. rewrite in_app_iff, S, (in_node_dofs _ _ _ L). split.
      * intros [(j & H1 & H2 & ->)|(k' & i' & j & H3 & H4 & H5 & fl' & H6 & H7)].
        -- exists k, i, j. split; [exact Ki|]. split; [exact H1|]. split; [reflexivity|]. exists fl. split; [|exact H2].
           cbn [dget]. rewrite String.eqb_refl. reflexivity.
        -- exists k', i', j. split; [exact H3|]. split; [exact H4|]. split; [exact H5|]. exists fl'. split; [|exact H7].
           cbn [dget]. destruct (String.eqb_spec k' k); [|exact H6]. subst. exfalso. apply N1, dget_in_keys. eauto.
      * intros (k' & i' & j & H3 & H4 & H5 & fl' & H6 & H7). cbn [dget] in H6.
        destruct (String.eqb_spec k' k).
        -- subst k'. inversion H6. subst fl'. left. exists j. split; [exact H4|]. split; [exact H7|].
           apply HP in H3. rewrite Hi in H3. inversion H3. subst. reflexivity.
        -- right. exists k', i', j. split; [exact H3|]. split; [exact H4|]. split; [exact H5|]. eauto.
Qed.
