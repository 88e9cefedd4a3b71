(** Proofs about building with the duplicate check. *)
From Coq Require Import Reals Lra Lia List String Arith Bool.
From Verif Require Import Base BaseFacts Csys CsysFacts Sections Element Load FeModel Assembly Solver Post Api SpecApi ApiFacts
  WfFacts SpecGeom SpecBeam SpecAsm AsmFacts AsmProofs SpecPost MergeProofs Build SpecBuild.
Import ListNotations.
Local Open Scope R_scope.

Lemma same_ends_true p q b : same_ends p q b = true <-> joins b p q.
Proof.
  unfold same_ends, joins, at_once. rewrite orb_true_iff, !andb_true_iff, !Rltb_true, !norm_distance. unfold abs_tol. tauto.
Qed.
Lemma same_ends_false p q b : same_ends p q b = false <-> ~ joins b p q.
Proof. rewrite <- same_ends_true. destruct (same_ends p q b); split; congruence. Qed.
Lemma joins_sym a b : joins a (n_loc (b_ni b)) (n_loc (b_nj b)) -> joins b (n_loc (b_ni a)) (n_loc (b_nj a)).
Proof. unfold joins, at_once. rewrite !(distance_sym (n_loc (b_ni b))), !(distance_sym (n_loc (b_nj b))). tauto. Qed.

Record told_once (m : fem) : Prop := {
  to_nodup : NoDup (dkeys (f_beams m));
  to_name : forall k b, dget k (f_beams m) = Some b -> b_name b = k /\ exists i, dget k (f_hbeam m) = Some i;
  to_apart : forall k1 k2 b1 b2, k1 <> k2 -> dget k1 (f_beams m) = Some b1 -> dget k2 (f_beams m) = Some b2 ->
     ~ joins b1 (n_loc (b_ni b2)) (n_loc (b_nj b2)) }.
Lemma told_once_same m m' : f_beams m' = f_beams m -> f_hbeam m' = f_hbeam m -> told_once m -> told_once m'.
Proof. intros E1 E2 [A B C]. constructor; rewrite ?E1, ?E2; assumption. Qed.

Lemma put_once n ni nj p m h m' : told_once m -> model_put_beam n ni nj p true m = Some (h, m') ->
  told_once m' /\
  exists k b, dget k (f_hbeam m') = Some h /\ dget k (f_beams m') = Some b /\
    ((m' = m /\ joins b (n_loc ni) (n_loc nj))
     \/ (k = n /\ b_ni b = ni /\ b_nj b = nj /\ b_prop b = p /\ h = List.length (f_beams m)
         /\ forall k' b', dget k' (f_beams m) = Some b' -> ~ joins b' (n_loc ni) (n_loc nj))).
Proof.
  intros [ND NM AP]. unfold model_put_beam. destruct (mk_beam n ni nj p) as [b|] eqn:B; [|discriminate]. cbn [bindO].
  assert (Bf : b_name b = n /\ b_ni b = ni /\ b_nj b = nj /\ b_prop b = p).
  { unfold mk_beam, bindO in B. destruct (line_csys _ _); [|discriminate]. apply some_inj in B. subst b. auto. }
  destruct Bf as (Bn & Bi & Bj & Bp).
  destruct (filter _ _) as [|dup r] eqn:E.
  - assert (FAR : forall k' b', dget k' (f_beams m) = Some b' -> ~ joins b' (n_loc ni) (n_loc nj)).
    { intros k' b' H. apply same_ends_false. destruct (same_ends (n_loc ni) (n_loc nj) b') eqn:T; [|reflexivity].
      exfalso. assert (I : In b' (filter (same_ends (n_loc ni) (n_loc nj)) (dvals (f_beams m)))).
      { apply filter_In. split; [|exact T]. apply dget_some_in in H. apply (in_map snd) in H. exact H. }
      rewrite E in I. exact I. }
    intros H. apply some_inj in H. assert (h = List.length (f_beams m)) by (apply (f_equal fst) in H; cbn in H; congruence).
    apply (f_equal snd) in H. cbn [snd] in H. subst m'. split.
    + constructor; cbn [f_beams f_hbeam].
      * apply nodup_dset, ND.
      * intros k0 b0 H2. rewrite dget_dset in H2. rewrite dget_dset. destruct (String.eqb_spec k0 n) as [->|NE].
        -- apply some_inj in H2. subst b0. split; [exact Bn|eauto].
        -- apply NM, H2.
      * intros k1 k2 b1 b2 NE H1 H2. rewrite dget_dset in H1, H2.
        destruct (String.eqb_spec k1 n) as [->|N1]; destruct (String.eqb_spec k2 n) as [->|N2]; try easy.
        -- apply some_inj in H1. subst b1. intros J. apply (FAR _ _ H2). rewrite <- Bi, <- Bj. apply joins_sym. exact J.
        -- apply some_inj in H2. subst b2. rewrite Bi, Bj. apply (FAR k1 b1 H1).
        -- apply (AP k1 k2); auto.
    + exists n, b. cbn [f_beams f_hbeam]. rewrite !dget_dset_eq. split; [congruence|]. split; [reflexivity|]. right. auto 8.
  - assert (I : In dup (filter (same_ends (n_loc ni) (n_loc nj)) (dvals (f_beams m)))) by (rewrite E; now left).
    apply filter_In in I as (I1 & I2). apply same_ends_true in I2.
    apply in_dvals_ex in I1 as [k0 I1]. pose proof (in_dget_nodup _ _ _ ND I1) as D. destruct (NM _ _ D) as (-> & i & Hi). rewrite Hi. cbn [bindO].
    intros H. apply some_inj in H. injection H as <- <-. split; [constructor; assumption|]. exists k0, dup. auto.
Qed.

Record built_once (m : fem) : Prop := { bo_nodes : merged m; bo_beams : told_once m }.
Lemma merged_same m m' : f_nodes m' = f_nodes m -> f_hnode m' = f_hnode m -> merged m -> merged m'.
Proof. intros E1 E2 [A B C]. constructor; rewrite ?E1, ?E2; assumption. Qed.
Lemma put_nodes n ni nj p d m h m' : model_put_beam n ni nj p d m = Some (h, m') -> f_nodes m' = f_nodes m /\ f_hnode m' = f_hnode m.
Proof.
  unfold model_put_beam, bindO. destruct (mk_beam n ni nj p); [|discriminate].
  destruct (if d then _ else _) as [|dup r]; [|destruct (dget (b_name dup) (f_hbeam m)); [|discriminate]];
  intros H; apply some_inj in H; apply (f_equal snd) in H; cbn [snd] in H; subst m'; auto.
Qed.
Lemma node_beams n x y z d m h m' : model_add_node n x y z d m = Some (h, m') -> f_beams m' = f_beams m /\ f_hbeam m' = f_hbeam m.
Proof.
  unfold model_add_node. rewrite mk_node_total. destruct (if d then _ else _) as [|dup r]; [|destruct (dget (n_name dup) (f_hnode m)); [|discriminate]];
  intros H; apply some_inj in H; apply (f_equal snd) in H; cbn [snd] in H; subst m'; auto.
Qed.
Lemma mass_merged n v m m' : merged m -> model_set_mass n v m = Some m' -> merged m'.
Proof.
  intros [ND NM AP]. unfold model_set_mass. destruct (dget n (f_nodes m)) as [nd|] eqn:D; [|discriminate].
  intros H. apply some_inj in H. subst m'.
  assert (L : forall k x, dget k (dset n (set_mass v nd) (f_nodes m)) = Some x ->
    exists x', dget k (f_nodes m) = Some x' /\ n_loc x = n_loc x' /\ n_name x = n_name x').
  { intros k x. rewrite dget_dset. destruct (String.eqb_spec k n) as [->|N]; [|eauto]. intros H. apply some_inj in H. subst x. exists nd. auto. }
  constructor; cbn [f_nodes f_hnode].
  - apply nodup_dset, ND.
  - intros k x H. destruct (L k x H) as (x' & H' & _ & E). rewrite E. apply NM, H'.
  - intros k1 k2 x1 x2 NE H1 H2. destruct (L _ _ H1) as (y1 & G1 & -> & _). destruct (L _ _ H2) as (y2 & G2 & -> & _). apply (AP k1 k2); auto.
Qed.
Lemma mstep_once m c : checks c = true -> built_once m -> built_once (snd (mstep m c)).
Proof.
  intros HC [MG TO]. destruct c; cbn [checks] in HC; subst; cbn [mstep].
  - destruct (merge_step name x y z m MG) as (h & m' & E & M' & _). rewrite E. cbn [numbered snd]. split; [exact M'|].
    destruct (node_beams _ _ _ _ _ _ _ _ E) as [A B]. exact (told_once_same m m' A B TO).
  - unfold model_set_restraint. destruct (negb _); cbn [snd]; [split; assumption|].
    split; [apply (merged_same m); [reflexivity|reflexivity|exact MG]|apply (told_once_same m); [reflexivity|reflexivity|exact TO]].
  - destruct (model_set_mass name mass m) as [m'|] eqn:E; cbn [quiet snd]; [|split; assumption]. split; [exact (mass_merged _ _ _ _ MG E)|].
    unfold model_set_mass in E. destruct (dget name (f_nodes m)); [|discriminate]. apply some_inj in E. subst m'. apply (told_once_same m); [reflexivity|reflexivity|exact TO].
  - split; [apply (merged_same m); [reflexivity|reflexivity|exact MG]|apply (told_once_same m); [reflexivity|reflexivity|exact TO]].
  - unfold model_add_general, model_add_bsection, bindO. destruct (dget mat (f_mats m)); cbn [quiet snd]; [|split; assumption].
    split; [apply (merged_same m); [reflexivity|reflexivity|exact MG]|apply (told_once_same m); [reflexivity|reflexivity|exact TO]].
  - unfold model_add_beam. destruct (dget start (f_nodes m)) as [ni|]; [|split; assumption]. destruct (dget end_ (f_nodes m)) as [nj|]; [|split; assumption].
    destruct (dget section (f_bsecs m)) as [sc|]; [|split; assumption]. cbn [bindO].
    destruct (model_put_beam _ _ _ _ _ _) as [[h m']|] eqn:E; cbn [numbered snd]; [|split; assumption].
    destruct (put_nodes _ _ _ _ _ _ _ _ E) as [A B]. split; [exact (merged_same m m' A B MG)|]. exact (proj1 (put_once _ _ _ _ _ _ _ TO E)).
  - unfold model_add_simple_beam. destruct (dget start (f_nodes m)) as [ni|]; [|split; assumption]. destruct (dget end_ (f_nodes m)) as [nj|]; [|split; assumption].
    cbn [bindO]. destruct (model_put_beam _ _ _ _ _ _) as [[h m']|] eqn:PB; cbn [numbered snd]; [|split; assumption].
    destruct (put_nodes _ _ _ _ _ _ _ _ PB) as [PA PB']. split; [exact (merged_same m m' PA PB' MG)|]. exact (proj1 (put_once _ _ _ _ _ _ _ TO PB)).
Qed.
Lemma mrun_snoc cs c : mrun (cs ++ [c]) = snd (mstep (mrun cs) c).
Proof. unfold mrun. rewrite fold_left_app. reflexivity. Qed.
Lemma mrun_once cs : Forall (fun c => checks c = true) cs -> built_once (mrun cs).
Proof.
  induction cs as [|c cs IH] using rev_ind; intros H.
  - split; [exact merged_new|]. constructor; cbn; [constructor|easy|easy].
  - apply Forall_app in H as [H1 H2]. inversion H2; subst. rewrite mrun_snoc. apply mstep_once; auto.
Qed.

Lemma c112_apart cs : Forall (fun c => checks c = true) cs ->
  (forall k1 k2 n1 n2, k1 <> k2 -> dget k1 (f_nodes (mrun cs)) = Some n1 -> dget k2 (f_nodes (mrun cs)) = Some n2 -> ~ at_once (n_loc n1) (n_loc n2))
  /\ (forall k1 k2 b1 b2, k1 <> k2 -> dget k1 (f_beams (mrun cs)) = Some b1 -> dget k2 (f_beams (mrun cs)) = Some b2 ->
      ~ joins b1 (n_loc (b_ni b2)) (n_loc (b_nj b2))).
Proof.
  intros H. destruct (mrun_once cs H) as [[_ _ A] [_ _ B]]. split; [|exact B].
  intros k1 k2 n1 n2 NE H1 H2. unfold at_once. apply Rle_not_lt. exact (A k1 k2 n1 n2 NE H1 H2).
Qed.
Lemma c112_beam cs c n s e h : Forall (fun c => checks c = true) cs -> beam_call c = Some (n, s, e) ->
  fst (mstep (mrun cs) c) = MNumber h -> let m := mrun cs in let m' := mrun (cs ++ [c]) in
  exists ni nj k b, dget s (f_nodes m) = Some ni /\ dget e (f_nodes m) = Some nj
  /\ dget k (f_hbeam m') = Some h /\ dget k (f_beams m') = Some b
  /\ ((m' = m /\ joins b (n_loc ni) (n_loc nj))
      \/ (k = n /\ b_ni b = ni /\ b_nj b = nj /\ h = List.length (f_beams m)
          /\ forall k' b', dget k' (f_beams m) = Some b' -> ~ joins b' (n_loc ni) (n_loc nj))).
Proof.
  intros HC EC HR m m'. destruct (mrun_once cs HC) as [_ TO]. fold m in TO. unfold m'. rewrite mrun_snoc. fold m. fold m in HR.
  destruct c as [| | | | |name s0 e0 sc d|name s0 e0 E mu A I2 I3 J rho d]; try discriminate EC;
  (destruct d; [|discriminate EC]); cbn [beam_call] in EC; apply some_inj in EC; injection EC as -> -> ->; cbn [mstep] in *.
  - unfold model_add_beam in *. destruct (dget s (f_nodes m)) as [ni|]; [|discriminate HR]. destruct (dget e (f_nodes m)) as [nj|]; [|discriminate HR].
    cbn [bindO] in *. destruct (dget sc (f_bsecs m)) as [sec|]; [|discriminate HR]. cbn [bindO] in *.
    destruct (model_put_beam _ _ _ _ _ _) as [[h' m1]|] eqn:P; [|discriminate HR]. cbn [numbered fst snd] in *. injection HR as ->.
    destruct (put_once _ _ _ _ _ _ _ TO P) as (_ & k & b & A1 & A2 & A3). exists ni, nj, k, b. split; [reflexivity|]. split; [reflexivity|]. split; [exact A1|]. split; [exact A2|].
    destruct A3 as [A3|(B1 & B2 & B3 & B4 & B5 & B6)]; [left; exact A3|right; auto].
  - unfold model_add_simple_beam in *. destruct (dget s (f_nodes m)) as [ni|]; [|discriminate HR]. destruct (dget e (f_nodes m)) as [nj|]; [|discriminate HR].
    cbn [bindO] in *.
    destruct (model_put_beam _ _ _ _ _ _) as [[h' m1]|] eqn:P; [|discriminate HR]. cbn [numbered fst snd] in *. injection HR as ->.
    destruct (put_once _ _ _ _ _ _ _ TO P) as (_ & k & b & A1 & A2 & A3). exists ni, nj, k, b. split; [reflexivity|]. split; [reflexivity|]. split; [exact A1|]. split; [exact A2|].
    destruct A3 as [A3|(B1 & B2 & B3 & B4 & B5 & B6)]; [left; exact A3|right; auto].
Qed.

(** ** A beam told again, and a node whose second name is lost *)
Local Open Scope string_scope.
Local Open Scope list_scope.
Lemma zero_distance p : distance p p = 0.
Proof. unfold distance. replace ((vx p - vx p)^2 + (vy p - vy p)^2 + (vz p - vz p)^2) with 0 by ring. apply sqrt_0. Qed.
Lemma near_self p : Rltb (norm (vsub p p)) abs_tol = true.
Proof. apply Rltb_true. rewrite norm_distance, zero_distance. unfold abs_tol. lra. Qed.
Definition unit_a : node := Node "A" (CS (V3 0 0 0) (V3 1 0 0) (V3 0 1 0) (V3 0 0 1)) [0;0;0;0;0;0].
Definition unit_b : node := Node "B" (CS (V3 1 0 0) (V3 1 0 0) (V3 0 1 0) (V3 0 0 1)) [0;0;0;0;0;0].
Definition unit_model : fem := Fem [("A", unit_a); ("B", unit_b)] [] [] [] [] [] [] [("A", 0%nat); ("B", 1%nat)] [] [].
Lemma unit_run : mrun [MNode "A" 0 0 0 true; MNode "B" 1 0 0 true] = unit_model.
Proof.
  assert (FAR : Rltb (norm (vsub (n_loc unit_a) (V3 1 0 0))) abs_tol = false).
  { apply Rltb_false. rewrite norm_distance. unfold distance, n_loc, unit_a. cbn [n_csys cs_O vx vy vz].
    replace ((0 - 1)^2 + (0 - 0)^2 + (0 - 0)^2) with 1 by ring. rewrite sqrt_1. unfold abs_tol. lra. }
  assert (E1 : snd (mstep new_fem (MNode "A" 0 0 0 true)) = Fem [("A", unit_a)] [] [] [] [] [] [] [("A", 0%nat)] [] []).
  { cbn [mstep]. unfold model_add_node. rewrite mk_node_total. reflexivity. }
  unfold mrun. cbn [fold_left]. rewrite E1. cbn [mstep]. unfold model_add_node. rewrite mk_node_total.
  cbn [f_nodes dvals map snd filter]. rewrite FAR. reflexivity.
Qed.
Lemma unit_beam n p : forall i j, (i = unit_a /\ j = unit_b) \/ (i = unit_b /\ j = unit_a) -> exists c, mk_beam n i j p = Some (Beam n i j c no_releases p).
Proof.
  intros i j H. unfold mk_beam. destruct (line_csys (n_loc i) (n_loc j)) as [c|] eqn:L; [exists c; reflexivity|]. exfalso. apply line_csys_none in L. apply L. left.
  destruct H as [[-> ->]|[-> ->]]; unfold plan_offset, n_loc, unit_a, unit_b; cbn [n_csys cs_O vx vy vz]; (eapply Rle_trans; [|apply Rmax_l]);
  [rewrite Rabs_left by lra|rewrite Rabs_right by lra]; lra.
Qed.
Lemma twice_told : exists cs n s e h, Forall (fun c => checks c = true) cs /\
  beam_call (MSimple "c" "B" "A" 1 0 1 1 1 1 1 true) = Some (n, s, e) /\ fst (mstep (mrun cs) (MSimple "c" "B" "A" 1 0 1 1 1 1 1 true)) = MNumber h.
Proof.
  exists [MNode "A" 0 0 0 true; MNode "B" 1 0 0 true; MSimple "b" "A" "B" 1 0 1 1 1 1 1 true], "c", "B", "A", 0%nat.
  split; [repeat constructor|]. split; [reflexivity|].
  change [MNode "A" 0 0 0 true; MNode "B" 1 0 0 true; MSimple "b" "A" "B" 1 0 1 1 1 1 1 true]
    with ([MNode "A" 0 0 0 true; MNode "B" 1 0 0 true] ++ [MSimple "b" "A" "B" 1 0 1 1 1 1 1 true]). rewrite mrun_snoc, unit_run.
  destruct (unit_beam "b" (PSimple 1 0 1 1 1 1 1) unit_a unit_b (or_introl (conj eq_refl eq_refl))) as (cb & Eb).
  destruct (unit_beam "c" (PSimple 1 0 1 1 1 1 1) unit_b unit_a (or_intror (conj eq_refl eq_refl))) as (cc & Ec).
  assert (E1 : snd (mstep unit_model (MSimple "b" "A" "B" 1 0 1 1 1 1 1 true))
    = Fem [("A", unit_a); ("B", unit_b)] [] [] [] [] [("b", Beam "b" unit_a unit_b cb no_releases (PSimple 1 0 1 1 1 1 1))] [] [("A", 0%nat); ("B", 1%nat)] [("b", 0%nat)] []).
  { cbn [mstep]. unfold model_add_simple_beam. cbn [unit_model f_nodes dget String.eqb Ascii.eqb Bool.eqb bindO]. unfold model_put_beam. rewrite Eb. reflexivity. }
  rewrite E1. cbn [mstep]. unfold model_add_simple_beam. cbn [f_nodes dget String.eqb Ascii.eqb Bool.eqb bindO]. unfold model_put_beam. rewrite Ec.
  cbn [bindO f_beams dvals map snd filter].
  assert (same_ends (n_loc unit_b) (n_loc unit_a) (Beam "b" unit_a unit_b cb no_releases (PSimple 1 0 1 1 1 1 1)) = true) as ->; [|reflexivity].
  apply same_ends_true. right. cbn [b_ni b_nj]. unfold at_once. rewrite !zero_distance. lra.
Qed.
(** A name given to a node that is already there stands for nothing: the node cannot be held
    and no beam can be tied to it by that name. *)
Lemma c112_name_refuted : exists cs n, Forall (fun c => checks c = true) (cs ++ [n])
  /\ exists name x y z h, n = MNode name x y z true /\ fst (mstep (mrun cs) n) = MNumber h
  /\ fst (mstep (mrun (cs ++ [n])) (MRestraint name [true; true; true; true; true; true])) = MBool false
  /\ fst (mstep (mrun (cs ++ [n])) (MSimple "b" "B" name 1 0 1 1 1 1 1 true)) = MRaise
  /\ exists h', fst (mstep (mrun (cs ++ [n])) (MSimple "b" "B" "A" 1 0 1 1 1 1 1 true)) = MNumber h'.
Proof.
  exists [MNode "A" 0 0 0 true; MNode "B" 1 0 0 true], (MNode "A2" 0 0 0 true). split; [repeat constructor|].
  exists "A2", 0, 0, 0, 0%nat. split; [reflexivity|].
  pose proof unit_run as EM. set (m := unit_model) in *.
  rewrite mrun_snoc, EM.
  assert (ES : mstep m (MNode "A2" 0 0 0 true) = (MNumber 0, m)).
  { cbn [mstep]. unfold model_add_node. rewrite mk_node_total. cbn [f_nodes m unit_model dvals map snd filter].
    assert (Rltb (norm (vsub (n_loc unit_a) (V3 0 0 0))) abs_tol = true) as -> by (apply (near_self (V3 0 0 0))). reflexivity. }
  rewrite ES. cbn [fst snd]. split; [reflexivity|]. split; [reflexivity|]. split; [reflexivity|].
  exists 0%nat. cbn [mstep]. unfold model_add_simple_beam. cbn [f_nodes m unit_model dget String.eqb Ascii.eqb Bool.eqb bindO]. unfold model_put_beam.
  destruct (unit_beam "b" (PSimple 1 0 1 1 1 1 1) unit_b unit_a (or_intror (conj eq_refl eq_refl))) as (cc & Ec). rewrite Ec. reflexivity.
Qed.
