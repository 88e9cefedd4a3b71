(** Proofs about the DOF count and the static solution (C15, C19, C20, C62). *)
From Coq Require Import Reals Lra Lia List String Arith Bool ZArith Sorting.Permutation Sorting.Sorted.
From Verif Require Import Base BaseFacts Csys Sections Element Load FeModel Assembly Solver Post Api
  SpecApi ApiFacts WfFacts HidFacts ApiProofs1 LoadFacts SpecElim ElimFacts SpecGeom CsysFacts SpecBeam BeamFacts AsmFacts SpecAsm AsmProofs
  AsmTotal AsmProofs2 SpecLoad LoadProofs SpecSolve.
Import ListNotations.
Local Open Scope R_scope.

(** ** The state right after an assembly *)
Lemma assembled_now ext ops : never_readds_nodes ext (ops ++ [OpAssemble]) ->
  let w := final ext init (ops ++ [OpAssemble]) in
  answer ext (final ext init ops) OpAssemble = RBool true
  /\ exists a, read_asb w = Some a /\ a_model a = k_fem (w_core w) /\ a_heap a = k_heap (w_core w)
       /\ a_cases a = k_cases (w_core w) /\ core_wf (w_core w) /\ heap_ok (k_heap (w_core w)) /\ good (k_fem (w_core w))
       /\ rest_dofs (a_model a) (f_rest (a_model a)) = Some (a_fixed a)
       /\ a_dof a = (Z.of_nat (size (a_model a)) - Z.of_nat (List.length (a_fixed a)))%Z.
Proof.
  intros NR w. destruct (whp_reach ext ops) as ([Wc Hc] & _).
  assert (G : good (k_fem (w_core (final ext init ops)))).
  { unfold never_readds_nodes in NR. apply guarded_app in NR as [NR _].
    destruct (wgood_reach ext ops NR) as (CG & _). apply CG. }
  assert (E : w_core w = w_core (final ext init ops)).
  { subst w. rewrite final_app, final_cons, final_nil. unfold after. cbn [step]. destruct (mk_asm _ _ _); reflexivity. }
  destruct (rest_dofs_spec (k_fem (w_core (final ext init ops))) (f_rest (k_fem (w_core (final ext init ops)))) G) as (l & Hl & _).
  { apply Wc. } { apply (wf_rest _ (cw_fem _ Wc)). }
  assert (A : exists a, mk_asm (k_fem (w_core (final ext init ops))) (dvals (k_cases (w_core (final ext init ops)))) (k_heap (w_core (final ext init ops))) = Some a
     /\ rest_dofs (a_model a) (f_rest (a_model a)) = Some (a_fixed a) /\ a_dof a = (Z.of_nat (size (a_model a)) - Z.of_nat (List.length (a_fixed a)))%Z).
  { unfold mk_asm. rewrite Hl. cbn [bindO]. eexists. split; [reflexivity|]. cbn [a_model a_fixed a_dof]. split; [exact Hl|].
    unfold size, node_count. rewrite Nat.mul_comm. reflexivity. }
  destruct A as (a & Ea & RD & DO). split.
  - unfold answer. cbn [step]. rewrite Ea. reflexivity.
  - exists a. rewrite E. pose proof (asm_of_model _ _ Ea) as [E1 E2]. split; [|split; [exact E1|split; [exact E2|split; [apply asm_cases; assumption|]]]].
    + subst w. rewrite final_app, final_cons, final_nil. unfold read_asb. rewrite step_asb, Ea. reflexivity.
    + split; [exact Wc|]. split; [exact Hc|]. split; [exact G|]. split; assumption.
Qed.

(** ** Equation numbers and restraint tables *)
Lemma rest_keys m rest l : rest_dofs m rest = Some l -> forall k, In k (dkeys rest) -> In k (dkeys (f_hnode m)).
Proof.
  unfold rest_dofs. intros H k Hk. apply bindO_some in H as (ll & H & _).
  unfold dkeys in Hk. apply in_map_iff in Hk as (kv & <- & Hkv).
  destruct (mapM_all _ _ _ H kv Hkv) as (b & Hb & _). apply bindO_some in Hb as (i & Hi & _).
  apply dget_in_keys. exists i. exact Hi.
Qed.

Definition table_ok (d : dict (list bool)) : Prop := NoDup (dkeys d) /\ forall k fl, In (k, fl) d -> List.length fl = 6%nat.

Lemma rest_dofs_sem m d l : good m -> table_ok d -> rest_dofs m d = Some l ->
  NoDup l /\ (forall q, In q l <-> restrained_in (RNames (dkeys (f_nodes m))) (RFlags d) q) /\ (forall q, In q l -> (q < size m)%nat).
Proof.
  intros G [ND L6] H. pose proof (rest_keys _ _ _ H) as HK.
  destruct (rest_dofs_spec m d G ND) as (l' & H' & NL & S).
  { intros k fl I. split; [|eapply L6; exact I]. destruct G as (W & _). rewrite <- (wf_hkeys _ W). apply HK.
    unfold dkeys. apply in_map_iff. exists (k, fl). auto. }
  rewrite H in H'. apply some_inj in H'. subst l'. split; [exact NL|].
  assert (S2 : forall q, In q l <-> restrained_in (RNames (dkeys (f_nodes m))) (RFlags d) q).
  { intros q. rewrite S. unfold restrained_in, flag, entry. split.
    - intros (k & i & j & E & Hj & -> & fl & Hf & HT). exists (dkeys (f_nodes m)), k, i, j.
      repeat split; auto. rewrite lookup_dget, Hf. exact HT.
    - intros (l0 & k & i & j & El & E & Hj & -> & HT). injection El as <-. exists k, i, j. repeat split; auto.
      rewrite lookup_dget in HT. destruct (dget k d) as [fl|]; [|discriminate]. eauto. }
  split; [exact S2|]. intros q Hq. apply S in Hq as (k & i & j & E & Hj & -> & _).
  apply nth_error_lt in E. unfold dkeys in E. rewrite map_length in E. unfold size. lia.
Qed.

Lemma rest_dofs_nil m : rest_dofs m [] = Some []. Proof. reflexivity. Qed.

(** the case table as stored with the assembly *)
Lemma sem_tables ext ops w a c lc : never_readds_nodes ext (ops ++ [OpAssemble]) -> w = final ext init (ops ++ [OpAssemble]) ->
  read_asb w = Some a -> dget c (a_cases a) = Some lc ->
  answer ext w OpNodeNames = RNames (dkeys (f_nodes (a_model a)))
  /\ answer ext w (OpNodeRestraints None) = RFlags (f_rest (a_model a))
  /\ answer ext w (OpNodeRestraints (Some c)) = RFlags (c_rest lc)
  /\ table_ok (f_rest (a_model a)) /\ table_ok (c_rest lc) /\ good (a_model a) /\ case_ok (a_heap a) c lc /\ heap_ok (a_heap a).
Proof.
  intros NR -> Ha Hc. destruct (assembled_now ext ops NR) as (_ & a' & Ha' & Em & Eh & Ec & Wc & Hh & G & _).
  rewrite Ha in Ha'. apply some_inj in Ha'. subst a'. unfold answer; cbn [step snd]. rewrite <- Em, <- Ec, Hc, <- Eh in *.
  assert (CO : case_ok (a_heap a) c lc).
  { rewrite Eh. apply (cw_cases _ Wc). apply dget_some_in. rewrite <- Ec. exact Hc. }
  split; [reflexivity|]. split; [reflexivity|]. split; [reflexivity|].
  split. { split; [apply (wf_rest_nodup _ (proj1 G))|]. intros k fl I. apply (wf_rest _ (proj1 G)) in I. apply I. }
  split. { split; [apply CO|]. intros k fl I. eapply co_rest; [exact CO|exact I]. }
  auto.
Qed.

Lemma flag_nil k j : flag (RFlags []) k j = false. Proof. reflexivity. Qed.

(** ** C20: the same table governs elimination and expansion *)
Lemma boundary_sem ext ops w a c l : never_readds_nodes ext (ops ++ [OpAssemble]) -> w = final ext init (ops ++ [OpAssemble]) ->
  read_asb w = Some a -> boundary_dofs a c = Some l ->
  NoDup l /\ (forall q, In q l <-> restrained_for ext w c q) /\ (forall q, In q l -> (q < size (a_model a))%nat).
Proof.
  intros NR Hw Ha H. unfold boundary_dofs in H. apply bindO_some in H as (lc & Hc & H).
  destruct (sem_tables _ _ _ _ _ _ NR Hw Ha Hc) as (A1 & A2 & A3 & T1 & T2 & G & _).
  unfold restrained_for, governing. rewrite A1, A2, A3.
  destruct (c_rest lc) as [|e r] eqn:E.
  - apply some_inj in H. subst l. apply rest_dofs_sem; auto.
    destruct (assembled_now ext ops NR) as (_ & a' & Ha' & _ & _ & _ & _ & _ & _ & RD & _).
    rewrite <- Hw, Ha in Ha'. apply some_inj in Ha'. subst a'. exact RD.
  - apply rest_dofs_sem; auto.
Qed.

Lemma expansion_sem ext ops w a c l : never_readds_nodes ext (ops ++ [OpAssemble]) -> w = final ext init (ops ++ [OpAssemble]) ->
  read_asb w = Some a -> expansion_dofs a c = Some l ->
  NoDup l /\ (forall q, In q l -> (q < size (a_model a))%nat)
  /\ (usable (answer ext w (OpNodeRestraints (Some c))) -> forall q, In q l <-> restrained_for ext w c q)
  /\ (~ usable (answer ext w (OpNodeRestraints (Some c))) -> forall q, In q l <-> restrained_globally ext w q).
Proof.
  intros NR Hw Ha H. unfold expansion_dofs in H. apply bindO_some in H as (r & Hr & H).
  unfold restraintDOF in Hr. apply bindO_some in Hr as (lc & Hc & Hr).
  destruct (sem_tables _ _ _ _ _ _ NR Hw Ha Hc) as (A1 & A2 & A3 & T1 & T2 & G & _).
  destruct (rest_dofs_sem _ _ _ G T2 Hr) as (N2 & S2 & B2).
  unfold restrained_for, restrained_globally, governing. rewrite A1, A2, A3.
  destruct r as [|q0 r].
  - unfold restraintDOF in H. destruct (rest_dofs_sem _ _ _ G T1 H) as (N1 & S1 & B1).
    split; [exact N1|]. split; [exact B1|]. split; [|intros _; exact S1].
    intros U. destruct U as [U|(k & j & Hj & HF)].
    + injection U as U. rewrite U. exact S1.
    + exfalso.
      assert (In k (dkeys (c_rest lc))) as HK.
      { unfold flag, entry in HF. rewrite lookup_dget in HF. destruct (dget k (c_rest lc)) eqn:E; [|discriminate].
        apply dget_in_keys. eauto. }
      pose proof (rest_keys _ _ _ Hr k HK) as HN. rewrite (wf_hkeys _ (proj1 G)) in HN.
      apply In_nth_error in HN as [i Hi]. apply (proj2 (S2 (6 * i + j)%nat)).
      exists (dkeys (f_nodes (a_model a))), k, i, j. auto.
  - apply some_inj in H. subst l. split; [exact N2|]. split; [exact B2|].
    assert (NE : c_rest lc <> []) by (intros Z; rewrite Z in Hr; discriminate).
    split.
    + intros _. destruct (c_rest lc); [congruence|exact S2].
    + intros NU. exfalso. apply NU. right.
      destruct (proj1 (S2 q0) (or_introl eq_refl)) as (l0 & k & i & j & _ & _ & Hj & _ & HF). eauto.
Qed.

Lemma c20_partial ext ops c : never_readds_nodes ext (ops ++ [OpAssemble]) ->
  let w := final ext init (ops ++ [OpAssemble]) in
  (forall a l, read_asb w = Some a -> boundary_dofs a c = Some l -> forall q, In q l <-> restrained_for ext w c q)
  /\ (usable (answer ext w (OpNodeRestraints (Some c))) ->
      forall a l, read_asb w = Some a -> expansion_dofs a c = Some l -> forall q, In q l <-> restrained_for ext w c q)
  /\ (~ usable (answer ext w (OpNodeRestraints (Some c))) ->
      forall a l, read_asb w = Some a -> expansion_dofs a c = Some l -> forall q, In q l <-> restrained_globally ext w q).
Proof.
  intros NR w. split; [|split].
  - intros a l Ha H. apply (boundary_sem ext ops w a c l NR eq_refl Ha H).
  - intros U a l Ha H. destruct (expansion_sem ext ops w a c l NR eq_refl Ha H) as (_ & _ & S & _). auto.
  - intros U a l Ha H. destruct (expansion_sem ext ops w a c l NR eq_refl Ha H) as (_ & _ & _ & S). auto.
Qed.

(** ** C15 *)
Lemma c15_count ext ops F : never_readds_nodes ext (ops ++ [OpAssemble]) ->
  let w := final ext init (ops ++ [OpAssemble]) in
  forall a m, read_asb w = Some a -> assembled_model w = Some m ->
  lists_free (size m) (restrained_globally ext w) F ->
  a_dof a = Z.of_nat (List.length F)
  /\ forall R, NoDup R -> (forall q, In q R <-> restrained_globally ext w q) ->
     a_dof a = (6 * Z.of_nat (List.length (f_nodes m)) - Z.of_nat (List.length R))%Z.
Proof.
  intros NR w a m Ha Hm HF. unfold assembled_model in Hm. rewrite Ha in Hm. cbn in Hm. apply some_inj in Hm. subst m.
  destruct (assembled_now ext ops NR) as (_ & a' & Ha' & Em & _ & _ & Wc & _ & G & RD & DO). fold w in Ha', Em, G, Wc.
  rewrite Ha in Ha'. apply some_inj in Ha'. subst a'. rewrite <- Em in G.
  assert (T : table_ok (f_rest (a_model a))).
  { split; [apply (wf_rest_nodup _ (proj1 G))|]. intros k fl I. apply (wf_rest _ (proj1 G)) in I. apply I. }
  destruct (rest_dofs_sem _ _ _ G T RD) as (ND & S & B).
  assert (S' : forall q, In q (a_fixed a) <-> restrained_globally ext w q).
  { intros q. rewrite S. unfold restrained_globally, answer; cbn [step snd]. rewrite <- Em. reflexivity. }
  split.
  - assert (F = free (size (a_model a)) (a_fixed a)) as ->.
    { apply lists_free_unique. eapply lists_free_ext; [|exact HF]. intros q _. symmetry. apply S'. }
    rewrite free_length by assumption. rewrite DO.
    assert (List.length (a_fixed a) <= size (a_model a))%nat.
    { rewrite <- (seq_length (size (a_model a)) 0). apply NoDup_incl_length; [exact ND|]. intros q Hq. apply in_seq. specialize (B q Hq). lia. }
    lia.
  - intros R NDR HR. assert (List.length R = List.length (a_fixed a)) as ->.
    { apply Permutation_length, NoDup_Permutation; auto. intros q. rewrite HR, S'. reflexivity. }
    rewrite DO. unfold size. lia.
Qed.

(** ** C19 *)
Lemma rsum_free n idx (g : nat -> R) : (forall q, In q idx -> g q = 0) ->
  rsum n g = rsum (List.length (free n idx)) (fun j => g (nth j (free n idx) O)).
Proof.
  intros H. rewrite <- lsum_seq. rewrite (lsum_filter (fun i => negb (memb i idx)) g).
  2:{ intros a _ E. apply H. apply memb_spec. destruct (memb a idx); [reflexivity|discriminate]. }
  fold (free n idx). symmetry. rewrite <- lsum_seq.
  assert (E : map (fun j => nth j (free n idx) O) (seq 0 (List.length (free n idx))) = free n idx).
  { generalize (free n idx). intros l. apply (nth_ext _ _ O O); [rewrite map_length, seq_length; reflexivity|].
    intros i Hi. rewrite map_length, seq_length in Hi.
    rewrite (nth_indep _ O (nth O l O)) by (rewrite map_length, seq_length; exact Hi).
    rewrite (map_nth (fun j => nth j l O)), seq_nth by exact Hi. reflexivity. }
  rewrite <- (map_map (fun j => nth j (free n idx) O) g), E. reflexivity.
Qed.

Lemma free_same n l l' : (forall q, In q l <-> In q l') -> free n l = free n l'.
Proof.
  intros H. unfold free. apply filter_ext. intros q. f_equal.
  destruct (memb q l) eqn:E, (memb q l') eqn:E'; auto.
  - apply memb_spec in E. apply memb_false in E'. exfalso. apply E', H, E.
  - apply memb_spec in E'. apply memb_false in E. exfalso. apply E, H, E'.
Qed.

Lemma solve_inv ext ops c : never_readds_nodes ext (ops ++ [OpAssemble]) ->
  let w := final ext init (ops ++ [OpAssemble]) in
  answer ext w (OpSolveStatic c) = RBool true ->
  exists a d, read_asb w = Some a /\ solve_linear ext a c = Some d /\ read_disp (after ext w (OpSolveStatic c)) c = Some d
    /\ good (a_model a).
Proof.
  intros NR w H. destruct (assembled_now ext ops NR) as (_ & a & Ha & Em & _ & _ & _ & _ & G & _). fold w in Ha, Em, G.
  exists a. unfold answer in H. cbn [step] in H. unfold do_solve_static in H. rewrite Ha in H.
  destruct (assemble_K _ _) eqn:EK; [|discriminate]. destruct (solve_linear ext a c) as [d|] eqn:ES; [|discriminate].
  exists d. split; [exact Ha|]. split; [reflexivity|]. split; [|rewrite Em; exact G].
  unfold read_disp. rewrite step_disp, String.eqb_refl, Ha. cbn [bindO]. rewrite ES. reflexivity.
Qed.

Lemma c19_equilibrium_partial ext ops c : never_readds_nodes ext (ops ++ [OpAssemble]) ->
  let w := final ext init (ops ++ [OpAssemble]) in
  answer ext w (OpSolveStatic c) = RBool true -> exact_solver ext ->
  usable (answer ext w (OpNodeRestraints (Some c))) ->
  exists m K f, assembled_model w = Some m /\ stiffness ext w = Some K /\ load_vector w c = Some f
  /\ (forall q, restrained_for ext w c q -> stored (after ext w (OpSolveStatic c)) c q = 0)
  /\ (f_shells m = [] \/ symmetric_kernels (x_ker ext) ->
      forall q, (q < size m)%nat -> ~ restrained_for ext w c q ->
      row (size m) K (stored (after ext w (OpSolveStatic c)) c) q = coo_get f q 0).
Proof.
  intros NR w HA EX US. destruct (solve_inv ext ops c NR HA) as (a & d & Ha & HS & HD & G). fold w in Ha, HD.
  unfold solve_linear in HS. apply bindO_some in HS as ([[N A] b] & HR & HS).
  apply bindO_some in HS as (delta0 & HX & HS). apply bindO_some in HS as (restr & HE & HS).
  unfold reduced_system in HR. apply bindO_some in HR as (K & HK & HR). apply bindO_some in HR as (f & HF & HR).
  apply bindO_some in HR as (fixed & HB & HR). apply bindO_some in HR as ([N' A'] & HM & HR). cbn [fst snd] in HR.
  destruct (Nat.eqb _ N') eqn:EN; [|discriminate]. injection HR as <- <- <-.
  destruct (boundary_sem ext ops w a c fixed NR eq_refl Ha HB) as (ND & S & B).
  destruct (expansion_sem ext ops w a c restr NR eq_refl Ha HE) as (ND' & B' & S' & _). specialize (S' US).
  set (m := a_model a) in *.
  assert (SZ : (node_count m * 6)%nat = size m) by (unfold size, node_count; lia).
  rewrite SZ in *. set (n := size m) in *.
  assert (W : fem_wf m) by apply G.
  destruct (assemble_K_bil (x_ker ext) a K (fun _ => 0) (fun _ => 0) W HK) as (_ & RK). fold m n in RK.
  destruct (drop_matrix_free n K fixed ND B RK) as (A0 & HM0 & _ & EA). rewrite HM in HM0. injection HM0 as -> ->.
  set (F := free n fixed) in *.
  destruct (EX _ _ _ _ HX) as (LD & EQ).
  assert (FF : free n restr = F) by (apply free_same; intros q; rewrite S, S'; reflexivity).
  destruct (expand_sort n restr delta0 ND' B') as (d' & HE' & LE & ZE & ME); [rewrite FF; exact LD|].
  rewrite HS in HE'. apply some_inj in HE'. subst d'. rewrite FF in ME.
  assert (ST : forall q, stored (after ext w (OpSolveStatic c)) c q = nth q d 0) by (intros; unfold stored; rewrite HD; reflexivity).
  exists m, K, f. split; [unfold assembled_model; rewrite Ha; reflexivity|].
  split; [unfold stiffness; rewrite Ha; exact HK|]. split; [unfold load_vector; rewrite Ha; exact HF|]. split.
  - intros q Hq. rewrite ST. apply ZE, S', Hq.
  - intros HSY q Hq NQ. unfold row. 
    rewrite (rsum_ext n _ (fun p => coo_get K q p * nth p d 0)) by (intros; rewrite ST; reflexivity).
    assert (IQ : In q F) by (apply free_in; split; [exact Hq|rewrite S; exact NQ]).
    destruct (In_nth F q O IQ) as (i & Hi & Ei).
    rewrite (rsum_free n fixed); [|intros p Hp; rewrite (ZE p) by (apply S', S, Hp); ring]. fold F.
    specialize (EQ i Hi). destruct (c17_vector n f fixed F (free_lists n fixed)) as (_ & _ & DV). rewrite DV, Ei in EQ by exact Hi.
    rewrite <- EQ. apply rsum_ext. intros j Hj.
    assert (DJ : nth (nth j F O) d 0 = nth j delta0 0) by (rewrite <- ME, nth_map_lt by exact Hj; reflexivity).
    rewrite DJ, symmetrise_get, !EA, Ei by assumption.
    rewrite (c22_symmetric ext (ops ++ [OpAssemble]) w m K eq_refl) with (p := nth j F O) (q := q).
    + field.
    + unfold assembled_model; rewrite Ha; reflexivity.
    + unfold stiffness; rewrite Ha; exact HK.
    + exact HSY.
Qed.

(** ** C62: a proper case is solved *)
Lemma c62_solves ext ops c d : never_readds_nodes ext (ops ++ [OpAssemble]) ->
  let w := final ext init (ops ++ [OpAssemble]) in
  (forall m k b, assembled_model w = Some m -> In (k, b) (f_beams m) -> 1 + poisson (b_prop b) <> 0) ->
  answer ext w (OpNodeRestraints (Some c)) = RFlags d -> names_nodes ext w (RFlags d) -> usable (RFlags d) ->
  answering_solver ext -> answer ext w (OpSolveStatic c) = RBool true.
Proof.
  intros NR w HP HC HN US AS.
  destruct (assembled_now ext ops NR) as (_ & a & Ha & Em & Eh & Ec & Wc & Hh & G & RD & _). fold w in Ha, Em, Eh, Ec, Wc, Hh, G.
  assert (exists lc, dget c (a_cases a) = Some lc /\ c_rest lc = d) as (lc & Hlc & Ed).
  { unfold answer in HC; cbn [step] in HC. unfold ret in HC; cbn [snd] in HC. rewrite <- Ec in HC.
    destruct (dget c (a_cases a)) as [lc|]; cbn [bindO] in HC; [|discriminate]. injection HC as HC. eauto. }
  assert (HPm : forall k b, In (k, b) (f_beams (a_model a)) -> 1 + bp_mu (b_prop b) <> 0).
  { intros k b I. specialize (HP (a_model a) k b). unfold assembled_model in HP. rewrite Ha in HP. specialize (HP eq_refl I).
    destruct (b_prop b); exact HP. }
  destruct (sem_tables ext ops w a c lc NR eq_refl Ha Hlc) as (A1 & A2 & A3 & T1 & T2 & Ga & CO & HO).
  destruct (assemble_K_total (x_ker ext) a Ga HPm) as (K & HK).
  destruct (assemble_f_total a c lc Ga Hlc CO HO HPm) as (f & HF).
  assert (exists r, rest_dofs (a_model a) (c_rest lc) = Some r) as (r & Hr).
  { destruct (rest_dofs_spec (a_model a) (c_rest lc) Ga (proj1 T2)) as (r & Hr & _); [|eauto].
    intros k fl I. split; [|eapply T2; exact I].
    destruct (HN d k eq_refl) as (l & Hl & Hin). { subst d. unfold dkeys. apply in_map_iff. exists (k, fl). auto. }
    rewrite A1 in Hl. injection Hl as <-. exact Hin. }
  assert (exists fixed, boundary_dofs a c = Some fixed) as (fixed & HB).
  { unfold boundary_dofs. rewrite Hlc. cbn [bindO]. destruct (c_rest lc); eauto. }
  assert (exists restr, expansion_dofs a c = Some restr) as (restr & HE).
  { unfold expansion_dofs, restraintDOF. rewrite Hlc. cbn [bindO]. rewrite Hr. cbn [bindO].
    destruct r; eauto. }
  destruct (boundary_sem ext ops w a c fixed NR eq_refl Ha HB) as (ND & S & B).
  destruct (expansion_sem ext ops w a c restr NR eq_refl Ha HE) as (ND' & B' & S' & _). rewrite HC in S'. specialize (S' US).
  assert (SZ : (node_count (a_model a) * 6)%nat = size (a_model a)) by (unfold size, node_count; lia).
  destruct (assemble_K_bil (x_ker ext) a K (fun _ => 0) (fun _ => 0) (proj1 Ga) HK) as (_ & RK).
  destruct (drop_matrix_free _ K fixed ND B RK) as (A0 & HM0 & _ & EA).
  destruct (c17_vector (size (a_model a)) f fixed _ (free_lists _ fixed)) as (_ & LV & _).
  unfold answer. cbn [step]. unfold do_solve_static. rewrite Ha, HK. unfold solve_linear, reduced_system.
  rewrite HK. cbn [bindO]. rewrite HF. cbn [bindO]. rewrite HB. cbn [bindO]. rewrite SZ, HM0. cbn [bindO fst snd].
  rewrite LV, Nat.eqb_refl. cbn [bindO].
  destruct (AS (List.length (free (size (a_model a)) fixed)) (symmetrise A0) (drop_vector (size (a_model a)) f fixed)) as (x & -> & LX).
  cbn [bindO]. rewrite HE. cbn [bindO].
  destruct (expand_sort (size (a_model a)) restr x ND' B') as (dd & -> & _); [|reflexivity].
  rewrite LX. f_equal. apply free_same. intros q. rewrite S, S'. reflexivity.
Qed.
