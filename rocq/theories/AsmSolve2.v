(** Proofs about the second-order solution and about results kept after edits (C57, C59). *)
From Coq Require Import Reals Lra Lia List String Arith Bool ZArith Sorting.Permutation Sorting.Sorted.
From Verif Require Import Base BaseFacts Csys Sections Element Load FeModel Assembly Solver Post Api
  SpecApi ApiFacts WfFacts HidFacts ApiProofs1 LoadFacts SpecElim ElimFacts SpecGeom CsysFacts SpecBeam BeamFacts AsmFacts SpecAsm AsmProofs
  AsmTotal AsmProofs2 SpecLoad LoadProofs SpecSolve AsmSolve Demo SolveDemo.
Import ListNotations.
Local Open Scope R_scope.

Lemma forallb_filter_id {A} (f : A -> bool) l : forallb f l = true -> filter f l = l.
Proof.
  induction l as [|x l IH]; intros H; [reflexivity|]. cbn [forallb filter] in *. apply andb_prop in H as [H1 H2].
  rewrite H1, IH by exact H2. reflexivity.
Qed.

(** ** Inserting zeros at increasing positions *)
Lemma insert_at_ok i v l : (i <= List.length l)%nat -> insert_at i v l = Some (firstn i l ++ v :: skipn i l).
Proof.
  revert l; induction i as [|i IH]; intros [|x l] H; cbn [insert_at firstn skipn app List.length] in *; try reflexivity; [lia|].
  rewrite IH by lia. reflexivity.
Qed.
Lemma insert_zeros_snoc idx i d : insert_zeros (idx ++ [i]) d = bindO (insert_zeros idx d) (insert_at i 0).
Proof. unfold insert_zeros. rewrite fold_left_app. reflexivity. Qed.

Lemma sorted_snoc idx i : StronglySorted lt (idx ++ [i]) -> StronglySorted lt idx /\ forall x, In x idx -> (x < i)%nat.
Proof.
  induction idx as [|y idx IH]; cbn [app]; intros H; [split; [constructor|intros _ []]|].
  inversion H as [|? ? H1 H2]; subst. destruct (IH H1) as [H3 H4]. rewrite Forall_forall in H2. split.
  - constructor; [exact H3|]. apply Forall_forall. intros x Hx. apply H2. apply in_or_app. auto.
  - intros x [<-|Hx]; [apply H2; apply in_or_app; right; left; reflexivity|auto].
Qed.

Lemma free_snoc n idx i : (i < S n)%nat -> (forall x, In x idx -> (x < i)%nat) ->
  exists F, free n idx = F ++ seq i (n - i) /\ free (S n) (idx ++ [i]) = F ++ seq (S i) (n - i) /\ forall q, In q F -> (q < i)%nat.
Proof.
  intros Hi HB. exists (free i idx). unfold free.
  assert (E : seq 0 n = seq 0 i ++ seq i (n - i)) by (rewrite <- seq_app; f_equal; lia).
  assert (E' : seq 0 (S n) = seq 0 i ++ i :: seq (S i) (n - i)) by (change (i :: seq (S i) (n - i)) with (seq (0 + i) (S (n - i))); rewrite <- (seq_app i (S (n - i)) 0); f_equal; lia).
  rewrite E, E', !filter_app. cbn [filter].
  assert (M : memb i (idx ++ [i]) = true) by (apply memb_spec, in_or_app; right; left; reflexivity). rewrite M. cbn [negb].
  split; [|split].
  - f_equal. apply forallb_filter_id. apply forallb_forall. intros q Hq. apply in_seq in Hq.
    rewrite (proj2 (memb_false q idx)); [reflexivity|]. intros H. apply HB in H. lia.
  - f_equal.
    + apply filter_ext_in. intros q Hq. apply in_seq in Hq. f_equal.
      destruct (memb q idx) eqn:E1, (memb q (idx ++ [i])) eqn:E2; auto.
      * apply memb_spec in E1. apply memb_false in E2. exfalso. apply E2, in_or_app. auto.
      * apply memb_spec in E2. apply memb_false in E1. apply in_app_iff in E2 as [H|[H|[]]]; [tauto|lia].
    + apply forallb_filter_id. apply forallb_forall. intros q Hq. apply in_seq in Hq.
      rewrite (proj2 (memb_false q (idx ++ [i]))); [reflexivity|]. intros H. apply in_app_iff in H as [H|[H|[]]]; [apply HB in H; lia|lia].
  - intros q Hq. apply filter_In in Hq as [Hq _]. apply in_seq in Hq. lia.
Qed.

Lemma insert_sorted_ok idx : forall n delta, StronglySorted lt idx -> (forall i, In i idx -> (i < n)%nat) ->
  List.length delta = List.length (free n idx) ->
  exists d, insert_zeros idx delta = Some d /\ List.length d = n
    /\ (forall q, In q idx -> nth q d 0 = 0) /\ map (fun q => nth q d 0) (free n idx) = delta.
Proof.
  induction idx as [|i idx IH] using rev_ind; intros n delta SS HB HL.
  - exists delta. assert (E : free n [] = seq 0 n) by (unfold free; apply forallb_filter_id, forallb_forall; reflexivity).
    rewrite E, seq_length in HL. split; [reflexivity|]. split; [exact HL|]. split; [intros _ []|].
    rewrite E. apply (nth_ext _ _ 0 0); [rewrite map_length, seq_length; auto|].
    intros k Hk. rewrite map_length, seq_length in Hk. rewrite nth_map_lt by (rewrite seq_length; exact Hk). rewrite seq_nth by exact Hk. reflexivity.
  - destruct (sorted_snoc _ _ SS) as [S1 LT]. destruct n as [|n]; [exfalso; specialize (HB i ltac:(apply in_or_app; right; left; reflexivity)); lia|].
    assert (Hi : (i < S n)%nat) by (apply HB, in_or_app; right; left; reflexivity).
    destruct (free_snoc n idx i Hi LT) as (F & E1 & E2 & LF).
    destruct (IH n delta S1) as (d & D1 & D2 & D3 & D4).
    { intros x Hx. apply LT in Hx. lia. }
    { rewrite HL, E1, E2, !app_length, !seq_length. reflexivity. }
    rewrite insert_zeros_snoc, D1. cbn [bindO]. rewrite insert_at_ok by lia.
    exists (firstn i d ++ 0 :: skipn i d). split; [reflexivity|].
    assert (LFi : List.length (firstn i d) = i) by (rewrite firstn_length; lia).
    split; [rewrite app_length; cbn [List.length]; rewrite skipn_length, LFi; lia|].
    assert (LO : forall q, (q < i)%nat -> nth q (firstn i d ++ 0 :: skipn i d) 0 = nth q d 0).
    { intros q Hq. rewrite app_nth1 by lia. rewrite <- (firstn_skipn i d) at 2. rewrite app_nth1 by lia. reflexivity. }
    assert (HI : forall q, (i <= q)%nat -> nth (S q) (firstn i d ++ 0 :: skipn i d) 0 = nth q d 0).
    { intros q Hq. rewrite app_nth2 by lia. rewrite LFi. replace (S q - i)%nat with (S (q - i)) by lia. cbn [nth].
      rewrite <- (firstn_skipn i d) at 2. rewrite app_nth2 by lia. rewrite LFi. reflexivity. }
    split.
    + intros q Hq. apply in_app_iff in Hq as [Hq|[<-|[]]].
      * rewrite LO by (apply LT, Hq). apply D3, Hq.
      * rewrite app_nth2 by lia. rewrite LFi, Nat.sub_diag. reflexivity.
    + rewrite <- D4, E1, E2, !map_app. f_equal.
      * apply map_ext_in. intros q Hq. apply LO, LF, Hq.
      * rewrite <- seq_shift, map_map. apply map_ext_in. intros q Hq. apply HI. apply in_seq in Hq. lia.
Qed.

(** ** A table in node order gives increasing equation numbers *)
Lemma map_shift_sorted c l : StronglySorted lt l -> StronglySorted lt (map (fun j => (c + j)%nat) l).
Proof.
  induction 1 as [|x l H IH F]; cbn [map]; constructor; [exact IH|].
  rewrite Forall_forall in *. intros y Hy. apply in_map_iff in Hy as (z & <- & Hz). apply F in Hz. lia.
Qed.
Lemma node_dofs_sorted i fl : StronglySorted lt (node_dofs i fl).
Proof. unfold node_dofs. apply map_shift_sorted, filter_strict, seq_strict. Qed.
Lemma sorted_app l l' : StronglySorted lt l -> StronglySorted lt l' -> (forall x y, In x l -> In y l' -> (x < y)%nat) -> StronglySorted lt (l ++ l').
Proof.
  induction 1 as [|x l H IH F]; cbn [app]; intros S' L; [exact S'|]. constructor.
  - apply IH; [exact S'|]. intros a b Ha Hb. apply L; [right; exact Ha|exact Hb].
  - apply Forall_forall. intros y Hy. apply in_app_iff in Hy as [Hy|Hy].
    + rewrite Forall_forall in F. apply F, Hy.
    + apply L; [left; reflexivity|exact Hy].
Qed.

Lemma rest_dofs_sorted m d l positions : good m -> rest_dofs m d = Some l -> StronglySorted lt positions ->
  map (nth_error (dkeys (f_nodes m))) positions = map (fun kv => Some (fst kv)) d ->
  StronglySorted lt l /\ forall q, In q l -> In (q / 6)%nat positions.
Proof.
  intros (W & HP & _). unfold rest_dofs. revert l positions. induction d as [|[k fl] d IH]; intros l positions H SS E.
  - cbn [mapM bindO List.concat] in H. apply some_inj in H. subst l. split; [constructor|intros _ []].
  - destruct positions as [|i positions]; [discriminate|]. cbn [map fst] in E. injection E as Ei E.
    cbn [mapM fst snd] in H. unfold model_node_hid in H at 1. rewrite (HP _ _ Ei) in H. cbn [bindO] in H.
    apply bindO_some in H as (ll & H & HC). apply some_inj in HC. subst l.
    apply bindO_some in H as (ll' & H & HC). apply some_inj in HC. subst ll. cbn [List.concat].
    inversion SS as [|? ? S1 S2]; subst. destruct (IH (List.concat ll') positions) as [I1 I2]; [rewrite H; reflexivity|exact S1|exact E|].
    rewrite Forall_forall in S2. split.
    + apply sorted_app; [apply node_dofs_sorted|exact I1|]. intros x y Hx Hy. apply node_dofs_range in Hx. apply I2, S2 in Hy.
      pose proof (Nat.div_mod x 6 ltac:(lia)). pose proof (Nat.div_mod y 6 ltac:(lia)). pose proof (Nat.mod_upper_bound x 6 ltac:(lia)). lia.
    + intros q Hq. apply in_app_iff in Hq as [Hq|Hq]; [left; symmetry; eapply node_dofs_range, Hq|right; auto].
Qed.

Lemma expansion_sorted ext ops w a c l : never_readds_nodes ext (ops ++ [OpAssemble]) -> w = final ext init (ops ++ [OpAssemble]) ->
  read_asb w = Some a -> expansion_dofs a c = Some l -> usable (answer ext w (OpNodeRestraints (Some c))) ->
  in_node_order (answer ext w OpNodeNames) (governing ext w c) -> StronglySorted lt l.
Proof.
  intros NR Hw Ha H U (nm & d & pos & En & Ed & SS & EM).
  pose proof H as H0. unfold expansion_dofs in H. apply bindO_some in H as (r & Hr & H).
  pose proof Hr as Hr0. unfold restraintDOF in Hr. apply bindO_some in Hr as (lc & Hc & Hr).
  destruct (sem_tables _ _ _ _ _ _ NR Hw Ha Hc) as (A1 & A2 & A3 & T1 & T2 & G & _).
  unfold governing in Ed. rewrite A1 in En. injection En as <-. rewrite A3, A2 in Ed. rewrite A3 in U.
  destruct r as [|q0 r].
  - unfold restraintDOF in H. destruct U as [U|(k & j & Hj & HF)].
    + injection U as U. rewrite U in Ed. injection Ed as <-. apply (rest_dofs_sorted _ _ _ _ G H SS EM).
    + exfalso. destruct (rest_dofs_sem _ _ _ G T2 Hr) as (_ & S2 & _).
      assert (In k (dkeys (c_rest lc))) as HK.
      { unfold flag, entry in HF. rewrite lookup_dget in HF. destruct (dget k (c_rest lc)) eqn:E; [|discriminate]. apply dget_in_keys. eauto. }
      pose proof (rest_keys _ _ _ Hr k HK) as HN. rewrite (wf_hkeys _ (proj1 G)) in HN.
      apply In_nth_error in HN as [i Hi]. apply (proj2 (S2 (6 * i + j)%nat)).
      exists (dkeys (f_nodes (a_model a))), k, i, j. auto.
  - apply some_inj in H. subst l. destruct (c_rest lc) as [|e rr] eqn:Ec; [discriminate Hr|].
    injection Ed as <-. apply (rest_dofs_sorted _ _ _ _ G Hr SS EM).
Qed.

(** ** C57 *)
Lemma c57_sorted_partial ext ops c : never_readds_nodes ext (ops ++ [OpAssemble]) ->
  let w := final ext init (ops ++ [OpAssemble]) in
  usable (answer ext w (OpNodeRestraints (Some c))) ->
  in_node_order (answer ext w OpNodeNames) (governing ext w c) ->
  forall a N A b x F restr, read_asb w = Some a -> reduced_system (x_ker ext) a c = Some (N, A, b) ->
  expansion_dofs a c = Some restr ->
  x_cg ext N A b = Some x -> List.length x = N -> lists_free (size (a_model a)) (restrained_for ext w c) F ->
  exists d, solve_2nd_order ext a c = Some d /\ List.length d = size (a_model a)
    /\ (forall q, restrained_for ext w c q -> nth q d 0 = 0) /\ map (fun q => nth q d 0) F = x.
Proof.
  intros NR w US ORD a N A b x F restr Ha HR HE HX LX HF.
  destruct (expansion_sem ext ops w a c restr NR eq_refl Ha HE) as (ND' & B' & S' & _). specialize (S' US).
  pose proof (expansion_sorted ext ops w a c restr NR eq_refl Ha HE US ORD) as SS.
  assert (FE : F = free (size (a_model a)) restr).
  { apply lists_free_unique. eapply lists_free_ext; [|exact HF]. intros q _. symmetry. apply S'. }
  assert (LN : N = List.length F).
  { pose proof HR as HR'. unfold reduced_system in HR'. apply bindO_some in HR' as (K & HK & HR'). apply bindO_some in HR' as (f & Hf & HR').
    apply bindO_some in HR' as (fixed & HB & HR'). apply bindO_some in HR' as ([N' A'] & HM & HR'). cbn [fst snd] in HR'.
    destruct (Nat.eqb _ N') eqn:EN; [|discriminate]. injection HR' as <- <- <-.
    apply Nat.eqb_eq in EN. rewrite <- EN.
    destruct (boundary_sem ext ops w a c fixed NR eq_refl Ha HB) as (_ & S & _).
    replace (node_count (a_model a) * 6)%nat with (size (a_model a)) by (unfold size, node_count; lia).
    destruct (c17_vector (size (a_model a)) f fixed _ (free_lists _ fixed)) as (_ & LV & _). rewrite LV, FE. f_equal.
    apply free_same. intros q. rewrite S, S'. reflexivity. }
  destruct (insert_sorted_ok restr (size (a_model a)) x SS B') as (d & D1 & D2 & D3 & D4); [rewrite LX, LN, FE; reflexivity|].
  exists d. split.
  - unfold solve_2nd_order. rewrite HR. cbn [bindO]. rewrite HX. cbn [bindO]. rewrite HE. cbn [bindO]. rewrite D1. cbn [bindO].
    replace (node_count (a_model a) * 6)%nat with (size (a_model a)) by (unfold size, node_count; lia). rewrite D2, Nat.eqb_refl. reflexivity.
  - split; [exact D2|]. split; [|rewrite FE; exact D4]. intros q Hq. apply D3, S', Hq.
Qed.

(** ** C57: restraints entered in another order *)
Local Open Scope string_scope.
Local Open Scope list_scope.
Local Open Scope R_scope.
Definition turned_model : list op :=
  [OpAddNode "O" 5 0 0; OpAddNode "A" 0 0 0; OpAddNode "B" 1 0 0; OpAddSimpleBeam "b" "A" "B" 1 0 1 1 1 1 1;
   OpSetRestraint "A" all_fixed; OpSetRestraint "O" all_fixed].
Definition turned : list op := (turned_model ++ demo_loads) ++ [OpAssemble].
Definition nodeO := node_at "O" 5 0 0.
Definition turned_fem : fem :=
  Fem [("O", nodeO); ("A", nodeA); ("B", nodeB)] [("A", list6 all_fixed); ("O", list6 all_fixed)] [] [] [] [("b", demo_beam)] []
      [("O", 0%nat); ("A", 1%nat); ("B", 2%nat)] [("b", 0%nat)] [].
Definition turned_asm : asm := Asm turned_fem [("C", demo_case)] [demo_pat] 6%Z [6;7;8;9;10;11;0;1;2;3;4;5]%nat.
Definition turned_world : world := World (Core turned_fem [("P", 0%nat)] [demo_pat] [("C", demo_case)]) [(asb_file, FAsb turned_asm)].

Lemma step_ab ext w : dget "A" (f_nodes (k_fem (w_core w))) = Some nodeA -> dget "B" (f_nodes (k_fem (w_core w))) = Some nodeB ->
  step ext w (OpAddSimpleBeam "b" "A" "B" 1 0 1 1 1 1 1) =
  (with_fem_w w (let m := k_fem (w_core w) in Fem (f_nodes m) (f_rest m) (f_mats m) (f_bsecs m) (f_ssecs m) (dset "b" demo_beam (f_beams m)) (f_shells m)
      (f_hnode m) (dset "b" (List.length (f_beams m)) (f_hbeam m)) (f_hshell m)), RBool true).
Proof.
  intros H1 H2. cbn [step]. unfold model_add_simple_beam. rewrite H1, H2. cbn [bindO]. unfold model_put_beam. rewrite demo_beam_eq. reflexivity.
Qed.

Lemma turned_final ext : final ext init turned = turned_world.
Proof.
  unfold turned. rewrite <- app_assoc, final_app.
  replace (final ext init turned_model) with (World (Core turned_fem [] [] []) []).
  - reflexivity.
  - unfold final, turned_model. cbn [run]. rewrite !step_add_node.
    match goal with |- context [step ext ?w (OpAddSimpleBeam _ _ _ _ _ _ _ _ _ _)] =>
      rewrite (step_ab ext w) by reflexivity end. cbn. reflexivity.
Qed.
Lemma turned_fresh ext : never_readds_nodes ext turned.
Proof.
  unfold never_readds_nodes, turned, turned_model, demo_loads. cbn [app guarded fresh_node].
  split; [exists []; split; [reflexivity|simpl; tauto]|].
  split; [exists ["O"]; split; [|simpl; intros [H|[]]; discriminate]; unfold answer, after; rewrite step_add_node; reflexivity|].
  split; [|cbn; tauto].
  exists ["O"; "A"]; split; [|simpl; intros [H|[H|[]]]; discriminate].
  unfold answer, after. rewrite !step_add_node. reflexivity.
Qed.

Lemma turned_solve : solve_2nd_order tip_solver turned_asm "C" = Some [0;0;0;0;0;0; 2;0;0;0;0;0; 0;0;0;0;0;0].
Proof.
  pose proof (turned_fresh tip_solver) as NR. pose proof (turned_final tip_solver) as DF.
  assert (Ha : read_asb (final tip_solver init turned) = Some turned_asm) by (rewrite DF; reflexivity).
  assert (Hm : assembled_model (final tip_solver init turned) = Some turned_fem) by (rewrite DF; reflexivity).
  assert (HP : forall k b, In (k, b) (f_beams turned_fem) -> 1 + poisson (b_prop b) <> 0).
  { intros k b [H|[]]. injection H as <- <-. cbn. lra. }
  destruct (c21_defined tip_solver turned _ turned_fem eq_refl NR Hm HP) as (K & HK).
  destruct (proj2 (c26_defined tip_solver turned _ turned_fem "C" eq_refl NR Hm HP)) as (f & HF).
  { rewrite DF. exists turned_asm, demo_case. split; reflexivity. }
  assert (EF : forall q, coo_get f q 0 = 2 * delta q 12).
  { intros q. rewrite (nodal_load tip_solver turned _ turned_fem "C" f q eq_refl Hm HF); rewrite DF.
    - change (applied turned_world "C") with [(2, demo_pat)]. cbn [map lsum fst snd turned_fem f_nodes dkeys].
      unfold node_power, node_force, node_moment, triple, load_entry; cbn [demo_pat p_nodal dget String.eqb Ascii.eqb Bool.eqb nth Nat.add].
      change (num turned_fem "O") with 0%nat. change (num turned_fem "A") with 1%nat. change (num turned_fem "B") with 2%nat. unfold disp_at, rot_at, dot3; cbn [vx vy vz Nat.mul Nat.add]. ring.
    - intros fp [<-|[]]. split; reflexivity. }
  assert (W : fem_wf turned_fem) by (apply (assembled_good _ _ _ _ eq_refl NR Hm)).
  unfold stiffness in HK. unfold load_vector in HF. rewrite Ha in HK, HF. cbn [bindO] in HK, HF.
  assert (LK : like_demo 1 2 turned_fem) by (split; [exact W|repeat split; discriminate]).
  destruct (assemble_K_bil zero_ker turned_asm K (fun _ => 0) (fun _ => 0) W HK) as (_ & RK).
  set (fixed := [6;7;8;9;10;11;0;1;2;3;4;5]%nat).
  assert (B : forall i, In i fixed -> (i < size (a_model turned_asm))%nat).
  { intros i Hi. change (size (a_model turned_asm)) with 18%nat. unfold fixed in Hi. simpl in Hi. lia. }
  assert (ND : NoDup fixed).
  { unfold fixed. repeat (constructor; [simpl; lia|]). constructor. }
  destruct (drop_matrix_free _ K fixed ND B RK) as (A0 & HM0 & _ & EA).
  destruct (c17_vector (size (a_model turned_asm)) f fixed _ (free_lists _ fixed)) as (_ & LV & DV).
  change (free (size (a_model turned_asm)) fixed) with [12;13;14;15;16;17]%nat in *.
  change (size (a_model turned_asm)) with 18%nat in *. change (List.length [12;13;14;15;16;17]%nat) with 6%nat in *.
  change (x_ker tip_solver) with zero_ker in HK. unfold solve_2nd_order, reduced_system. cbn [tip_solver trial x_ker x_cg]. rewrite HK. cbn [bindO]. rewrite HF. cbn [bindO].
  change (boundary_dofs turned_asm "C") with (Some fixed). cbn [bindO].
  change (node_count (a_model turned_asm) * 6)%nat with 18%nat. rewrite HM0. cbn [bindO fst snd]. rewrite LV. cbn [Nat.eqb bindO].
  rewrite (proj2 (solvesb_true [2;0;0;0;0;0] 6 A0 (drop_vector 18 f fixed))).
  - reflexivity.
  - split; [reflexivity|]. intros i Hi. rewrite DV by exact Hi.
    pose proof (EA i 0%nat Hi ltac:(lia)) as EA0. change (nth 0 [12; 13; 14; 15; 16; 17]%nat 0%nat) with 12%nat in EA0.
    set (p := nth i [12;13;14;15;16;17]%nat 0%nat).
    assert (D0 : delta p 6 = 0) by (unfold p; do 6 (destruct i as [|i]; [reflexivity|]); lia).
    fold p in EA0. clearbody p. cbn [rsum nth]. rewrite EA0. destruct (demo_column 1 2 turned_asm K p LK HK) as [C1 _]. cbn [Nat.mul Nat.add] in C1.
    rewrite EF, C1, D0. field.
Qed.

(** node B is free and carries the load, node A is fixed; the stored vector moves A *)
Lemma c57_refuted : exists ext ops c a d, (forall N A b x, x_cg ext N A b = Some x ->
     List.length x = N /\ forall i, (i < N)%nat -> rsum N (fun j => coo_get A i j * nth j x 0) = nth i b 0)
  /\ never_readds_nodes ext (ops ++ [OpAssemble])
  /\ let w := final ext init (ops ++ [OpAssemble]) in
     read_asb w = Some a /\ usable (answer ext w (OpNodeRestraints (Some c)))
     /\ solve_2nd_order ext a c = Some d
     /\ exists q, restrained_for ext w c q /\ nth q d 0 = 2.
Proof.
  exists tip_solver, (turned_model ++ demo_loads), "C", turned_asm, [0;0;0;0;0;0; 2;0;0;0;0;0; 0;0;0;0;0;0].
  split; [intros N A b x; apply (trial_exact [2;0;0;0;0;0] N A b x)|]. split; [apply turned_fresh|]. cbv zeta. fold turned.
  rewrite turned_final. split; [reflexivity|]. split; [left; reflexivity|]. split; [apply turned_solve|].
  exists 6%nat. split; [|reflexivity]. exists ["O"; "A"; "B"], "A", 1%nat, 0%nat. repeat split. lia.
Qed.

Lemma demo_solved_world : exists K, final tip_solver init (demo ++ [OpSolveStatic "C"]) = World demo_core [(asb_file, FAsb demo_asm); (stiff_file, FStiff K); ("C.d.npy", FDisp [0;0;0;0;0;0; 2;0;0;0;0;0])].
Proof.
  rewrite final_app, demo_final, final_cons, final_nil. unfold after. cbn [step]. unfold do_solve_static.
    change (read_asb demo_world) with (Some demo_asm).
    assert (exists K, assemble_K zero_ker demo_asm = Some K) as (K & HK).
    { destruct (c21_defined tip_solver demo _ demo_fem eq_refl (demo_fresh_nodes _)) as (K & HK); [rewrite demo_final; reflexivity| |].
      - intros k b [H|[]]. injection H as <- <-. cbn. lra.
      - rewrite demo_final in HK. exists K. exact HK. }
    cbn [x_ker tip_solver trial] in *. rewrite HK, demo_solve. exists K. reflexivity.
Qed.
(** ** C59: a node added again loses its stored displacement at the next assembly *)
Lemma c59_refuted : exists ext ops n c later d, answer ext (final ext init ops) (OpSolveStatic c) = RBool true
  /\ answer ext (final ext init (ops ++ [OpSolveStatic c])) (OpNodalDisp n c) = RVec d /\ List.length d = 6%nat
  /\ (forall o, In o later -> o <> OpSolveStatic c)
  /\ outs ext (final ext init (ops ++ [OpSolveStatic c])) later = map (fun _ => RBool true) later
  /\ answer ext (final ext init ((ops ++ [OpSolveStatic c]) ++ later)) (OpNodalDisp n c) = RVec [].
Proof.
  exists tip_solver, demo, "B", "C", [OpAddNode "B" 1 0 0; OpAssemble], [2;0;0;0;0;0].
  destruct demo_solved as [S1 S2]. split; [exact S1|].
  destruct demo_solved_world as (K & F).
  split; [rewrite F; reflexivity|]. split; [reflexivity|]. split; [intros o [<-|[<-|[]]]; discriminate|].
  split.
  - rewrite F. unfold outs. cbn [run]. rewrite step_add_node. reflexivity.
  - rewrite final_app, F, final_cons. unfold after at 1. rewrite step_add_node. reflexivity.
Qed.
