(** Concrete static solutions: instances for C19, C20, C57, C59 and the counterexamples.
    (Examples only; nothing here is part of the model.) *)
From Coq Require Import Reals Lra Lia List String Arith Bool ZArith Sorting.Permutation Sorting.Sorted.
From Verif Require Import Base BaseFacts Csys Sections Element Load FeModel Assembly Solver Post Api
  SpecApi ApiFacts WfFacts HidFacts ApiProofs1 LoadFacts SpecElim ElimFacts SpecGeom CsysFacts SpecBeam BeamFacts AsmFacts SpecAsm AsmProofs
  AsmTotal AsmProofs2 SpecLoad LoadProofs SpecSolve AsmSolve Demo.
Import ListNotations.
Local Open Scope string_scope.
Local Open Scope list_scope.
Local Open Scope R_scope.

(** A solver that answers a given vector, but only where it is the exact solution. *)
Definition solvesb (x : list R) (N : nat) (A : coo) (b : list R) : bool :=
  Nat.eqb (List.length x) N
  && forallb (fun i => Reqb (rsum N (fun j => coo_get A i j * nth j x 0)) (nth i b 0)) (seq 0 N).
Definition trial (x : list R) : externals :=
  Ext zero_ker (fun N A b => if solvesb x N A b then Some x else None) (fun N A b => if solvesb x N A b then Some x else None).

Lemma solvesb_true x N A b : solvesb x N A b = true <->
  List.length x = N /\ forall i, (i < N)%nat -> rsum N (fun j => coo_get A i j * nth j x 0) = nth i b 0.
Proof.
  unfold solvesb. rewrite Bool.andb_true_iff, Nat.eqb_eq, forallb_forall. split; intros [H1 H2]; (split; [exact H1|]).
  - intros i Hi. apply Reqb_true, H2, in_seq. lia.
  - intros i Hi. apply Reqb_true, H2. apply in_seq in Hi. lia.
Qed.
Lemma trial_exact x : exact_solver (trial x).
Proof.
  intros N A b y. cbn [trial x_spsolve]. destruct (solvesb x N A b) eqn:E; [|discriminate].
  intros H. apply some_inj in H. subst y. apply solvesb_true. exact E.
Qed.

Lemma solve_trial ops c x w a K f fixed restr : never_readds_nodes (trial x) (ops ++ [OpAssemble]) ->
  w = final (trial x) init (ops ++ [OpAssemble]) -> read_asb w = Some a ->
  assemble_K zero_ker a = Some K -> assemble_f a c 0 = Some f -> boundary_dofs a c = Some fixed -> expansion_dofs a c = Some restr ->
  let F := free (size (a_model a)) fixed in
  List.length x = List.length F ->
  (forall i, (i < List.length F)%nat ->
     rsum (List.length F) (fun j => (coo_get K (nth i F O) (nth j F O) + coo_get K (nth j F O) (nth i F O)) / 2 * nth j x 0) = coo_get f (nth i F O) 0) ->
  solve_linear (trial x) a c = expand 0 (size (a_model a)) (sort restr) x.
Proof.
  intros NR Hw Ha HK HF HB HE F LX EQ.
  destruct (boundary_sem (trial x) ops w a c fixed NR Hw Ha HB) as (ND & S & B).
  destruct (assembled_now (trial x) ops NR) as (_ & a' & Ha' & Em & _ & _ & _ & _ & G & _). rewrite <- Hw, Ha in *.
  apply some_inj in Ha'. subst a'. rewrite <- Em in G.
  assert (SZ : (node_count (a_model a) * 6)%nat = size (a_model a)) by (unfold size, node_count; lia).
  destruct (assemble_K_bil zero_ker a K (fun _ => 0) (fun _ => 0) (proj1 G) HK) as (_ & RK).
  destruct (drop_matrix_free _ K fixed ND B RK) as (A0 & HM0 & _ & EA). fold F in EA, HM0.
  destruct (c17_vector (size (a_model a)) f fixed _ (free_lists _ fixed)) as (_ & LV & DV). fold F in LV, DV.
  unfold solve_linear, reduced_system. cbn [trial x_ker x_spsolve].
  rewrite HK. cbn [bindO]. rewrite HF. cbn [bindO]. rewrite HB. cbn [bindO]. rewrite SZ, HM0. cbn [bindO fst snd].
  rewrite LV, Nat.eqb_refl. cbn [bindO].
  rewrite (proj2 (solvesb_true x (List.length F) (symmetrise A0) (drop_vector (size (a_model a)) f fixed))).
  - cbn [bindO]. rewrite HE. cbn [bindO]. reflexivity.
  - split; [exact LX|]. intros i Hi. rewrite DV by exact Hi. rewrite <- EQ by exact Hi.
    apply rsum_ext. intros j Hj. rewrite symmetrise_get, !EA by assumption. reflexivity.
Qed.

(** ** The member of the example *)
Lemma demo_dist : distance (V3 0 0 0) (V3 1 0 0) = 1.
Proof. unfold distance; cbn [vx vy vz]. replace (_ + _ + _) with 1 by ring. apply sqrt_1. Qed.
Lemma demo_x : axis_x (V3 0 0 0) (V3 1 0 0) = V3 1 0 0.
Proof.
  unfold axis_x, unit3, vsub; cbn [vx vy vz]. replace (_ + _ + _) with 1 by ring. rewrite sqrt_1, Rinv_1.
  unfold vscale; cbn [vx vy vz]. apply vec3_eq; cbn [vx vy vz]; ring.
Qed.
Lemma demo_up : up_for (V3 0 0 0) (V3 1 0 0) = V3 0 0 1.
Proof.
  unfold up_for. destruct (Rlt_dec _ _) as [H|]; [|reflexivity]. exfalso.
  unfold plan_offset in H; cbn [vx vy vz] in H. apply Rmax_Rlt in H as [H _]. rewrite Rabs_left in H by lra. lra.
Qed.
Lemma demo_z : axis_z (V3 0 0 0) (V3 1 0 0) = V3 0 (-1) 0.
Proof.
  unfold axis_z. rewrite demo_x, demo_up. unfold unit3, cross; cbn [vx vy vz]. replace (_ + _ + _) with 1 by ring. rewrite sqrt_1, Rinv_1.
  unfold vscale; cbn [vx vy vz]. apply vec3_eq; cbn [vx vy vz]; ring.
Qed.
Lemma demo_y : axis_y (V3 0 0 0) (V3 1 0 0) = V3 0 0 1.
Proof. unfold axis_y. rewrite demo_z, demo_x. unfold cross; cbn [vx vy vz]. apply vec3_eq; cbn [vx vy vz]; ring. Qed.

(** The member of the example between the nodes numbered i and j. *)
Definition like_demo (i j : nat) (m : fem) : Prop :=
  fem_wf m /\ f_beams m = [("b", demo_beam)] /\ f_shells m = [] /\ num m "A" = i /\ num m "B" = j /\ i <> j.

Lemma delta_same q : delta q q = 1.
Proof. unfold delta. rewrite Nat.eqb_refl. reflexivity. Qed.
Lemma delta_other q i : i <> q -> delta q i = 0.
Proof. unfold delta. intros H. apply Nat.eqb_neq in H. rewrite H. reflexivity. Qed.

Lemma demo_column i j a K p : like_demo i j (a_model a) -> assemble_K zero_ker a = Some K ->
  coo_get K p (6 * j) = delta p (6 * j) - delta p (6 * i) /\ coo_get K (6 * j) p = delta p (6 * j) - delta p (6 * i).
Proof.
  intros (W & Eb & Es & N0 & N1 & NE) HK.
  assert (V : forall x y, bil K x y = member_work (Stiff 1 (/2) 1 1) 1 (ends_along (V3 1 0 0) (V3 0 0 1) (V3 0 (-1) 0) (ends_at x i j))
                             (ends_along (V3 1 0 0) (V3 0 0 1) (V3 0 (-1) 0) (ends_at y i j))).
  { intros x y. destruct (assemble_K_bil zero_ker a K x y W HK) as (-> & _). rewrite Eb, Es. cbn [dvals map lsum snd].
    unfold beam_work. cbn [b_ni b_nj b_prop demo_beam]. unfold nodeA, nodeB, node_at, n_loc; cbn [n_csys cs_O].
    rewrite demo_dist, demo_x, demo_y, demo_z. unfold beam_ends, demo_beam; cbn [b_ni b_nj n_name nodeA nodeB node_at]. rewrite N0, N1.
    replace (props (PSimple 1 0 1 1 1 1 1)) with (Stiff 1 (/2) 1 1) by (cbn [props]; f_equal; field). rewrite !Rplus_0_r. reflexivity. }
  rewrite <- !bil_delta, !V. unfold member_work, ends_along, ends_at, along, disp_at, rot_at, dot3; cbn [EA GJ EI2 EI3 d_i d_j r_i r_j vx vy vz].
  rewrite delta_same. rewrite !(delta_other (6 * j)) by lia. unfold bend. split; field.
Qed.

(** ** Nodal loads only *)
Definition nodal_only (p : pattern) : Prop := p_dist p = [] /\ p_conc p = [].
Lemma nodal_member_power m p x kb : nodal_only p -> member_power m p x kb = 0.
Proof.
  intros [E1 E2]. unfold member_power, work12, pat_beam_f. rewrite E1, E2. cbn [dget]. cbv zeta. cbn.
  unfold vnth; cbn [nth]; ring.
Qed.

Lemma nodal_load ext ops w m c f q : w = final ext init ops -> assembled_model w = Some m -> load_vector w c = Some f ->
  (forall fp, In fp (applied w c) -> nodal_only (snd fp)) ->
  coo_get f q 0 = lsum (map (fun fp => fst fp * lsum (map (node_power m (snd fp) (delta q)) (dkeys (f_nodes m)))) (applied w c)).
Proof.
  intros Hw Hm HF N. destruct (load_inv ext ops w m c f Hw Hm HF) as (_ & _ & B).
  rewrite <- bil_delta. change (delta 0) with one0. rewrite B. apply lsum_map_ext. intros fp Hfp. unfold pattern_power.
  rewrite (lsum_zero (member_power m (snd fp) (delta q)) (f_beams m)); [ring|].
  intros kb _. apply nodal_member_power, N, Hfp.
Qed.

(** ** The cantilever with its axial tip load *)
Lemma demo_like : fem_wf demo_fem -> like_demo 0 1 demo_fem.
Proof. intros W. split; [exact W|]. repeat split. discriminate. Qed.

Definition tip_solver : externals := trial [2;0;0;0;0;0].
Lemma demo_split : demo = (demo_model ++ demo_loads) ++ [OpAssemble].
Proof. reflexivity. Qed.

Lemma demo_solve : solve_linear tip_solver demo_asm "C" = Some [0;0;0;0;0;0; 2;0;0;0;0;0].
Proof.
  pose proof (demo_fresh_nodes tip_solver) as NR. pose proof (demo_final tip_solver) as DF.
  assert (Ha : read_asb (final tip_solver init demo) = Some demo_asm) by (rewrite DF; reflexivity).
  assert (Hm : assembled_model (final tip_solver init demo) = Some demo_fem) by (rewrite DF; reflexivity).
  assert (HP : forall k b, In (k, b) (f_beams demo_fem) -> 1 + poisson (b_prop b) <> 0).
  { intros k b [H|[]]. injection H as <- <-. cbn. lra. }
  destruct (c21_defined tip_solver demo _ demo_fem eq_refl NR Hm HP) as (K & HK).
  destruct (proj2 (c26_defined tip_solver demo _ demo_fem "C" eq_refl NR Hm HP)) as (f & HF).
  { rewrite DF. exists demo_asm, demo_case. split; reflexivity. }
  assert (EF : forall q, coo_get f q 0 = 2 * delta q 6).
  { intros q. rewrite (nodal_load tip_solver demo _ demo_fem "C" f q eq_refl Hm HF); rewrite DF.
    - change (applied demo_world "C") with [(2, demo_pat)]. cbn [map lsum fst snd demo_fem f_nodes dkeys].
      unfold node_power, node_force, node_moment, triple, load_entry; cbn [demo_pat p_nodal dget String.eqb Ascii.eqb Bool.eqb nth Nat.add].
      change (num demo_fem "A") with 0%nat. change (num demo_fem "B") with 1%nat. unfold disp_at, rot_at, dot3; cbn [vx vy vz Nat.mul Nat.add]. ring.
    - intros fp [<-|[]]. split; reflexivity. }
  unfold stiffness in HK. unfold load_vector in HF. rewrite Ha in HK, HF. cbn [bindO] in HK, HF.
  assert (W : fem_wf demo_fem) by (apply (assembled_good _ _ _ _ eq_refl NR Hm)).
  unfold tip_solver. rewrite (solve_trial (demo_model ++ demo_loads) "C" [2;0;0;0;0;0] _ demo_asm K f [0;1;2;3;4;5]%nat [0;1;2;3;4;5]%nat NR eq_refl Ha HK HF); try reflexivity.
  intros i Hi. change (List.length (free (size (a_model demo_asm)) [0;1;2;3;4;5]%nat)) with 6%nat in *.
  change (free (size (a_model demo_asm)) [0;1;2;3;4;5]%nat) with [6;7;8;9;10;11]%nat.
  set (p := nth i [6;7;8;9;10;11]%nat 0%nat).
  assert (D0 : delta p 0 = 0) by (unfold p; do 6 (destruct i as [|i]; [reflexivity|]); lia).
  clearbody p. cbn [rsum nth]. rewrite EF. destruct (demo_column 0 1 demo_asm K p (demo_like W) HK) as [C1 C2]. cbn [Nat.mul Nat.add] in C1, C2. rewrite C1, C2.
  rewrite D0. field.
Qed.

Lemma demo_solved : let w := final tip_solver init demo in
  answer tip_solver w (OpSolveStatic "C") = RBool true
  /\ read_disp (after tip_solver w (OpSolveStatic "C")) "C" = Some [0;0;0;0;0;0; 2;0;0;0;0;0].
Proof.
  cbv zeta. rewrite demo_final. unfold answer, after. cbn [step]. unfold do_solve_static.
  change (read_asb demo_world) with (Some demo_asm).
  assert (exists K, assemble_K zero_ker demo_asm = Some K) as (K & HK).
  { destruct (c21_defined tip_solver demo _ demo_fem eq_refl (demo_fresh_nodes _)) as (K & HK); [rewrite demo_final; reflexivity| |].
    - intros k b [H|[]]. injection H as <- <-. cbn. lra.
    - rewrite demo_final in HK. exists K. exact HK. }
  cbn [x_ker tip_solver trial] in *. rewrite HK, demo_solve. split; reflexivity.
Qed.

(** ** A case whose own restraint table has no True *)
Definition all_free : six bool := (false, false, false, false, false, false).
Definition slack_tail : list op :=
  [OpAddPattern "P"; OpSetNodalLoad "P" "A" (-1, 0, 0, 0, 0, 0); OpSetNodalLoad "P" "B" tip_load; OpAddStatic "C"; OpAddCasePattern "C" "P" 1;
   OpSetCaseRestraint "C" "B" all_free].
Definition slack : list op := (demo_model ++ slack_tail) ++ [OpAssemble].
Definition slack_pat : pattern := Pattern "P" [("A", [-1;0;0;0;0;0]); ("B", [1;0;0;0;0;0])] [] [] [].
Definition slack_case : lcase :=
  LCase KStatic "C" [("P", 0%nat)] [("P", 1)] [("P", default_curve)] [("B", list6 all_free)].
Definition slack_asm : asm := Asm demo_fem [("C", slack_case)] [slack_pat] 6%Z [0;1;2;3;4;5]%nat.
Definition slack_world : world := World (Core demo_fem [("P", 0%nat)] [slack_pat] [("C", slack_case)]) [(asb_file, FAsb slack_asm)].

Lemma demo_model_run ext : run ext init demo_model = (World (Core demo_fem [] [] []) [], repeat (RBool true) 4).
Proof.
  unfold demo_model, demo_nodes. cbn [app run]. rewrite !step_add_node.
  match goal with |- context [step ext ?w (OpAddSimpleBeam _ _ _ _ _ _ _ _ _ _)] =>
    rewrite (step_demo_beam ext w) by reflexivity end.
  cbn. reflexivity.
Qed.
Lemma slack_final ext : final ext init slack = slack_world.
Proof.
  unfold slack. rewrite <- app_assoc, final_app. replace (final ext init demo_model) with (World (Core demo_fem [] [] []) []).
  - reflexivity.
  - unfold final. rewrite demo_model_run. reflexivity.
Qed.
Lemma slack_fresh_nodes ext : never_readds_nodes ext slack.
Proof.
  unfold never_readds_nodes, slack, demo_model, demo_nodes. cbn [app guarded fresh_node].
  split; [exists []; split; [reflexivity|simpl; tauto]|].
  split; [|cbn; tauto].
  exists ["A"]; split; [|simpl; intros [H|[]]; discriminate].
  unfold answer, after. rewrite step_add_node. reflexivity.
Qed.

Lemma c20_refuted : exists ops c a l l', (forall ext, never_readds_nodes ext (ops ++ [OpAssemble])
    /\ read_asb (final ext init (ops ++ [OpAssemble])) = Some a)
  /\ boundary_dofs a c = Some l /\ expansion_dofs a c = Some l' /\ l = [] /\ l' = [0;1;2;3;4;5]%nat.
Proof.
  exists (demo_model ++ slack_tail), "C", slack_asm, [], [0;1;2;3;4;5]%nat. split; [|repeat split].
  intros ext. split; [apply slack_fresh_nodes|]. rewrite slack_final. reflexivity.
Qed.

Definition slack_solver : externals := trial [0;0;0;0;0;0; 1;0;0;0;0;0].
Lemma slack_load ext f : load_vector (final ext init slack) "C" = Some f -> forall q, coo_get f q 0 = delta q 6 - delta q 0.
Proof.
  intros HF q. rewrite (nodal_load ext slack _ demo_fem "C" f q eq_refl); [| |exact HF|].
  - rewrite slack_final. change (applied slack_world "C") with [(1, slack_pat)]. cbn [map lsum fst snd demo_fem f_nodes dkeys].
    unfold node_power, node_force, node_moment, triple, load_entry; cbn [slack_pat p_nodal dget String.eqb Ascii.eqb Bool.eqb nth Nat.add].
    change (num demo_fem "A") with 0%nat. change (num demo_fem "B") with 1%nat. unfold disp_at, rot_at, dot3; cbn [vx vy vz Nat.mul Nat.add]. ring.
  - rewrite slack_final. reflexivity.
  - rewrite slack_final. intros fp [<-|[]]. split; reflexivity.
Qed.

Lemma slack_solve : solve_linear slack_solver slack_asm "C" = Some (repeat 0 12)
  /\ exists K f, assemble_K zero_ker slack_asm = Some K /\ assemble_f slack_asm "C" 0 = Some f
     /\ stiffness slack_solver (final slack_solver init slack) = Some K /\ load_vector (final slack_solver init slack) "C" = Some f.
Proof.
  pose proof (slack_fresh_nodes slack_solver) as NR. pose proof (slack_final slack_solver) as DF.
  assert (Ha : read_asb (final slack_solver init slack) = Some slack_asm) by (rewrite DF; reflexivity).
  assert (Hm : assembled_model (final slack_solver init slack) = Some demo_fem) by (rewrite DF; reflexivity).
  assert (HP : forall k b, In (k, b) (f_beams demo_fem) -> 1 + poisson (b_prop b) <> 0).
  { intros k b [H|[]]. injection H as <- <-. cbn. lra. }
  destruct (c21_defined slack_solver slack _ demo_fem eq_refl NR Hm HP) as (K & HK).
  destruct (proj2 (c26_defined slack_solver slack _ demo_fem "C" eq_refl NR Hm HP)) as (f & HF).
  { rewrite DF. exists slack_asm, slack_case. split; reflexivity. }
  pose proof (slack_load _ _ HF) as EF. pose proof HK as HK'. pose proof HF as HF'.
  unfold stiffness in HK. unfold load_vector in HF. rewrite Ha in HK, HF. cbn [bindO] in HK, HF.
  split; [|exists K, f; auto].
  assert (W : fem_wf demo_fem) by (apply (assembled_good _ _ _ _ eq_refl NR Hm)).
  unfold slack_solver.
  rewrite (solve_trial (demo_model ++ slack_tail) "C" [0;0;0;0;0;0; 1;0;0;0;0;0] _ slack_asm K f [] [0;1;2;3;4;5]%nat NR eq_refl Ha HK HF); try reflexivity.
  intros i Hi. change (List.length (free (size (a_model slack_asm)) [])) with 12%nat in *.
  change (free (size (a_model slack_asm)) []) with [0;1;2;3;4;5;6;7;8;9;10;11]%nat.
  set (p := nth i [0;1;2;3;4;5;6;7;8;9;10;11]%nat 0%nat).
  clearbody p. cbn [rsum nth]. rewrite EF. destruct (demo_column 0 1 slack_asm K p (demo_like W) HK) as [C1 C2]. cbn [Nat.mul Nat.add] in C1, C2. rewrite C1, C2.
  field.
Qed.

Lemma c19_refuted : exists ext ops c, exact_solver ext /\ never_readds_nodes ext (ops ++ [OpAssemble])
  /\ let w := final ext init (ops ++ [OpAssemble]) in
     answer ext w (OpSolveStatic c) = RBool true
     /\ exists m K f q, assembled_model w = Some m /\ f_shells m = [] /\ stiffness ext w = Some K /\ load_vector w c = Some f
        /\ (q < size m)%nat /\ ~ restrained_for ext w c q
        /\ row (size m) K (stored (after ext w (OpSolveStatic c)) c) q = 0 /\ coo_get f q 0 = 1.
Proof.
  exists slack_solver, (demo_model ++ slack_tail), "C". split; [apply trial_exact|]. split; [apply slack_fresh_nodes|].
  destruct slack_solve as (HS & K & f & HK & HF & HK' & HF'). cbv zeta. fold slack.
  assert (SV : answer slack_solver (final slack_solver init slack) (OpSolveStatic "C") = RBool true
     /\ read_disp (after slack_solver (final slack_solver init slack) (OpSolveStatic "C")) "C" = Some (repeat 0 12)).
  { rewrite slack_final. unfold answer, after. cbn [step]. unfold do_solve_static.
    change (read_asb slack_world) with (Some slack_asm). cbn [x_ker slack_solver trial] in *. rewrite HK, HS. split; reflexivity. }
  destruct SV as [SV SD]. split; [exact SV|]. exists demo_fem, K, f, 6%nat.
  split; [rewrite slack_final; reflexivity|]. split; [reflexivity|]. split; [exact HK'|]. split; [exact HF'|].
  split; [cbn; lia|]. split.
  - unfold restrained_for, governing. rewrite slack_final. cbn [answer step snd ret].
    intros (l & k & i & j & El & Ek & Hj & Eq & Hf). unfold answer in El, Hf. cbn in El, Hf. injection El as <-.
    unfold flag, entry in Hf. rewrite lookup_dget in Hf. cbn [dget] in Hf. destruct (String.eqb k "B"); [|discriminate].
    do 6 (destruct j as [|j]; [discriminate|]). lia.
  - split.
    + unfold row. apply rsum_0. intros p _. unfold stored. rewrite SD.
      do 12 (destruct p as [|p]; [cbn [nth repeat]; ring|]). cbn [nth repeat]. destruct p; ring.
    + rewrite (slack_load _ _ HF'). unfold delta; cbn [Nat.eqb]. ring.
Qed.
