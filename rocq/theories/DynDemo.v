(** A mass on its own: instances for the statements about time integration.
    (Examples only; nothing here is part of the model.) *)
From Coq Require Import Reals Lra Lia List String Arith Bool ZArith.
From Verif Require Import Base BaseFacts Csys Sections Element Load FeModel Assembly Solver
  Post Api SpecApi ApiFacts WfFacts HidFacts ApiProofs1 SpecElim ElimFacts SpecGeom CsysFacts SpecBeam SpecAsm AsmFacts AsmProofs AsmTotal AsmProofs2 SpecLoad LoadProofs Demo SpecSolve AsmSolve SolveDemo SpecMass MassProofs Dynamic SpecDyn DynProofs.
Import ListNotations.
Local Open Scope string_scope.
Local Open Scope list_scope.
Local Open Scope R_scope.

Definition mass_node : node := set_mass [1;1;1;1;1;1] (node_at "A" 0 0 0).
Definition mass_fem : fem := Fem [("A", mass_node)] [] [] [] [] [] [] [("A", 0%nat)] [] [].
Definition mass_pat : pattern := Pattern "P" [("A", [1;0;0;0;0;0])] [] [] [].
Definition mass_case : lcase := LCase KStatic "C" [("P", 0%nat)] [("P", 1)] [("P", default_curve)] [].
Definition mass_asm : asm := Asm mass_fem [("C", mass_case)] [mass_pat] 6%Z [].

(** it is what the constructors build *)
Lemma mass_asm_built : exists m0 m1, model_add_node "A" 0 0 0 false (Fem [] [] [] [] [] [] [] [] [] []) = Some (O, m0)
  /\ model_set_mass "A" [1;1;1;1;1;1] m0 = Some m1 /\ mk_asm m1 [mass_case] [mass_pat] = Some mass_asm.
Proof. eexists _, _. split; [apply add_node_eq|]. split; reflexivity. Qed.

Lemma mass_K ker : assemble_K ker mass_asm = Some [].
Proof. reflexivity. Qed.
Lemma mass_M : exists M, assemble_M mass_asm None = Some M /\ coo_inrange 6 6 M = true
  /\ forall i j, (i < 6)%nat -> (j < 6)%nat -> coo_get M i j = if Nat.eqb i j then 1 else 0.
Proof.
  set (M := scatter (fun r => (0*6+r)%nat) (nz (mat_coo 6 6 (node_M mass_node)))).
  assert (G : forall i j, (i < 6)%nat -> (j < 6)%nat -> coo_get M i j = if Nat.eqb i j then 1 else 0).
  { intros i j Hi Hj. rewrite <- bil_delta. unfold M. rewrite bil_scatter, bil_nz, bil_mat_coo.
    cbn [Nat.mul Nat.add].
    rewrite (rsum_single 6 i) by (try exact Hi; intros k Hk NE; apply rsum_0; intros l Hl; rewrite (delta_other i k) by lia; ring).
    rewrite (rsum_single 6 j) by (try exact Hj; intros k Hk NE; rewrite (delta_other j k) by lia; ring).
    rewrite !delta_same. unfold node_M. destruct (Nat.eqb_spec i j) as [->|]; [|ring].
    cbn [mass_node set_mass n_mass vnth]. destruct j as [|[|[|[|[|[|j]]]]]]; try lia; unfold vnth; cbn; ring. }
  assert (I : coo_inrange 6 6 M = true).
  { unfold M. apply forallb_forall. intros [[r c] v] H. unfold scatter in H. apply in_map_iff in H as ([[r' c'] v'] & E & H).
    injection E as <- <- <-. unfold nz in H. apply filter_In in H as (H & _). unfold mat_coo in H.
    apply in_flat_map in H as (i & Hi & H). apply in_map_iff in H as (j & E & Hj). injection E as <- <- <-.
    apply in_seq in Hi, Hj. apply andb_true_iff. split; apply Nat.ltb_lt; lia. }
  exists M. split; [|split; assumption].
  unfold assemble_M, mass_asm; cbn [a_model bindO mapM model_node_names dkeys f_nodes mass_fem map fst f_beams dvals node_count List.length].
  unfold node_mass_triplets. cbn [bindO model_node_hid mass_fem f_hnode dget String.eqb Ascii.eqb Bool.eqb f_nodes].
  fold M. cbn [List.concat app mapM bindO]. rewrite !app_nil_r. change (1 * 6)%nat with 6%nat. unfold coo_make. rewrite I. reflexivity.
Qed.

(** its free equations: six, uncoupled *)
Definition mass_free : list nat := [0;1;2;3;4;5]%nat.
Lemma mass_system ker : exists K_ M_ C_, free_system (Ext ker (fun _ _ _ => None) (fun _ _ _ => None)) mass_asm "C" 6 K_ M_ C_.
Proof.
  destruct mass_M as (M & HM & IM & GM).
  destruct (drop_matrix_free 6 M [] (NoDup_nil _) (fun i (H : In i []) => match H with end) IM) as (M_ & EM & _ & _).
  assert (IC : coo_inrange 6 6 (damping_matrix M []) = true).
  { unfold damping_matrix. cbn [coo_scale map]. rewrite app_nil_r. unfold coo_inrange in *. rewrite forallb_forall in *.
    intros [[r c] v] H. unfold coo_scale in H. apply in_map_iff in H as ([[r' c'] v'] & E & H). injection E as <- <- _. exact (IM _ H). }
  destruct (drop_matrix_free 6 _ [] (NoDup_nil _) (fun i (H : In i []) => match H with end) IC) as (C_ & EC & _ & _).
  exists [], M_, C_. exists [], M, []. cbv zeta. split; [reflexivity|]. split; [exact HM|]. split; [reflexivity|].
  split; [reflexivity|]. split; [exists 6%nat; exact EM|exists 6%nat; exact EC].
Qed.

Definition gain : R := / (1 + fst code_damping / 2).
Definition mass_rows : list (list R) := [[0;0;0;0;0;0]; [gain;0;0;0;0;0]; [gain;0;0;0;0;0]].
Definition mass_ext : externals := trial [gain;0;0;0;0;0].
Lemma mass_exact : exact_cg mass_ext.
Proof.
  intros N A b y. cbn [mass_ext trial x_cg]. destruct (solvesb _ N A b) eqn:E; [|discriminate].
  intros H. apply some_inj in H. subst y. apply solvesb_true. exact E.
Qed.
Lemma damping_pos : 0 < fst code_damping.
Proof.
  unfold code_damping, rayleigh; cbn [fst]. pose proof PI_RGT_0 as P.
  replace ((2 * PI / 1)^2 - (2 * PI / 2)^2) with (3 * PI^2) by field.
  replace (2 * (2 * PI / 2) * (2 * PI / 1) / (3 * PI^2) * (5/100 * (2 * PI / 1) - 2/100 * (2 * PI / 2))) with (4/3 * (8/100 * PI)) by (field; lra).
  lra.
Qed.
Lemma gain_eq : gain + fst code_damping / 2 * gain = 1.
Proof. unfold gain. pose proof damping_pos. field. lra. Qed.

Lemma mass_f t : (t < 2)%nat -> exists v, assemble_f mass_asm "C" t = Some v /\ drop_vector 6 v [] = [1;0;0;0;0;0].
Proof.
  intros H. set (L := vec_triplets (fun k => (0*6+k)%nat) (matT_list 6 (node_T mass_node) (ladd (zeros 6) (lscale 1 (lscale 1 [1;0;0;0;0;0]))))).
  assert (E : node_f_triplets mass_asm mass_case t "A" = Some L).
  { unfold node_f_triplets. destruct t as [|[|t]]; [reflexivity..|lia]. }
  assert (EL : L = [(0%nat, 0%nat, 1)]).
  { unfold L, vec_triplets, matT_list. cbn [List.length map seq flat_map nth Nat.mul Nat.add].
    assert (V : forall k, (k < 6)%nat -> rsum 6 (fun k0 => node_T mass_node k0 k * nth k0 (ladd (zeros 6) (lscale 1 (lscale 1 [1;0;0;0;0;0]))) 0) = if Nat.eqb k 0 then 1 else 0).
    { intros k Hk. rewrite (rsum_single 6 0) by (try lia; intros i Hi NE; destruct i as [|[|[|[|[|[|i]]]]]]; try lia; cbn; ring).
      destruct k as [|[|[|[|[|[|k]]]]]]; try lia; cbn; ring. }
    rewrite !V by lia. cbn [Nat.eqb].
    assert (R0 : Reqb 0 0 = true) by (apply Reqb_true; reflexivity).
    assert (R1 : Reqb 1 0 = false) by (destruct (Reqb 1 0) eqn:Q; [apply Reqb_true in Q; lra|reflexivity]).
    rewrite R0, R1. reflexivity. }
  exists [(0%nat, 0%nat, 1)]. split.
  - unfold assemble_f. cbn [a_cases mass_asm dget String.eqb Ascii.eqb Bool.eqb bindO mass_case c_name a_model model_node_names dkeys mass_fem f_nodes map fst mapM f_beams node_count List.length].
    fold mass_fem. fold mass_case. fold mass_asm. rewrite E, EL. reflexivity.
  - unfold drop_vector. cbn. repeat f_equal; ring.
Qed.
Lemma mass_history dt d : dt = 1 -> solve_direct mass_ext mass_asm "C" (Direct dt d) = Some mass_rows.
Proof.
  intros ->. destruct mass_M as (M & HM & IM & GM).
  destruct (drop_matrix_free 6 M [] (NoDup_nil _) (fun i (H : In i []) => match H with end) IM) as (M_ & EM & _ & GM_).
  assert (IC : coo_inrange 6 6 (damping_matrix M []) = true).
  { unfold damping_matrix. cbn [coo_scale map]. rewrite app_nil_r. unfold coo_inrange in *. rewrite forallb_forall in *.
    intros [[r c] v] H. unfold coo_scale in H. apply in_map_iff in H as ([[r' c'] v'] & E & H). injection E as <- <- _. exact (IM _ H). }
  destruct (drop_matrix_free 6 _ [] (NoDup_nil _) (fun i (H : In i []) => match H with end) IC) as (C_ & EC & _ & GC_).
  assert (F6 : free 6 [] = seq 0 6) by reflexivity. rewrite F6 in *. rewrite seq_length in *.
  assert (GM6 : forall i j, (i < 6)%nat -> (j < 6)%nat -> coo_get M_ i j = if Nat.eqb i j then 1 else 0).
  { intros i j Hi Hj. rewrite GM_, !seq_nth by assumption. apply GM; assumption. }
  assert (GC6 : forall i j, (i < 6)%nat -> (j < 6)%nat -> coo_get C_ i j = if Nat.eqb i j then fst code_damping else 0).
  { intros i j Hi Hj. rewrite GC_, !seq_nth by assumption. cbn [Nat.add]. rewrite damping_get, GM by assumption. cbn [coo_get]. destruct (Nat.eqb i j); ring. }
  destruct (mass_f 0 ltac:(lia)) as (v0 & F0 & D0). destruct (mass_f 1 ltac:(lia)) as (v1 & F1 & D1).
  unfold solve_direct. change (node_count (a_model mass_asm) * 6)%nat with 6%nat. rewrite mass_K. cbn [bindO]. rewrite HM. cbn [bindO].
  change (boundary_dofs mass_asm "C") with (Some ([] : list nat)). cbn [bindO].
  change (drop_matrix 6 [] []) with (Some (6%nat, [] : coo)). cbn [bindO]. rewrite EM. cbn [bindO]. rewrite EC. cbn [bindO fst snd].
  change (dget "C" (a_cases mass_asm)) with (Some mass_case). cbn [bindO].
  change (snd (case_max_min_step mass_case)) with (Some 2%nat). cbv iota.
  set (load := fun t => bindO (assemble_f mass_asm "C" t) _).
  assert (L0 : load 0%nat = Some [1;0;0;0;0;0]) by (unfold load; rewrite F0; cbn [bindO]; rewrite D0; reflexivity).
  assert (L1 : load 1%nat = Some [1;0;0;0;0;0]) by (unfold load; rewrite F1; cbn [bindO]; rewrite D1; reflexivity).
  assert (Z0 : map (fun i => nth i (repeat 0 6) 0 - dp_step (Direct 1 d) * 0 + 1 / (2 * (1 / dp_step (Direct 1 d) / dp_step (Direct 1 d))) * 0) (seq 0 6) = [0;0;0;0;0;0]).
  { cbn. repeat f_equal; field. }
  rewrite Z0. cbn [dp_step repeat].
  assert (ZR : forall u t, nth t u [] = [0;0;0;0;0;0] -> row_before t u = [0;0;0;0;0;0] -> load t = Some [1;0;0;0;0;0] ->
     integration_step (x_cg mass_ext) 6 [] M_ C_ 1 load t u = Some (u ++ [[gain;0;0;0;0;0]])).
  { intros u t E1 E2 E3. unfold integration_step. rewrite E3. cbn [bindO]. rewrite E1, E2. cbn [List.length Nat.eqb].
    assert (ZD : forall A, coo_dot 6 A [0;0;0;0;0;0] = [0;0;0;0;0;0]).
    { intros A. unfold coo_dot. cbn [map seq].
      assert (Q : forall i, rsum 6 (fun j => coo_get A i j * nth j [0;0;0;0;0;0] 0) = 0).
      { intros i. apply rsum_0. intros j Hj. destruct j as [|[|[|[|[|[|j]]]]]]; try lia; cbn; ring. }
      rewrite !Q. reflexivity. }
    rewrite !ZD. cbn [x_cg mass_ext trial]. rewrite (proj2 (solvesb_true _ _ _ _)); [reflexivity|]. split; [reflexivity|].
    intros i Hi. rewrite nth_map_seq by exact Hi.
    rewrite (rsum_ext 6 _ (fun j => if Nat.eqb i j then (1 + fst code_damping / 2) * nth j [gain;0;0;0;0;0] 0 else 0)).
    2:{ intros j Hj. rewrite coo_get_app, !coo_get_scale, GM6, GC6 by assumption. destruct (Nat.eqb i j); field. }
    rewrite rsum_delta by exact Hi.
    destruct i as [|[|[|[|[|[|i]]]]]]; try lia; cbn [nth]; try ring.
    pose proof gain_eq. lra. }
  cbn [integration_loop]. rewrite ZR by (reflexivity || exact L0). cbn [bindO app].
  rewrite ZR by (reflexivity || exact L1). reflexivity.
Qed.

Lemma mass_steps : dget "C" (a_cases mass_asm) = Some mass_case /\ snd (case_max_min_step mass_case) = Some 2%nat.
Proof. split; reflexivity. Qed.
Lemma free_system_unique ext a c N K_ M_ C_ N' K_' M_' C_' : free_system ext a c N K_ M_ C_ -> free_system ext a c N' K_' M_' C_' ->
  N = N' /\ K_ = K_' /\ M_ = M_' /\ C_ = C_'.
Proof.
  intros (K & M & fx & A1 & A2 & A3 & A4 & (n2 & A5) & (n3 & A6)) (K' & M' & fx' & B1 & B2 & B3 & B4 & (n2' & B5) & (n3' & B6)).
  cbv zeta in *.
  assert (K = K') by congruence. assert (M = M') by congruence. assert (fx = fx') by congruence. subst. repeat split; congruence.
Qed.

(** the stored history does not solve the equation of motion at the second step *)
Lemma c51_refuted : exists ext a c p s N K_ M_ C_ lc steps, exact_cg ext /\ dp_step p <> 0 /\ solve_direct ext a c p = Some s
  /\ free_system ext a c N K_ M_ C_ /\ dget c (a_cases a) = Some lc /\ snd (case_max_min_step lc) = Some steps
  /\ ~ integrates N (coo_get M_) (coo_get C_) (coo_get K_) (dp_step p) steps (free_load a c) s.
Proof.
  pose proof (mass_history 1 (5/100) eq_refl) as H. pose proof mass_exact as EX. assert (D : dp_step (Direct 1 (5/100)) <> 0) by (cbn; lra).
  destruct (c51_actual _ _ _ _ _ EX D H) as (N & K_ & M_ & C_ & lc & steps & FS & HD & HT & LS & Z & _ & ACT).
  exists mass_ext, mass_asm, "C", (Direct 1 (5/100)), mass_rows, N, K_, M_, C_, lc, steps.
  split; [exact EX|]. split; [exact D|]. split; [exact H|]. split; [exact FS|]. split; [exact HD|]. split; [exact HT|]. intros INT.
  assert (S2 : steps = 2%nat) by (cbn in LS; lia). subst steps.
  assert (N6 : N = 6%nat).
  { destruct FS as (K & M & fx & A1 & A2 & A3 & A4 & _). cbv zeta in A4. rewrite mass_K in A1. apply some_inj in A1. subst K.
    change (boundary_dofs mass_asm "C") with (Some ([] : list nat)) in A3. apply some_inj in A3. subst fx.
    change (drop_matrix _ [] []) with (Some (6%nat, [] : coo)) in A4. apply some_inj in A4. congruence. }
  subst N.
  destruct (INT 1%nat ltac:(lia)) as (f & FL & CD). destruct (ACT 1%nat ltac:(lia)) as (f' & FL' & CD').
  assert (f = f'). { destruct FL as (x & v & A1 & A2 & ->), FL' as (x' & v' & B1 & B2 & ->). congruence. } subst f'.
  specialize (CD 0%nat ltac:(lia)). specialize (CD' 0%nat ltac:(lia)). rewrite <- CD' in CD.
  cbn [dp_step row_at mass_rows] in CD.
  destruct FS as (K & M & fx & A1 & A2 & A3 & A4 & (n2 & A5) & (n3 & A6)). cbv zeta in *.
  rewrite mass_K in A1. apply some_inj in A1. subst K. change (boundary_dofs mass_asm "C") with (Some ([] : list nat)) in A3. apply some_inj in A3. subst fx.
  change (drop_matrix _ [] []) with (Some (6%nat, [] : coo)) in A4. apply some_inj in A4. assert (K_ = []) by congruence. subst K_.
  destruct mass_M as (M' & HM & IM & GM). assert (M' = M) by congruence. subst M'.
  destruct (drop_matrix_free 6 M [] (NoDup_nil _) (fun i (H : In i []) => match H with end) IM) as (M'' & EM & _ & GM_).
  change (node_count (a_model mass_asm) * 6)%nat with 6%nat in A5. rewrite EM in A5. assert (M'' = M_) by congruence. subst M''.
  assert (G0 : forall j, (j < 6)%nat -> coo_get M_ 0 j = if Nat.eqb 0 j then 1 else 0).
  { intros j Hj. rewrite GM_ by (try exact Hj; cbn; lia). change (free 6 []) with (seq 0 6). rewrite !seq_nth by lia. apply GM; lia. }
  assert (R2 : row_at mass_rows (Z.of_nat 1 + 1) = [gain;0;0;0;0;0]) by reflexivity.
  assert (R1 : row_at mass_rows (Z.of_nat 1) = [gain;0;0;0;0;0]) by reflexivity.
  assert (R0 : row_at mass_rows (Z.of_nat 1 - 1) = [0;0;0;0;0;0]) by reflexivity.
  assert (RM : row_at mass_rows (Z.of_nat 1 - 2) = []) by reflexivity.
  fold mass_rows in CD. rewrite R2, R1, R0, RM in CD.
  assert (ZN : forall j, nth j [0;0;0;0;0;0] 0 = 0) by (intros j; destruct j as [|[|[|[|[|[|[|j]]]]]]]; reflexivity).
  assert (ZE : forall j, nth j [] 0 = 0) by (intros [|j]; reflexivity).
  assert (Q : rsum 6 (fun j => coo_get M_ 0 j * (-2 * nth j [gain;0;0;0;0;0] 0)) = 0).
  { match type of CD with ?a + ?b + ?c = ?d + ?e + ?g =>
      assert (EC : b = e) by (apply rsum_ext; intros j _; rewrite ZN, ZE; reflexivity);
      assert (EK : c = 0) by (apply rsum_0; intros; cbn [coo_get]; ring);
      assert (EG : g = 0) by (apply rsum_0; intros; cbn [coo_get]; ring);
      assert (EA : a - d = 0) by lra; transitivity (a - d); [|exact EA]; rewrite <- rsum_minus end.
    apply rsum_ext. intros j _. rewrite ZN, ZE. field. }
  rewrite (rsum_ext 6 _ (fun j => if Nat.eqb 0 j then -2 * nth j [gain;0;0;0;0;0] 0 else 0)) in Q
    by (intros j Hj; rewrite G0 by exact Hj; destruct (Nat.eqb 0 j); ring).
  rewrite rsum_delta in Q by lia. cbn [nth] in Q. pose proof gain_eq as GE. assert (gain = 0) by lra. rewrite H0 in GE. lra.
Qed.

(** ** One degree of freedom for the implicit methods *)
Definition divide : linear_solver := fun N A b => if Nat.eqb N 1 then if Reqb (A 0 0)%nat 0 then None else Some (fun _ => b 0%nat / A 0%nat 0%nat) else None.
Lemma divide_exact : exact_linear divide.
Proof.
  intros N A b x H i Hi. unfold divide in H. destruct (Nat.eqb_spec N 1) as [->|]; [|discriminate].
  destruct (Reqb _ 0) eqn:E; [discriminate|]. apply some_inj in H. subst x. assert (i = O) by lia. subst i.
  assert (A 0%nat 0%nat <> 0) by (intros Q; apply Reqb_true in Q; congruence). cbn [rsum]. field. assumption.
Qed.
Definition one : mat := fun _ _ => 1.
Definition pushed : motion := Motion (fun _ => 0) (fun _ => 0) (fun _ => 1).
Definition unit_force : nat -> R := fun _ => 1.
Lemma implicit_divide K b s f : K + b1 b <> 0 -> exists s', implicit_step 1 divide (fun _ _ => K) one zero_mat b s f = Some s'
  /\ s' = Motion (fun _ => (f 0%nat + (b1 b * mu_ s 0%nat - b2 b * mv_ s 0%nat - b3 b * ma_ s 0%nat)) / (K + b1 b))
       (fun i => b4 b * ((f 0%nat + (b1 b * mu_ s 0%nat - b2 b * mv_ s 0%nat - b3 b * ma_ s 0%nat)) / (K + b1 b) - mu_ s i) + b5 b * mv_ s i + b6 b * ma_ s i)
       (fun i => b1 b * ((f 0%nat + (b1 b * mu_ s 0%nat - b2 b * mv_ s 0%nat - b3 b * ma_ s 0%nat)) / (K + b1 b) - mu_ s i) + b2 b * mv_ s i + b3 b * ma_ s i).
Proof.
  intros H. unfold implicit_step, divide. cbn [Nat.eqb].
  assert (E : K + b4 b * zero_mat 0%nat 0%nat + b1 b * one 0%nat 0%nat = K + b1 b) by (unfold zero_mat, one; ring).
  assert (E2 : f 0%nat + mulv 1 one (fun j => b1 b * mu_ s j - b2 b * mv_ s j - b3 b * ma_ s j) 0
                + mulv 1 zero_mat (fun j => b4 b * mu_ s j - b5 b * mv_ s j - b6 b * ma_ s j) 0
               = f 0%nat + (b1 b * mu_ s 0%nat - b2 b * mv_ s 0%nat - b3 b * ma_ s 0%nat)) by (unfold mulv, zero_mat, one; cbn [rsum]; ring).
  rewrite E, E2. destruct (Reqb _ 0) eqn:Q; [apply Reqb_true in Q; contradiction|]. cbn [bindO]. eexists. split; reflexivity.
Qed.

(** with the default parameters (beta 1/4, gamma 1/2), a mass under a constant force *)
Lemma newmark_pushed : exists s1 s2, newmark 1 divide zero_mat one zero_mat (1/4) (1/2) [0;1] [unit_force; unit_force] pushed
    = Some [(0, pushed); (0, s1); (1, s2)] /\ mu_ s1 0%nat = 0 /\ ma_ s1 0%nat = 1.
Proof.
  set (b := newmark_coef (1/4) (1/2) (1 - 0)).
  assert (B1 : b1 b = 4) by (unfold b, newmark_coef; cbn [b1]; field).
  assert (B3 : b3 b = 1) by (unfold b, newmark_coef; cbn [b3]; field).
  destruct (implicit_divide 0 b pushed unit_force ltac:(rewrite B1; lra)) as (s1 & E1 & D1).
  destruct (implicit_divide 0 b s1 unit_force ltac:(rewrite B1; lra)) as (s2 & E2 & D2).
  exists s1, s2. split.
  - unfold newmark. cbn [List.length Nat.min firstn newmark_loop]. fold b. change zero_mat with (fun _ _ : nat => 0) at 1 3.
    rewrite E1. cbn [bindO]. rewrite E2. reflexivity.
  - rewrite D1. cbn [mu_ mv_ ma_ pushed]. rewrite B1, B3. unfold unit_force. split; field.
Qed.
Lemma c52_refuted : exists N solve K M C beta gamma T F s0 out t s t' s', exact_linear solve /\ beta = 1/4 /\ gamma = 1/2
  /\ newmark N solve K M C beta gamma T F s0 = Some out /\ nth_error out 0 = Some (t, s) /\ nth_error out 1 = Some (t', s')
  /\ (exists f0, nth_error F 0 = Some f0 /\ in_motion N M C K f0 s) /\ exists T0 T1 r, T = T0 :: T1 :: r /\ T0 < T1 /\ ~ displacement_relation beta (T1 - T0) s s'.
Proof.
  destruct newmark_pushed as (s1 & s2 & H & U & A).
  exists 1%nat, divide, zero_mat, one, zero_mat, (1/4), (1/2), [0;1], [unit_force; unit_force], pushed, [(0, pushed); (0, s1); (1, s2)], 0, pushed, 0, s1.
  split; [exact divide_exact|]. split; [reflexivity|]. split; [reflexivity|]. split; [exact H|]. split; [reflexivity|]. split; [reflexivity|].
  split. { exists unit_force. split; [reflexivity|]. intros i Hi. unfold unit_force, pushed, one, zero_mat; cbn. ring. }
  exists 0, 1, []. split; [reflexivity|]. split; [lra|]. intros Q. specialize (Q 0%nat). rewrite U, A in Q. cbn [mu_ mv_ ma_ pushed] in Q. lra.
Qed.
Lemma c63_refuted : exists N solve K M C beta gamma theta dt s f s', exact_linear solve /\ 0 < beta /\ 0 < dt /\ 1 <= theta
  /\ in_motion N M C K f s /\ wilson_step N solve K M C beta gamma theta dt s f = Some s'
  /\ ~ in_motion N M C K f (extrapolated beta gamma theta dt s s').
Proof.
  set (b := wilson_coef (1/4) (1/2) 1 1).
  assert (B1 : b1 b = 4) by (unfold b, wilson_coef; cbn [b1]; field).
  assert (B3 : b3 b = 1) by (unfold b, wilson_coef; cbn [b3]; field).
  destruct (implicit_divide 1 b pushed unit_force ltac:(rewrite B1; lra)) as (s1 & E1 & D1).
  assert (W : exists s', wilson_step 1 divide (fun _ _ => 1) one zero_mat (1/4) (1/2) 1 1 pushed unit_force = Some s' /\ ma_ s' 0%nat = 1).
  { unfold wilson_step. fold b. rewrite E1. cbn [bindO]. eexists. split; [reflexivity|]. cbn [ma_]. rewrite D1. cbn [ma_ pushed mu_ mv_]. rewrite B1, B3. unfold unit_force. field. }
  destruct W as (s' & W & A).
  exists 1%nat, divide, (fun _ _ => 1), one, zero_mat, (1/4), (1/2), 1, 1, pushed, unit_force, s'.
  split; [exact divide_exact|]. split; [lra|]. split; [lra|]. split; [lra|].
  split. { intros i Hi. unfold unit_force, pushed, one, zero_mat; cbn. ring. }
  split; [exact W|]. intros Q. specialize (Q 0%nat ltac:(lia)). unfold extrapolated, one, zero_mat, unit_force in Q. cbn [rsum mu_ mv_ ma_ pushed] in Q. rewrite A in Q. lra.
Qed.
Lemma c66_refuted : exists N solve K M C T F s0 out t s, newmark N solve K M C (1/4) (1/2) T F s0 = Some out
  /\ (forall k x, nth_error T k = Some x -> x = 0 + INR k * 1) /\ nth_error out 1 = Some (t, s) /\ t <> INR 1 * 1.
Proof.
  destruct newmark_pushed as (s1 & s2 & H & _). exists 1%nat, divide, zero_mat, one, zero_mat, [0;1], [unit_force; unit_force], pushed, [(0, pushed); (0, s1); (1, s2)], 0, s1.
  split; [exact H|]. split. { intros [|[|k]] x E; cbn in E; [apply some_inj in E; subst; cbn; ring|apply some_inj in E; subst; cbn; ring|destruct k; discriminate]. }
  split; [reflexivity|]. cbn. lra.
Qed.

(** ** The axial mode of the cantilever *)
(** an eigensolver that answers a given pair, but only where it is exact *)
Definition pair_ok (lambda : R) (x : list R) (N : nat) (K M : coo) : bool :=
  existsb (fun j => negb (Reqb (nth j x 0) 0)) (seq 0 N)
  && forallb (fun r => Reqb (rsum N (fun j => coo_get K r j * nth j x 0)) (lambda * rsum N (fun j => coo_get M r j * nth j x 0))) (seq 0 N).
Definition trial_eigen (lambda : R) (x : list R) : eigensolver := fun N _ K M => if pair_ok lambda x N K M then Some ([lambda], [x]) else None.
Lemma trial_eigen_exact lambda x : exact_eigen (trial_eigen lambda x).
Proof.
  intros N k K M o modes H i l y HO HX. unfold trial_eigen in H. destruct (pair_ok _ _ _ _ _) eqn:E; [|discriminate]. apply some_inj in H.
  assert (o = [lambda]) by congruence. assert (modes = [x]) by congruence. subst. destruct i as [|i]; [|destruct i; discriminate].
  cbn in HO, HX. apply some_inj in HO, HX. subst l y. unfold pair_ok in E. apply andb_true_iff in E as (E1 & E2). split.
  - apply existsb_exists in E1 as (j & J & NZ). exists j. apply in_seq in J. split; [lia|]. intros Z. apply Reqb_true in Z. rewrite Z in NZ. discriminate.
  - intros r Hr. rewrite forallb_forall in E2. apply Reqb_true, E2, in_seq. lia.
Qed.

Lemma demo_mass_column M p : fem_wf demo_fem -> assemble_M demo_asm None = Some M -> coo_get M p 6 = 1/2 * delta p 6.
Proof.
  intros W H. rewrite <- bil_delta. destruct (assemble_M_bil demo_asm M (delta p) (delta 6) W H) as (-> & _).
  cbn [a_model demo_asm demo_fem f_nodes f_beams dvals map lsum snd].
  unfold node_inertia. cbn [fst snd nodeA nodeB node_at n_mass].
  rewrite !(rsum_0 6 (fun i => nth i [0;0;0;0;0;0] 0 * _ * _)) by (intros i Hi; destruct i as [|[|[|[|[|[|i]]]]]]; try lia; cbn [nth]; ring).
  unfold member_inertia, member_mass. cbn [b_ni b_nj b_prop demo_beam density area]. unfold nodeA, nodeB, node_at, n_loc; cbn [n_csys cs_O].
  rewrite demo_dist. unfold beam_ends, demo_beam; cbn [b_ni b_nj n_name nodeA nodeB node_at].
  change (num _ "A") with 0%nat. change (num _ "B") with 1%nat. unfold ends_at, disp_at, rot_at, dot3; cbn [d_i d_j r_i r_j vx vy vz Nat.mul Nat.add].
  rewrite delta_same. rewrite !(delta_other 6) by lia. field.
Qed.

Definition axial : list R := [1;0;0;0;0;0].
Lemma demo_eigen : solve_eigen zero_ker (trial_eigen 2 axial) demo_asm "C" (Modal 1 None) = Some ([axial], [2]).
Proof.
  pose proof (demo_fresh_nodes tip_solver) as NR. pose proof (demo_final tip_solver) as DF.
  assert (Ha : read_asb (final tip_solver init demo) = Some demo_asm) by (rewrite DF; reflexivity).
  assert (Hm : assembled_model (final tip_solver init demo) = Some demo_fem) by (rewrite DF; reflexivity).
  assert (HP : forall k b, In (k, b) (f_beams demo_fem) -> 1 + poisson (b_prop b) <> 0).
  { intros k b [H|[]]. injection H as <- <-. cbn. lra. }
  destruct (c21_defined tip_solver demo _ demo_fem eq_refl NR Hm HP) as (K & HK).
  destruct (c40_defined tip_solver demo _ demo_fem eq_refl NR Hm) as (M & HM).
  unfold stiffness in HK. unfold mass_matrix in HM. rewrite Ha in HK, HM. cbn [bindO] in HK, HM. cbn [x_ker tip_solver trial] in HK.
  assert (W : fem_wf demo_fem) by (apply (assembled_good _ _ _ _ eq_refl NR Hm)).
  destruct (assemble_K_bil zero_ker demo_asm K (fun _ => 0) (fun _ => 0) W HK) as (_ & RK).
  destruct (assemble_M_bil demo_asm M (fun _ => 0) (fun _ => 0) W HM) as (_ & RM).
  change (size (a_model demo_asm)) with 12%nat in RK, RM.
  assert (ND : NoDup [0;1;2;3;4;5]%nat) by (repeat constructor; cbn; lia).
  assert (BB : forall i, In i [0;1;2;3;4;5]%nat -> (i < 12)%nat) by (intros i; cbn; lia).
  destruct (drop_matrix_free 12 K _ ND BB RK) as (K_ & EK & _ & GK). destruct (drop_matrix_free 12 M _ ND BB RM) as (M_ & EM & _ & GM).
  change (free 12 [0;1;2;3;4;5]%nat) with [6;7;8;9;10;11]%nat in *. cbn [List.length] in EK, EM, GK, GM.
  unfold solve_eigen. cbn [ms_base]. rewrite HK. cbn [bindO]. rewrite HM. cbn [bindO].
  change (boundary_dofs demo_asm "C") with (Some [0;1;2;3;4;5]%nat). cbn [bindO].
  change (node_count (a_model demo_asm) * 6)%nat with 12%nat. rewrite EK. cbn [bindO]. rewrite EM. cbn [bindO fst snd].
  unfold trial_eigen at 1.
  assert (OK : pair_ok 2 axial 6 K_ M_ = true).
  { apply andb_true_iff. split.
    - cbn. destruct (Reqb 1 0) eqn:E; [apply Reqb_true in E; lra|reflexivity].
    - apply forallb_forall. intros r Hr. apply in_seq in Hr. apply Reqb_true.
      assert (S1 : forall A : coo, rsum 6 (fun j => coo_get A r j * nth j axial 0) = coo_get A r 0) by (intros A; unfold axial; cbn [rsum nth]; ring).
      rewrite !S1. rewrite GK, GM by lia. change (nth 0 [6;7;8;9;10;11]%nat 0%nat) with 6%nat.
      rewrite (demo_mass_column M _ W HM). destruct (demo_column 0 1 demo_asm K (nth r [6;7;8;9;10;11]%nat 0%nat) (demo_like W) HK) as [C1 _]. cbn [Nat.mul Nat.add] in C1. rewrite C1.
      assert (D0 : delta (nth r [6;7;8;9;10;11]%nat 0%nat) 0 = 0) by (destruct r as [|[|[|[|[|[|r]]]]]]; try lia; reflexivity).
      rewrite D0. field. }
  rewrite OK. reflexivity.
Qed.

Lemma c49_refuted : exists ker eigsh a c st modes o x om f T, exact_eigen eigsh /\ solve_eigen ker eigsh a c st = Some (modes, o)
  /\ nth_error o 0 = Some om /\ nth_error modes 0 = Some x /\ 0 < om
  /\ nth_error (resolve_modal_frequency o) 0 = Some (om, f, T) /\ ~ true_frequency om f T.
Proof.
  destruct (c49_reported_partial [2] 0 2 eq_refl ltac:(lra)) as (f & T & R & _).
  exists zero_ker, (trial_eigen 2 axial), demo_asm, "C", (Modal 1 None), [axial], [2], axial, 2, f, T.
  split; [apply trial_eigen_exact|]. split; [exact demo_eigen|]. split; [reflexivity|]. split; [reflexivity|]. split; [lra|]. split; [exact R|].
  intros Q. apply (c49_iff [2] 0 2 2 f T eq_refl ltac:(lra) R) in Q. lra.
Qed.

Lemma wilson_pushed : exists s', wilson_step 1 divide (fun _ _ => 1) one zero_mat (1/4) (1/2) 1 1 pushed unit_force = Some s'.
Proof.
  set (b := wilson_coef (1/4) (1/2) 1 1).
  assert (B1 : b1 b = 4) by (unfold b, wilson_coef; cbn [b1]; field).
  destruct (implicit_divide 1 b pushed unit_force ltac:(rewrite B1; lra)) as (s1 & E1 & _).
  unfold wilson_step. fold b. rewrite E1. cbn [bindO]. eexists. reflexivity.
Qed.

(** ** Other statements *)
Lemma c64_refuted : exists lambda, 0 < lambda /\ ~ true_period lambda (spectrum_period lambda).
Proof. exists 16. split; [lra|]. intros H. apply c64_iff in H; lra. Qed.

Lemma c65_refuted : exists ext a c p s, exact_cg ext /\ 0 < dp_step p /\ 0 < dp_damping p /\ solve_direct ext a c p = Some s
  /\ dp_damping p <> damping_ratio (fst code_damping) (snd code_damping) (2 * PI / 2)
  /\ dp_damping p <> damping_ratio (fst code_damping) (snd code_damping) (2 * PI / 1).
Proof.
  exists mass_ext, mass_asm, "C", (Direct 1 (1/2)), mass_rows. cbn [dp_step dp_damping]. pose proof PI_RGT_0 as PP.
  destruct (c50_ratio (5/100) (2/100) (2 * PI / 2) (2 * PI / 1)) as (A & B); [lra|lra|lra|]. fold code_damping in A, B. rewrite A, B.
  split; [exact mass_exact|]. split; [lra|]. split; [lra|]. split; [apply mass_history; reflexivity|]. split; lra.
Qed.

(** two unrestrained nodes: twelve free equations *)
Definition loose_fem : fem := Fem [("A", nodeA); ("B", nodeB)] [] [] [] [] [] [] [("A", 0%nat); ("B", 1%nat)] [] [].
Definition loose_asm : asm := Asm loose_fem [("C", mass_case)] [mass_pat] 12%Z [].
Lemma loose_system : exists K_ M_ C_ lc, free_system (Ext zero_ker (fun _ _ _ => None) (fun _ _ _ => None)) loose_asm "C" 12 K_ M_ C_
  /\ dget "C" (a_cases loose_asm) = Some lc /\ snd (case_max_min_step lc) = Some 2%nat.
Proof.
  assert (exists M, assemble_M loose_asm None = Some M /\ coo_inrange 12 12 M = true) as (M & HM & IM).
  { set (A := nz (mat_coo 6 6 (node_M nodeA))). set (B := nz (mat_coo 6 6 (node_M nodeB))).
    set (M := List.concat [scatter (fun r => (0*6+r)%nat) A; scatter (fun r => (1*6+r)%nat) B] ++ List.concat []).
    assert (I : coo_inrange 12 12 M = true).
    { apply forallb_forall. intros [[r c] v] H. unfold M in H. cbn [List.concat app] in H. rewrite !app_nil_r in H.
      assert (Q : forall nd r c v, In (r, c, v) (nz (mat_coo 6 6 (node_M nd))) -> (r < 6 /\ c < 6)%nat).
      { clear. intros nd r c v H. unfold nz in H. apply filter_In in H as (H & _). unfold mat_coo in H.
        apply in_flat_map in H as (i & Hi & H). apply in_map_iff in H as (j & E & Hj). injection E as <- <- <-. apply in_seq in Hi, Hj. lia. }
      apply in_app_iff in H as [H|H]; unfold scatter in H; apply in_map_iff in H as ([[r' c'] v'] & E & H); injection E as <- <- <-;
        apply Q in H; apply andb_true_iff; split; apply Nat.ltb_lt; lia. }
    exists M. split; [|exact I]. unfold assemble_M. cbn [bindO]. change (node_count (a_model loose_asm) * 6)%nat with 12%nat.
    change (coo_make 12 12 M = Some M). unfold coo_make. rewrite I. reflexivity. }
  destruct (drop_matrix_free 12 M [] (NoDup_nil _) (fun i (H : In i []) => match H with end) IM) as (M_ & EM & _ & _).
  assert (IC : coo_inrange 12 12 (damping_matrix M []) = true).
  { unfold damping_matrix. cbn [coo_scale map]. rewrite app_nil_r. unfold coo_inrange in *. rewrite forallb_forall in *.
    intros [[r c] v] H. unfold coo_scale in H. apply in_map_iff in H as ([[r' c'] v'] & E & H). injection E as <- <- _. exact (IM _ H). }
  destruct (drop_matrix_free 12 _ [] (NoDup_nil _) (fun i (H : In i []) => match H with end) IC) as (C_ & EC & _ & _).
  exists [], M_, C_, mass_case. split; [|split; reflexivity]. exists [], M, []. cbv zeta. split; [reflexivity|]. split; [exact HM|]. split; [reflexivity|].
  split; [reflexivity|]. split; [exists 12%nat; exact EM|exists 12%nat; exact EC].
Qed.

(** two steps of Wilson's method under a growing load, with beta = 1/2 *)
Lemma wilson_two : exists s1 s2, wilson 1 divide (fun _ _ => 1) one zero_mat (1/2) (1/2) (7/5) [0; 1] [unit_force; fun _ => 3] pushed
  = Some [(0, pushed); (0, s1); (1, s2)].
Proof.
  set (b := wilson_coef (1/2) (1/2) (7/5) (1 - 0)).
  assert (B1 : 0 < b1 b) by (unfold b, wilson_coef; cbn [b1]; lra).
  unfold wilson. cbn [List.length Nat.min wilson_loads wilson_tail firstn wilson_loop]. unfold wilson_step. fold b.
  destruct (implicit_divide 1 b pushed unit_force ltac:(lra)) as (t1 & E1 & _). rewrite E1. cbn [bindO].
  match goal with |- context [implicit_step _ _ _ _ _ _ ?s ?f] => destruct (implicit_divide 1 b s f ltac:(lra)) as (t2 & E2 & _); rewrite E2 end.
  cbn [bindO firstn combine]. eexists. eexists. reflexivity.
Qed.
