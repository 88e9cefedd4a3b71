(** A mass of 1 driven by any force in the direction x: instances for superposition and delay.
    (Examples only; nothing here is part of the model.) *)
From Coq Require Import Reals Lra Lia List String Arith Bool ZArith.
From Verif Require Import Base BaseFacts Csys Sections Element Load FeModel Assembly Solver
  Api ApiFacts WfFacts HidFacts ApiProofs1 Demo SpecElim ElimFacts SpecGeom SpecBeam SpecAsm AsmFacts AsmProofs SpecSolve AsmSolve SolveDemo Dynamic SpecDyn DynProofs DynDemo SpecEnergy EnergyProofs EnergyProofs2.
Import ListNotations.
Local Open Scope string_scope.
Local Open Scope list_scope.
Local Open Scope R_scope.
From Verif Require Import EnergyDemo SpecSuper SuperProofs SuperDemo.

Definition drive_case (ys : list R) : lcase := LCase KStatic "C" [("P", 0%nat)] [("P", 1)] [("P", (map INR (seq 0 (List.length ys)), ys))] [].
Definition drive_asm (ys : list R) : asm := Asm mass_fem [("C", drive_case ys)] [mass_pat] 6%Z [].
(** it is what the constructors build *)
Lemma drive_asm_built ys : exists m0 m1, model_add_node "A" 0 0 0 false (Fem [] [] [] [] [] [] [] [] [] []) = Some (O, m0)
  /\ model_set_mass "A" [1;1;1;1;1;1] m0 = Some m1
  /\ mk_asm m1 [case_add_pattern "P" 0 1 (Some (map INR (seq 0 (List.length ys)), ys)) (new_case KStatic "C")] [mass_pat] = Some (drive_asm ys).
Proof. eexists _, _. split; [apply add_node_eq|]. split; reflexivity. Qed.
Lemma drive_steps ys : ys <> [] -> dget "C" (a_cases (drive_asm ys)) = Some (drive_case ys) /\ snd (case_max_min_step (drive_case ys)) = Some (List.length ys).
Proof. intros _. split; reflexivity. Qed.
Lemma drive_f ys t w : nth_error ys t = Some w -> exists v, assemble_f (drive_asm ys) "C" t = Some v /\ drop_vector 6 v [] = [w;0;0;0;0;0].
Proof.
  intros H.
  set (fn := ladd (zeros 6) (lscale w (lscale 1 [1;0;0;0;0;0]))).
  set (L := vec_triplets (fun k => (0*6+k)%nat) (matT_list 6 (node_T mass_node) fn)).
  assert (E : node_f_triplets (drive_asm ys) (drive_case ys) t "A" = Some L).
  { unfold node_f_triplets. cbn [drive_asm a_model mass_fem f_nodes dget String.eqb Ascii.eqb Bool.eqb bindO].
    unfold case_nodal_f. cbn [drive_case c_factor fold_left bindO fst snd].
    change (deref (a_heap (drive_asm ys)) (drive_case ys) "P") with (Some mass_pat). cbn [bindO].
    change (pat_nodal_f mass_pat "A") with (Some [1;0;0;0;0;0]). cbv iota.
    change (dget "P" (c_curve (drive_case ys))) with (Some (map INR (seq 0 (List.length ys)), ys)). cbn [bindO snd].
    rewrite H. reflexivity. }
  assert (V : forall k, (k < 6)%nat -> rsum 6 (fun k0 => node_T mass_node k0 k * nth k0 fn 0) = if Nat.eqb k 0 then w else 0).
  { intros k Hk. rewrite (rsum_single 6 0) by (try lia; intros i Hi NE; destruct i as [|[|[|[|[|[|i]]]]]]; try lia; cbn; ring).
    destruct k as [|[|[|[|[|[|k]]]]]]; try lia; cbn; ring. }
  assert (EL : forall i, (i < 6)%nat -> coo_get L i 0 = if Nat.eqb i 0 then w else 0).
  { intros i Hi. unfold L, vec_triplets, matT_list. cbn [List.length map seq flat_map nth Nat.mul Nat.add].
    rewrite !V by lia. cbn [Nat.eqb].
    assert (R0 : Reqb 0 0 = true) by (apply Reqb_true; reflexivity). rewrite R0. cbn [app].
    destruct (Reqb w 0) eqn:Q.
    - apply Reqb_true in Q. rewrite Q. cbn [app coo_get]. destruct (Nat.eqb i 0); reflexivity.
    - cbn [app coo_get]. destruct i as [|i]; cbn [Nat.eqb andb]; ring. }
  assert (IN : coo_inrange 6 1 L = true).
  { unfold L, vec_triplets, matT_list. cbn [List.length map seq flat_map nth Nat.mul Nat.add]. rewrite !V by lia. cbn [Nat.eqb].
    assert (R0 : Reqb 0 0 = true) by (apply Reqb_true; reflexivity). rewrite R0. destruct (Reqb w 0); reflexivity. }
  exists (L ++ []). split.
  - unfold assemble_f. cbn [a_cases drive_asm dget String.eqb Ascii.eqb Bool.eqb bindO drive_case c_name a_model model_node_names dkeys mass_fem f_nodes map fst mapM f_beams node_count List.length].
    fold mass_fem. fold (drive_case ys). fold (drive_asm ys). rewrite E. cbn [bindO List.concat app]. rewrite !app_nil_r.
    unfold coo_make. change (1 * 6)%nat with 6%nat. rewrite IN. reflexivity.
  - rewrite app_nil_r. unfold drop_vector. change (filter (fun i => negb (memb i [])) (seq 0 6)) with [0;1;2;3;4;5]%nat. cbn [map]. rewrite !EL by lia. reflexivity.
Qed.
Lemma drive_matrices ys : ys <> [] -> exists M_ C_, free_system uncoupled (drive_asm ys) "C" 6 [] M_ C_
  /\ (forall i j, (i < 6)%nat -> (j < 6)%nat -> coo_get M_ i j = if Nat.eqb i j then 1 else 0)
  /\ forall dt d, dt = 1 -> exists s, solve_direct uncoupled (drive_asm ys) "C" (Direct dt d) = Some s.
Proof.
  intros NE. destruct mass_M as (M & HM & IM & GM).
  change (assemble_M mass_asm None) with (assemble_M (drive_asm ys) None) in HM.
  destruct (drop_matrix_free 6 M [] (NoDup_nil _) (fun i (H : In i []) => match H with end) IM) as (M_ & EM & _ & GM_).
  assert (IC : coo_inrange 6 6 (damping_matrix M []) = true).
  { unfold damping_matrix. cbn [coo_scale map]. rewrite app_nil_r. unfold coo_inrange in *. rewrite forallb_forall in *.
    intros [[r c] v] H. unfold coo_scale in H. apply in_map_iff in H as ([[r' c'] v'] & E & H). injection E as <- <- _. exact (IM _ H). }
  destruct (drop_matrix_free 6 _ [] (NoDup_nil _) (fun i (H : In i []) => match H with end) IC) as (C_ & EC & _ & GC_).
  assert (F6 : free 6 [] = seq 0 6) by reflexivity. rewrite F6 in *. rewrite seq_length in *.
  assert (GM6 : forall i j, (i < 6)%nat -> (j < 6)%nat -> coo_get M_ i j = if Nat.eqb i j then 1 else 0).
  { intros i j Hi Hj. rewrite GM_, !seq_nth by assumption. apply GM; assumption. }
  assert (GC6 : forall i j, (i < 6)%nat -> (j < 6)%nat -> coo_get C_ i j = if Nat.eqb i j then fst code_damping else 0).
  { intros i j Hi Hj. rewrite GC_, !seq_nth by assumption. cbn [Nat.add]. rewrite damping_get, GM by assumption. cbn [coo_get]. destruct (Nat.eqb i j); ring. }
  exists M_, C_. split.
  { exists [], M, []. cbv zeta. split; [reflexivity|]. split; [exact HM|]. split; [reflexivity|].
    split; [reflexivity|]. split; [exists 6%nat; exact EM|exists 6%nat; exact EC]. }
  split; [exact GM6|]. intros dt d ->.
  unfold solve_direct. change (node_count (a_model (drive_asm ys)) * 6)%nat with 6%nat.
  change (assemble_K (x_ker uncoupled) (drive_asm ys)) with (Some ([] : coo)). cbn [bindO]. rewrite HM. cbn [bindO].
  change (boundary_dofs (drive_asm ys) "C") with (Some ([] : list nat)). cbn [bindO].
  change (drop_matrix 6 [] []) with (Some (6%nat, [] : coo)). cbn [bindO]. rewrite EM. cbn [bindO]. rewrite EC. cbn [bindO fst snd].
  destruct (drive_steps ys NE) as (Q1 & Q2). rewrite Q1. cbn [bindO]. rewrite Q2. cbv iota.
  set (load := fun t => bindO (assemble_f (drive_asm ys) "C" t) _).
  assert (LD : forall t, (t < List.length ys)%nat -> exists f, load t = Some f /\ List.length f = 6%nat).
  { intros t Ht. destruct (nth_error ys t) as [w|] eqn:EW; [|apply nth_error_None in EW; lia]. destruct (drive_f ys t w EW) as (v & F & D). exists [w;0;0;0;0;0]. split; [|reflexivity]. unfold load. rewrite F. cbn [bindO]. rewrite D. reflexivity. }
  assert (LOOP : forall k t u, (t + k <= List.length ys)%nat -> exists u', integration_loop (x_cg uncoupled) 6 [] M_ C_ (dp_step (Direct 1 d)) load t k u = Some u').
  { induction k as [|k IH]; intros t u Ht; [exists u; reflexivity|]. cbn [integration_loop].
    destruct (LD t ltac:(lia)) as (f & EF & LF). unfold integration_step at 1. rewrite EF. cbn [bindO]. rewrite LF. cbn [Nat.eqb dp_step].
    set (rhs := map _ _). destruct (uncoupled_answers 6 (coo_scale (1 / 1 / 1) M_ ++ coo_scale (1 / 2 / 1) C_) rhs (1 + fst code_damping / 2)) as (y & EY).
    - pose proof damping_pos. lra.
    - intros i j Hi Hj. rewrite coo_get_app, !coo_get_scale, GM6, GC6 by assumption. destruct (Nat.eqb i j); field.
    - rewrite EY. cbn [bindO]. apply (IH (S t)). lia. }
  match goal with |- exists s, bindO (integration_loop _ _ _ _ _ _ _ _ _ ?u) _ = _ => destruct (LOOP (List.length ys) O u ltac:(lia)) as (u' & EU) end.
  rewrite EU. cbn [bindO]. eexists. reflexivity.
Qed.

(** The free equations of the pushed mass are the same whatever pushes it. *)
Lemma drive_damped : exists M_ C_, (forall ys, free_system uncoupled (drive_asm ys) "C" 6 [] M_ C_)
  /\ regular 6 (fun i j => coo_get M_ i j / 1^2 + coo_get C_ i j / (2 * 1)).
Proof.
  destruct mass_M as (M & HM & IM & GM).
  destruct (drop_matrix_free 6 M [] (NoDup_nil _) (fun i (H : In i []) => match H with end) IM) as (M_ & EM & _ & GM_).
  assert (IC : coo_inrange 6 6 (damping_matrix M []) = true).
  { unfold damping_matrix. cbn [coo_scale map]. rewrite app_nil_r. unfold coo_inrange in *. rewrite forallb_forall in *.
    intros [[r c] v] H. unfold coo_scale in H. apply in_map_iff in H as ([[r' c'] v'] & E & H). injection E as <- <- _. exact (IM _ H). }
  destruct (drop_matrix_free 6 _ [] (NoDup_nil _) (fun i (H : In i []) => match H with end) IC) as (C_ & EC & _ & GC_).
  assert (F6 : free 6 [] = seq 0 6) by reflexivity. rewrite F6 in *. rewrite seq_length in *.
  exists M_, C_. split.
  { intro ys. exists [], M, []. cbv zeta. split; [reflexivity|]. split; [exact HM|]. split; [reflexivity|].
    split; [reflexivity|]. split; [exists 6%nat; exact EM|exists 6%nat; exact EC]. }
  intros x H i Hi. pose proof (H i Hi) as Q. pose proof damping_pos as DP.
  rewrite (rsum_single 6 i _ Hi) in Q.
  - rewrite GM_, GC_, !seq_nth in Q by assumption. cbn [Nat.add] in Q. rewrite damping_get, GM in Q by assumption. cbn [coo_get] in Q. rewrite Nat.eqb_refl in Q.
    assert (P : (1 + fst code_damping / 2) * x i = 0) by lra. apply Rmult_integral in P as [P|P]; lra.
  - intros j Hj NE. rewrite GM_, GC_, !seq_nth by assumption. cbn [Nat.add]. rewrite damping_get, GM by assumption. cbn [coo_get].
    destruct (Nat.eqb_spec i j); [congruence|]. unfold Rdiv. ring.
Qed.
Lemma drive_load_is ys t w f : nth_error ys t = Some w -> free_load (drive_asm ys) "C" t f -> f = [w;0;0;0;0;0].
Proof.
  intros Ht (fx & v & A1 & A2 & ->). destruct (drive_f ys t w Ht) as (v' & F & D). assert (v = v') by congruence. subst v'.
  change (boundary_dofs (drive_asm ys) "C") with (Some ([] : list nat)) in A1. apply some_inj in A1. subst fx.
  change (node_count (a_model (drive_asm ys)) * 6)%nat with 6%nat. exact D.
Qed.
Lemma drive_solved ys : ys <> [] -> exists o, solve_direct uncoupled (drive_asm ys) "C" (Direct 1 0) = Some o.
Proof. intros NE. destruct (drive_matrices ys NE) as (_ & _ & _ & _ & S). exact (S 1 0 eq_refl). Qed.
Lemma drive_load_past ys t f : (List.length ys <= t)%nat -> ~ free_load (drive_asm ys) "C" t f.
Proof.
  intros H (fx & v & _ & A2 & _). unfold assemble_f in A2.
  cbn [a_cases drive_asm dget String.eqb Ascii.eqb Bool.eqb bindO drive_case c_name a_model model_node_names dkeys mass_fem f_nodes map fst mapM f_beams node_count List.length] in A2.
  fold mass_fem in A2. fold (drive_case ys) in A2. fold (drive_asm ys) in A2.
  assert (E : node_f_triplets (drive_asm ys) (drive_case ys) t "A" = None).
  { unfold node_f_triplets. cbn [drive_asm a_model mass_fem f_nodes dget String.eqb Ascii.eqb Bool.eqb bindO].
    unfold case_nodal_f. cbn [drive_case c_factor fold_left bindO fst snd].
    change (deref (a_heap (drive_asm ys)) (drive_case ys) "P") with (Some mass_pat). cbn [bindO].
    change (pat_nodal_f mass_pat "A") with (Some [1;0;0;0;0;0]). cbv iota.
    change (dget "P" (c_curve (drive_case ys))) with (Some (map INR (seq 0 (List.length ys)), ys)). cbn [bindO snd].
    rewrite (proj2 (nth_error_None ys t) H). reflexivity. }
  rewrite E in A2. discriminate A2.
Qed.
Lemma drive_load_at ys t f : free_load (drive_asm ys) "C" t f -> f = [nth t ys 0;0;0;0;0;0].
Proof.
  intros G. destruct (nth_error ys t) as [w|] eqn:E.
  - rewrite (nth_error_nth ys t 0 E). exact (drive_load_is ys t w f E G).
  - apply nth_error_None in E. exfalso. exact (drive_load_past ys t f E G).
Qed.
