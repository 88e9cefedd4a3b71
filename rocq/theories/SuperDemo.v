(** A mass on a spring, and a mass pushed once: instances for the statements about superposition. *)
From Coq Require Import Reals Lra Lia List String Arith Bool ZArith.
From Verif Require Import Base BaseFacts Csys Sections Element Load FeModel Assembly Solver
  Api ApiFacts WfFacts HidFacts ApiProofs1 Demo SpecElim ElimFacts SpecGeom SpecBeam SpecAsm AsmFacts AsmProofs SpecSolve AsmSolve SolveDemo Dynamic SpecDyn DynProofs DynDemo SpecEnergy EnergyProofs EnergyProofs2.
Import ListNotations.
Local Open Scope string_scope.
Local Open Scope list_scope.
Local Open Scope R_scope.

From Verif Require Import EnergyDemo SpecSuper SuperProofs.

Lemma one_inertial : inertial 1 one.
Proof.
  intros x (i & Hi & E). assert (i = O) by lia. subst i. cbn [rsum]. unfold one.
  assert (0 < x O * x O) by (destruct (Rtotal_order (x O) 0) as [H|[H|H]]; [|contradiction|]; nra). lra.
Qed.
Lemma none_psd : psd_upto 1 zero_mat.
Proof. intros x. cbn [rsum]. unfold zero_mat. lra. Qed.
(** two steps of Newmark's method from any state under any loads *)
Lemma newmark_any f g s : exists t1 s1 t2 s2, newmark 1 divide one one zero_mat (1/4) (1/2) [0;1] [f;g] s = Some [(0, s); (t1, s1); (t2, s2)].
Proof.
  destruct (spring_loop (1/4) ltac:(lra) [f;g] s) as (r & E & L). destruct r as [|r1 [|r2 [|? ?]]]; try discriminate.
  exists 0, r1, 1, r2. unfold newmark. cbn [List.length Nat.min firstn]. rewrite E. reflexivity.
Qed.
(** and of Wilson's *)
Lemma wilson_any f g s : exists t1 s1 t2 s2, wilson 1 divide one one zero_mat (1/6) (1/2) (7/5) [0;1] [f;g] s = Some [(0, s); (t1, s1); (t2, s2)].
Proof.
  set (b := wilson_coef (1/6) (1/2) (7/5) (1 - 0)).
  assert (B1 : 0 < b1 b) by (unfold b, wilson_coef; cbn [b1]; apply Rdiv_lt_0_compat; [lra|]; apply Rmult_lt_0_compat; [lra|]; apply pow_lt; lra).
  unfold wilson. cbn [List.length Nat.min wilson_loads wilson_tail firstn wilson_loop]. unfold wilson_step. fold b.
  destruct (implicit_divide 1 b s f ltac:(lra)) as (t1 & E1 & _). change (fun _ _ : nat => 1) with one in E1. rewrite E1. cbn [bindO].
  match goal with |- context [implicit_step _ _ _ _ _ _ ?s ?f] => destruct (implicit_divide 1 b s f ltac:(lra)) as (t2 & E2 & _) end.
  change (fun _ _ : nat => 1) with one in E2. rewrite E2. cbn [bindO firstn combine]. eexists. eexists. eexists. eexists. reflexivity.
Qed.

(** The free equations of the pushed mass are the same however long it is followed. *)
Lemma push_damped : exists M_ C_, (forall n, free_system uncoupled (push_asm n) "C" 6 [] M_ C_)
  /\ regular 6 (fun i j => coo_get M_ i j / 1^2 + coo_get C_ i j / (2 * 1)).
Proof.
  destruct mass_M as (M & HM & IM & GM).
  destruct (drop_matrix_free 6 M [] (NoDup_nil _) (fun i (H : In i []) => match H with end) IM) as (M_ & EM & _ & GM_).
  assert (IC : coo_inrange 6 6 (damping_matrix M []) = true).
  { unfold damping_matrix. cbn [coo_scale map]. rewrite app_nil_r. unfold coo_inrange in *. rewrite forallb_forall in *.
    intros [[r c] v] H. unfold coo_scale in H. apply in_map_iff in H as ([[r' c'] v'] & E & H). injection E as <- <- _. exact (IM _ H). }
  destruct (drop_matrix_free 6 _ [] (NoDup_nil _) (fun i (H : In i []) => match H with end) IC) as (C_ & EC & _ & GC_).
  assert (F6 : free 6 [] = seq 0 6) by reflexivity. rewrite F6 in *. rewrite seq_length in *.
  exists M_, C_. split.
  { intro n. exists [], M, []. cbv zeta. split; [reflexivity|]. split; [exact HM|]. split; [reflexivity|].
    split; [reflexivity|]. split; [exists 6%nat; exact EM|exists 6%nat; exact EC]. }
  intros x H i Hi. pose proof (H i Hi) as Q. pose proof damping_pos as DP.
  rewrite (rsum_single 6 i _ Hi) in Q.
  - rewrite GM_, GC_, !seq_nth in Q by assumption. cbn [Nat.add] in Q. rewrite damping_get, GM in Q by assumption. cbn [coo_get] in Q. rewrite Nat.eqb_refl in Q.
    assert (P : (1 + fst code_damping / 2) * x i = 0) by lra. apply Rmult_integral in P as [P|P]; lra.
  - intros j Hj NE. rewrite GM_, GC_, !seq_nth by assumption. cbn [Nat.add]. rewrite damping_get, GM by assumption. cbn [coo_get].
    destruct (Nat.eqb_spec i j); [congruence|]. unfold Rdiv. ring.
Qed.
Lemma push_load_is n t f : (t < S n)%nat -> free_load (push_asm n) "C" t f -> f = [push_value t;0;0;0;0;0].
Proof.
  intros Ht (fx & v & A1 & A2 & ->). destruct (push_f n t Ht) as (v' & F & D). assert (v = v') by congruence. subst v'.
  change (boundary_dofs (push_asm n) "C") with (Some ([] : list nat)) in A1. apply some_inj in A1. subst fx.
  change (node_count (a_model (push_asm n)) * 6)%nat with 6%nat. exact D.
Qed.
Lemma push_solved n : exists o, solve_direct uncoupled (push_asm n) "C" (Direct 1 0) = Some o.
Proof. destruct (push_matrices n) as (_ & _ & _ & _ & S). exact (S 1 0 eq_refl). Qed.
