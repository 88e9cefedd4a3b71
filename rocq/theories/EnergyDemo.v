(** An oscillator and a mass after a push: instances for the statements about energy.
    (Examples only; nothing here is part of the model.) *)
From Coq Require Import Reals Lra Lia List String Arith Bool ZArith.
From Verif Require Import Base BaseFacts Csys Sections Element Load FeModel Assembly Solver
  Api ApiFacts WfFacts HidFacts ApiProofs1 Demo SpecElim ElimFacts SpecGeom SpecBeam SpecAsm AsmFacts AsmProofs SpecSolve AsmSolve SolveDemo Dynamic SpecDyn DynProofs DynDemo SpecEnergy EnergyProofs EnergyProofs2.
Import ListNotations.
Local Open Scope string_scope.
Local Open Scope list_scope.
Local Open Scope R_scope.

(** ** A mass of 1 on a spring of 1, let go at 1 *)
Definition let_go : motion := Motion (fun _ => 1) (fun _ => 0) (fun _ => -1).
Lemma let_go_motion : in_motion 1 one zero_mat one no_force let_go.
Proof. intros i Hi. unfold one, zero_mat, let_go, no_force. cbn [rsum mu_ mv_ ma_]. ring. Qed.
Lemma one_symmetric : symmetric_upto 1 one.
Proof. intros i j _ _. reflexivity. Qed.
Lemma one_psd : psd_upto 1 one.
Proof. intros x. cbn [rsum]. unfold one. pose proof (pow2_ge_0 (x 0%nat)). lra. Qed.
Lemma one_mode : mode_of 1 one one 1 (fun _ => 1).
Proof. intros i Hi. cbn [rsum]. unfold one. ring. Qed.
Lemma spring_loop beta : 0 < beta -> forall F s, exists r, newmark_loop 1 divide one one zero_mat (newmark_coef beta (1/2) (1 - 0)) F s = Some r /\ List.length r = List.length F.
Proof.
  intros B. induction F as [|f F IH]; intros s; [exists []; split; reflexivity|]. cbn [newmark_loop].
  destruct (implicit_divide 1 (newmark_coef beta (1/2) (1 - 0)) s f) as (s' & E & _).
  { cbn [newmark_coef b1]. assert (0 < 1 / (beta * (1 - 0) * (1 - 0))) by (apply Rdiv_lt_0_compat; lra). lra. }
  change (fun _ _ : nat => 1) with one in E. rewrite E. cbn [bindO].
  destruct (IH s') as (r & Er & L). rewrite Er. cbn [bindO]. exists (s' :: r). split; [reflexivity|cbn; lia].
Qed.
Definition quiet (n : nat) : list (nat -> R) := repeat no_force n.
Lemma quiet_unloaded N n : unloaded N (quiet n).
Proof. intros f i H _. apply repeat_spec in H. subst f. reflexivity. Qed.
Definition ticking (n : nat) : list R := map INR (seq 2 n).
Lemma spring_run beta n : 0 < beta -> exists out, newmark 1 divide one one zero_mat beta (1/2) (0 :: 1 :: ticking n) (quiet (S (S n))) let_go = Some out
  /\ List.length out = S (S (S n)).
Proof.
  intros B. destruct (spring_loop beta B (quiet (S (S n))) let_go) as (r & E & L).
  assert (LQ : List.length (quiet (S (S n))) = S (S n)) by (unfold quiet; apply repeat_length).
  assert (LT : List.length (0 :: 1 :: ticking n) = S (S n)) by (cbn [List.length]; unfold ticking; rewrite map_length, seq_length; reflexivity).
  exists (combine (0 :: 0 :: 1 :: ticking n) (let_go :: r)). split.
  - unfold newmark. rewrite LT, LQ, Nat.min_id. rewrite firstn_all2 by (rewrite LQ; lia). rewrite E. cbn [bindO].
    rewrite firstn_all2 by (rewrite LT; lia). reflexivity.
  - rewrite combine_length. change (List.length (0 :: 0 :: 1 :: ticking n)) with (S (List.length (0 :: 1 :: ticking n))). rewrite LT. cbn [List.length]. rewrite L, LQ. lia.
Qed.
Lemma c122_refuted : exists N solve K M C s0, exact_linear solve /\ symmetric_upto N M /\ psd_upto N M /\ symmetric_upto N K /\ psd_upto N K
  /\ (forall i j, C i j = 0) /\ in_motion N M C K no_force s0
  /\ forall B, exists T F out t s, unloaded N F /\ newmark N solve K M C (1/4) (1/2) (0 :: 1 :: T) F s0 = Some out /\ In (t, s) out
       /\ mechanical N M K s0 + B < mechanical N M K s.
Proof.
  exists 1%nat, divide, one, one, zero_mat, let_go. split; [exact divide_exact|]. split; [exact one_symmetric|]. split; [exact one_psd|].
  split; [exact one_symmetric|]. split; [exact one_psd|]. split; [reflexivity|]. split; [exact let_go_motion|]. intros B.
  destruct (c122_grows 1 divide one one zero_mat (1/4) 0 1 1 (fun _ => 1) let_go divide_exact ltac:(lra) ltac:(lra) one_symmetric one_psd one_symmetric one_psd
    ltac:(reflexivity) one_mode ltac:(lra) let_go_motion) with (B := mechanical 1 one one let_go + B) as (n0 & H).
  { left. unfold energy_form, one, let_go. cbn [rsum mu_]. lra. }
  destruct (spring_run (1/4) n0 ltac:(lra)) as (out & E & L).
  destruct (nth_error out n0) as [[t s]|] eqn:EN; [|apply nth_error_None in EN; lia].
  exists (ticking n0), (quiet (S (S n0))), out, t, s. split; [apply quiet_unloaded|]. split; [exact E|]. split; [apply nth_error_In in EN; exact EN|].
  exact (H (ticking n0) (quiet (S (S n0))) out n0 t s (quiet_unloaded 1 _) E (Nat.le_refl _) EN).
Qed.

(** ** A mass of 1 pushed once *)
Definition push_case (n : nat) : lcase := LCase KStatic "C" [("P", 0%nat)] [("P", 1)] [("P", (map INR (seq 0 (S n)), 1 :: repeat 0 n))] [].
Definition push_asm (n : nat) : asm := Asm mass_fem [("C", push_case n)] [mass_pat] 6%Z [].
(** it is what the constructors build *)
Lemma push_asm_built n : exists m0 m1, model_add_node "A" 0 0 0 false (Fem [] [] [] [] [] [] [] [] [] []) = Some (O, m0)
  /\ model_set_mass "A" [1;1;1;1;1;1] m0 = Some m1
  /\ mk_asm m1 [case_add_pattern "P" 0 1 (Some (map INR (seq 0 (S n)), 1 :: repeat 0 n)) (new_case KStatic "C")] [mass_pat] = Some (push_asm n).
Proof. eexists _, _. split; [apply add_node_eq|]. split; reflexivity. Qed.
Lemma push_steps n : dget "C" (a_cases (push_asm n)) = Some (push_case n) /\ snd (case_max_min_step (push_case n)) = Some (S n).
Proof. split; [reflexivity|]. unfold case_max_min_step, push_case. cbn. rewrite repeat_length. reflexivity. Qed.
Definition push_value (t : nat) : R := if Nat.eqb t 0 then 1 else 0.
Lemma push_curve n t : (t < S n)%nat -> nth_error (1 :: repeat 0 n) t = Some (push_value t).
Proof.
  intros H. destruct t as [|t]; [reflexivity|]. cbn [nth_error]. unfold push_value. cbn [Nat.eqb].
  destruct (nth_error (repeat 0 n) t) eqn:E.
  - apply nth_error_In, repeat_spec in E. subst. reflexivity.
  - apply nth_error_None in E. rewrite repeat_length in E. lia.
Qed.
Lemma push_f n t : (t < S n)%nat -> exists v, assemble_f (push_asm n) "C" t = Some v /\ drop_vector 6 v [] = [push_value t;0;0;0;0;0].
Proof.
  intros H. set (w := push_value t).
  set (fn := ladd (zeros 6) (lscale w (lscale 1 [1;0;0;0;0;0]))).
  set (L := vec_triplets (fun k => (0*6+k)%nat) (matT_list 6 (node_T mass_node) fn)).
  assert (E : node_f_triplets (push_asm n) (push_case n) t "A" = Some L).
  { unfold node_f_triplets. cbn [push_asm a_model mass_fem f_nodes dget String.eqb Ascii.eqb Bool.eqb bindO].
    unfold case_nodal_f. cbn [push_case c_factor fold_left bindO fst snd].
    change (deref (a_heap (push_asm n)) (push_case n) "P") with (Some mass_pat). cbn [bindO].
    change (pat_nodal_f mass_pat "A") with (Some [1;0;0;0;0;0]). cbv iota.
    change (dget "P" (c_curve (push_case n))) with (Some (map INR (seq 0 (S n)), 1 :: repeat 0 n)). cbn [bindO snd].
    rewrite (push_curve n t H). reflexivity. }
  assert (V : forall k, (k < 6)%nat -> rsum 6 (fun k0 => node_T mass_node k0 k * nth k0 fn 0) = if Nat.eqb k 0 then w else 0).
  { intros k Hk. rewrite (rsum_single 6 0) by (try lia; intros i Hi NE; destruct i as [|[|[|[|[|[|i]]]]]]; try lia; cbn; ring).
    destruct k as [|[|[|[|[|[|k]]]]]]; try lia; cbn; ring. }
  assert (EL : forall i, (i < 6)%nat -> coo_get L i 0 = if Nat.eqb i 0 then w else 0).
  { intros i Hi. unfold L, vec_triplets, matT_list. cbn [List.length map seq flat_map nth Nat.mul Nat.add].
    rewrite !V by lia. cbn [Nat.eqb].
    assert (R0 : Reqb 0 0 = true) by (apply Reqb_true; reflexivity). rewrite R0. cbn [app].
    destruct (Reqb w 0) eqn:Q.
    - apply Reqb_true in Q. rewrite Q. cbn [app coo_get]. destruct (Nat.eqb i 0); reflexivity.
    - cbn [app coo_get]. destruct i as [|i]; cbn [Nat.eqb andb]; ring. }
  assert (IN : coo_inrange 6 1 L = true).
  { unfold L, vec_triplets, matT_list. cbn [List.length map seq flat_map nth Nat.mul Nat.add]. rewrite !V by lia. cbn [Nat.eqb].
    assert (R0 : Reqb 0 0 = true) by (apply Reqb_true; reflexivity). rewrite R0. destruct (Reqb w 0); reflexivity. }
  exists (L ++ []). split.
  - unfold assemble_f. cbn [a_cases push_asm dget String.eqb Ascii.eqb Bool.eqb bindO push_case c_name a_model model_node_names dkeys mass_fem f_nodes map fst mapM f_beams node_count List.length].
    fold mass_fem. fold (push_case n). fold (push_asm n). rewrite E. cbn [bindO List.concat app]. rewrite !app_nil_r.
    unfold coo_make. change (1 * 6)%nat with 6%nat. rewrite IN. reflexivity.
  - rewrite app_nil_r. unfold drop_vector. change (filter (fun i => negb (memb i [])) (seq 0 6)) with [0;1;2;3;4;5]%nat. cbn [map]. rewrite !EL by lia. reflexivity.
Qed.
(** a solver for uncoupled equations *)
Definition quotient (N : nat) (A : coo) (b : list R) : list R := map (fun i => nth i b 0 / coo_get A i i) (seq 0 N).
Definition uncoupled : externals := Ext zero_ker
  (fun N A b => if solvesb (quotient N A b) N A b then Some (quotient N A b) else None)
  (fun N A b => if solvesb (quotient N A b) N A b then Some (quotient N A b) else None).
Lemma uncoupled_exact : exact_cg uncoupled.
Proof.
  intros N A b y. cbn [uncoupled x_cg]. destruct (solvesb _ N A b) eqn:E; [|discriminate].
  intros H. apply some_inj in H. subst y. apply solvesb_true. exact E.
Qed.
Lemma uncoupled_answers N A b (d : R) : d <> 0 -> (forall i j, (i < N)%nat -> (j < N)%nat -> coo_get A i j = if Nat.eqb i j then d else 0) ->
  exists y, x_cg uncoupled N A b = Some y.
Proof.
  intros D H. cbn [uncoupled x_cg]. rewrite (proj2 (solvesb_true _ _ _ _)); [eexists; reflexivity|]. unfold quotient. split; [rewrite map_length, seq_length; reflexivity|].
  intros i Hi. rewrite (rsum_single N i _ Hi); [|intros j Hj NE; rewrite H by assumption; destruct (Nat.eqb_spec i j); [congruence|ring]].
  rewrite nth_map_seq, !H by exact Hi. rewrite Nat.eqb_refl. field. exact D.
Qed.

Lemma push_matrices n : exists M_ C_, free_system uncoupled (push_asm n) "C" 6 [] M_ C_
  /\ (forall i j, (i < 6)%nat -> (j < 6)%nat -> coo_get M_ i j = if Nat.eqb i j then 1 else 0)
  /\ forall dt d, dt = 1 -> exists s, solve_direct uncoupled (push_asm n) "C" (Direct dt d) = Some s.
Proof.
  destruct mass_M as (M & HM & IM & GM).
  change (assemble_M mass_asm None) with (assemble_M (push_asm n) None) in HM.
  destruct (drop_matrix_free 6 M [] (NoDup_nil _) (fun i (H : In i []) => match H with end) IM) as (M_ & EM & _ & GM_).
  assert (IC : coo_inrange 6 6 (damping_matrix M []) = true).
  { unfold damping_matrix. cbn [coo_scale map]. rewrite app_nil_r. unfold coo_inrange in *. rewrite forallb_forall in *.
    intros [[r c] v] H. unfold coo_scale in H. apply in_map_iff in H as ([[r' c'] v'] & E & H). injection E as <- <- _. exact (IM _ H). }
  destruct (drop_matrix_free 6 _ [] (NoDup_nil _) (fun i (H : In i []) => match H with end) IC) as (C_ & EC & _ & GC_).
  assert (F6 : free 6 [] = seq 0 6) by reflexivity. rewrite F6 in *. rewrite seq_length in *.
  assert (GM6 : forall i j, (i < 6)%nat -> (j < 6)%nat -> coo_get M_ i j = if Nat.eqb i j then 1 else 0).
  { intros i j Hi Hj. rewrite GM_, !seq_nth by assumption. apply GM; assumption. }
  assert (GC6 : forall i j, (i < 6)%nat -> (j < 6)%nat -> coo_get C_ i j = if Nat.eqb i j then fst code_damping else 0).
  { intros i j Hi Hj. rewrite GC_, !seq_nth by assumption. cbn [Nat.add]. rewrite damping_get, GM by assumption. cbn [coo_get]. destruct (Nat.eqb i j); ring. }
  exists M_, C_. split.
  { exists [], M, []. cbv zeta. split; [reflexivity|]. split; [exact HM|]. split; [reflexivity|].
    split; [reflexivity|]. split; [exists 6%nat; exact EM|exists 6%nat; exact EC]. }
  split; [exact GM6|]. intros dt d ->.
  unfold solve_direct. change (node_count (a_model (push_asm n)) * 6)%nat with 6%nat.
  change (assemble_K (x_ker uncoupled) (push_asm n)) with (Some ([] : coo)). cbn [bindO]. rewrite HM. cbn [bindO].
  change (boundary_dofs (push_asm n) "C") with (Some ([] : list nat)). cbn [bindO].
  change (drop_matrix 6 [] []) with (Some (6%nat, [] : coo)). cbn [bindO]. rewrite EM. cbn [bindO]. rewrite EC. cbn [bindO fst snd].
  destruct (push_steps n) as (Q1 & Q2). rewrite Q1. cbn [bindO]. rewrite Q2. cbv iota.
  set (load := fun t => bindO (assemble_f (push_asm n) "C" t) _).
  assert (LD : forall t, (t < S n)%nat -> exists f, load t = Some f /\ List.length f = 6%nat).
  { intros t Ht. destruct (push_f n t Ht) as (v & F & D). exists [push_value t;0;0;0;0;0]. split; [|reflexivity]. unfold load. rewrite F. cbn [bindO]. rewrite D. reflexivity. }
  assert (LOOP : forall k t u, (t + k <= S n)%nat -> exists u', integration_loop (x_cg uncoupled) 6 [] M_ C_ (dp_step (Direct 1 d)) load t k u = Some u').
  { induction k as [|k IH]; intros t u Ht; [exists u; reflexivity|]. cbn [integration_loop].
    destruct (LD t ltac:(lia)) as (f & EF & LF). unfold integration_step at 1. rewrite EF. cbn [bindO]. rewrite LF. cbn [Nat.eqb dp_step].
    set (rhs := map _ _). destruct (uncoupled_answers 6 (coo_scale (1 / 1 / 1) M_ ++ coo_scale (1 / 2 / 1) C_) rhs (1 + fst code_damping / 2)) as (y & EY).
    - pose proof damping_pos. lra.
    - intros i j Hi Hj. rewrite coo_get_app, !coo_get_scale, GM6, GC6 by assumption. destruct (Nat.eqb i j); field.
    - rewrite EY. cbn [bindO]. apply (IH (S t)). lia. }
  match goal with |- exists s, bindO (integration_loop _ _ _ _ _ _ _ _ _ ?u) _ = _ => destruct (LOOP (S n) O u ltac:(lia)) as (u' & EU) end.
  rewrite EU. cbn [bindO]. eexists. reflexivity.
Qed.

Definition toward_x (i : nat) : R := if Nat.eqb i 0 then 1 else 0.
Lemma push_mode M_ : mode_of 6 (coo_get []) (coo_get M_) 0 toward_x.
Proof. intros i Hi. rewrite rsum_0; [ring|]. intros j _. cbn [coo_get]. ring. Qed.
Lemma push_loads n : free_load (push_asm n) "C" 0 [1;0;0;0;0;0] /\ rsum 6 (fun i => toward_x i * nth i [1;0;0;0;0;0] 0) = 1
  /\ forall t f, (0 < t < S n)%nat -> free_load (push_asm n) "C" t f -> forall i, (i < 6)%nat -> nth i f 0 = 0.
Proof.
  split; [|split].
  - destruct (push_f n 0 ltac:(lia)) as (v & F & D). exists [], v. split; [reflexivity|]. split; [exact F|symmetry; exact D].
  - cbn [rsum]. unfold toward_x. cbn [Nat.eqb nth]. ring.
  - intros t f Ht (fx & v & A1 & A2 & ->) i Hi. destruct (push_f n t ltac:(lia)) as (v' & F & D). assert (v = v') by congruence. subst v'.
    change (boundary_dofs (push_asm n) "C") with (Some ([] : list nat)) in A1. apply some_inj in A1. subst fx.
    change (node_count (a_model (push_asm n)) * 6)%nat with 6%nat. rewrite D. unfold push_value. destruct (Nat.eqb_spec t 0); [lia|].
    destruct i as [|[|[|[|[|[|i]]]]]]; try lia; reflexivity.
Qed.
Lemma still_damping : modal_damping 0 * 1 < 2 /\ 0 < modal_damping 0.
Proof.
  unfold modal_damping. pose proof PI_RGT_0 as P. pose proof PI_4 as P4. replace ((16 * PI^2 - 0^2) / (150 * PI)) with (16 / 150 * PI) by (field; lra). lra.
Qed.
Lemma c123_refuted : exists ext dt, exact_cg ext /\ 0 < dt
  /\ forall B, exists a c damp s steps lc r f0 i, solve_direct ext a c (Direct dt damp) = Some s
       /\ dget c (a_cases a) = Some lc /\ snd (case_max_min_step lc) = Some steps
       /\ free_load a c 0 f0 /\ (forall q, (q < 6)%nat -> nth q f0 0 = if Nat.eqb q 0 then 1 else 0)
       /\ (forall t f, (0 < t < steps)%nat -> free_load a c t f -> forall q, (q < 6)%nat -> nth q f 0 = 0)
       /\ In r s /\ B < Rabs (nth i r 0).
Proof.
  exists uncoupled, 1. split; [exact uncoupled_exact|]. split; [lra|]. intros B.
  destruct still_damping as (D1 & D2).
  destruct (c123_grows 0 1 1 ltac:(lra) ltac:(lra) ltac:(lra) ltac:(lra) B) as (n0 & H).
  destruct (push_matrices n0) as (M_ & C_ & FS & GM & SO). destruct (SO 1 (5/100) eq_refl) as (s & HS).
  destruct (push_loads n0) as (L0 & LP & LZ). destruct (push_steps n0) as (Q1 & Q2).
  assert (SM : symmetric_upto 6 (coo_get M_)).
  { intros i j Hi Hj. rewrite !GM by assumption. rewrite Nat.eqb_sym. reflexivity. }
  destruct (H uncoupled (push_asm n0) "C" (5/100) s 6%nat [] M_ C_ (push_case n0) (S n0) toward_x [1;0;0;0;0;0] uncoupled_exact HS FS SM ltac:(intros i j _ _; reflexivity)
     (push_mode M_) Q1 Q2 ltac:(lia) L0 LP LZ) as (r & IN & BIG).
  exists (push_asm n0), "C", (5/100), s, (S n0), (push_case n0), r, [1;0;0;0;0;0], 0%nat.
  split; [exact HS|]. split; [exact Q1|]. split; [exact Q2|]. split; [exact L0|].
  split. { intros q Hq. destruct q as [|[|[|[|[|[|q]]]]]]; try lia; reflexivity. }
  split; [exact LZ|]. split; [exact IN|].
  assert (E : mode_share 6 (coo_get M_) toward_x r = nth 0 r 0).
  { unfold mode_share, energy_form.
    rewrite (rsum_single 6 0 _ ltac:(lia)); [|intros i Hi NE; unfold toward_x; destruct (Nat.eqb_spec i 0); [lia|ring]].
    rewrite (rsum_single 6 0 _ ltac:(lia)); [|intros j Hj NE; rewrite GM by lia; destruct (Nat.eqb_spec 0 j); [lia|ring]].
    rewrite GM by lia. unfold toward_x, as_vector. cbn [Nat.eqb]. ring. }
  rewrite <- E. exact BIG.
Qed.
