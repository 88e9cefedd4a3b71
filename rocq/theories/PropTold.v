(** Properties C78 and C79: the model holds what the calls said.
    Only statements, each closed by a lemma proved elsewhere, with the assumptions it
    rests on and an instance of its hypotheses. *)
From Coq Require Import Reals Lra Lia List String Arith Bool ZArith Sorting.Permutation Sorting.Sorted.
From Verif Require Import Base BaseFacts Csys Sections Element Load FeModel Assembly Solver Post Api SpecApi ApiFacts WfFacts Demo AsmProofs SpecAsm SpecTold ToldProofs SpecLoad LoadProofs SpecToldLoad ToldLoadProofs ToldDemo.
Import ListNotations.
Local Open Scope string_scope.
Local Open Scope list_scope.
Local Open Scope R_scope.

(** C78. After any calls the model holds, for every name, the last definition accepted: nodes with
    position and mass, restraints, materials, sections, beams and shells; a load brings back what
    had been told at the save. *)
Theorem C78_told ext ops : holds (k_fem (w_core (final ext init ops))) (now (notes (trace ext init ops))).
Proof. exact (c78_holds ext ops). Qed.
Print Assumptions C78_told.
Definition told_history : list op :=
  [OpAddMaterial "steel" 7 200 0 0; OpAddGeneral "s" "steel" 1 2 3 4 5 6 7 8; OpAddMaterial "steel" 8 210 0 0;
   OpSave "f"; OpAddGeneral "s" "steel" 9 9 9 9 9 9 9 9; OpLoad "f"].
Example C78_example : dget "s" (f_bsecs (k_fem (w_core (final (Ext zero_ker (fun _ _ _ => None) (fun _ _ _ => None)) init told_history))))
  = Some {| s_mat := Mat 7 200 0 0; s_A := 1; s_As2 := 2; s_As3 := 3; s_J := 6; s_I22 := 4; s_I33 := 5; s_W22 := 7; s_W33 := 8 |}.
Proof.
  destruct (C78_told (Ext zero_ker (fun _ _ _ => None) (fun _ _ _ => None)) told_history) as (_ & _ & _ & H & _).
  rewrite H. reflexivity.
Qed.

(** C78. The assembled copy, which the solvers read, holds what had been told at the last
    assembly that succeeded. *)
Theorem C78_assembled ext ops m : assembled_model (final ext init ops) = Some m ->
  exists t, built (notes (trace ext init ops)) = Some t /\ holds m t.
Proof. exact (c78_built ext ops m). Qed.
Print Assumptions C78_assembled.
Example C78_assembled_example : exists m t,
  assembled_model (final (Ext zero_ker (fun _ _ _ => None) (fun _ _ _ => None)) init (told_history ++ [OpAssemble; OpAddMaterial "steel" 1 1 1 1])) = Some m
  /\ built (notes (trace (Ext zero_ker (fun _ _ _ => None) (fun _ _ _ => None)) init (told_history ++ [OpAssemble; OpAddMaterial "steel" 1 1 1 1]))) = Some t
  /\ holds m t /\ t_mat t "steel" = Some (8, 210, 0, 0).
Proof.
  set (ext := Ext zero_ker (fun _ _ _ => None) (fun _ _ _ => None)). set (ops := told_history ++ _).
  assert (M : exists m, assembled_model (final ext init ops) = Some m) by (eexists; reflexivity).
  destruct M as (m & M). exists m. destruct (C78_assembled ext ops m M) as (t & B & H). exists t.
  split; [exact M|]. split; [exact B|]. split; [exact H|].
  assert (E : built (notes (trace ext init ops)) = Some t -> t_mat t "steel" = Some (8, 210, 0, 0)); [|exact (E B)].
  cbn. intros X. apply some_inj in X. subst t. reflexivity.
Qed.

(** C79. After any calls every name stands for the pattern created last under it, every pattern holds
    the loads last given to it, and every case has the kind, patterns, factors and restraints it
    was told; a case keeps the pattern it was given when the name is created again. *)
Theorem C79_told ext ops : let c := w_core (final ext init ops) in let t := l_now (load_notes (trace ext init ops)) in
  (forall k, dget k (k_pats c) = l_last t k) /\ holds_loads (k_heap c) (k_cases c) t.
Proof. exact (c79_holds ext ops). Qed.
Print Assumptions C79_told.
Example C79_example : let t := l_now (load_notes (trace no_ext init load_history)) in
  option_map (fun o => o_uses o "P") (l_case t "C") = Some (Some (0%nat, 10))
  /\ option_map (fun o => o_uses o "P") (l_case t "D") = Some (Some (1%nat, 3))
  /\ exists p q, nth_error (k_heap (w_core (final no_ext init load_history))) 0 = Some p
     /\ nth_error (k_heap (w_core (final no_ext init load_history))) 1 = Some q
     /\ dget "A" (p_nodal p) = Some [1; 2; 3; 4; 5; 6] /\ dget "A" (p_nodal q) = Some [7; 0; 0; 0; 0; 0].
Proof.
  cbv zeta. split; [reflexivity|]. split; [reflexivity|].
  destruct (C79_told no_ext load_history) as (_ & HL & HS & _).
  assert (P : exists p q, nth_error (k_heap (w_core (final no_ext init load_history))) 0 = Some p
     /\ nth_error (k_heap (w_core (final no_ext init load_history))) 1 = Some q) by (eexists; eexists; split; reflexivity).
  destruct P as (p & q & P & Q). exists p, q. split; [exact P|]. split; [exact Q|].
  destruct (HS _ _ P) as (N0 & _). destruct (HS _ _ Q) as (N1 & _). rewrite N0, N1. split; reflexivity.
Qed.

(** C79. The assembled copy holds the loads and cases told before the last assembly that succeeded. *)
Theorem C79_assembled ext ops a : read_asb (final ext init ops) = Some a ->
  exists t, l_built (load_notes (trace ext init ops)) = Some t /\ holds_loads (a_heap a) (a_cases a) t.
Proof. exact (c79_built ext ops a). Qed.
Print Assumptions C79_assembled.
Example C79_assembled_example : exists a, read_asb (final no_ext init later_history) = Some a
  /\ exists c, dget "C" (a_cases a) = Some c /\ dget "P" (c_factor c) = Some 10.
Proof.
  assert (A : exists a, read_asb (final no_ext init later_history) = Some a) by (rewrite later_final; eexists; reflexivity).
  destruct A as (a & A). exists a. split; [exact A|].
  destruct (C79_assembled no_ext later_history a A) as (t & B & _ & _ & HC). specialize (HC "C").
  assert (E : l_built (load_notes (trace no_ext init later_history)) = Some t -> exists o, l_case t "C" = Some o /\ o_uses o "P" = Some (0%nat, 10)).
  { unfold later_history. rewrite vector_trace, (trace_cons _ _ _ _ _ _ vs10). cbn. intros X. apply some_inj in X. subst t. eexists. split; reflexivity. }
  destruct (E B) as (o & E1 & E2). rewrite E1 in HC. destruct (dget "C" (a_cases a)) as [c|]; [|contradiction]. exists c.
  split; [reflexivity|]. destruct HC as (_ & _ & F & _). rewrite F, E2. reflexivity.
Qed.

(** C79. The load vector of a case that loads nodes only: at every equation of a node the sum, over
    the patterns of the case, of the factor told for the case times the load told for the node. *)
Theorem C79_vector ext ops w m case f t o names k d : w = final ext init ops -> never_readds_nodes ext ops ->
  assembled_model w = Some m -> load_vector w case = Some f ->
  l_built (load_notes (trace ext init ops)) = Some t -> l_case t case = Some o -> nodes_only t o ->
  NoDup names -> (forall p, o_uses o p <> None -> In p names) ->
  In k (dkeys (f_nodes m)) -> (d < 6)%nat ->
  coo_get f (6 * num m k + d) 0 = told_at t o names k d.
Proof. exact (c79_nodes ext ops w m case f t o names k d). Qed.
Print Assumptions C79_vector.
Example C79_vector_example : exists m f,
  assembled_model (final no_ext init vector_history) = Some m /\ load_vector (final no_ext init vector_history) "C" = Some f
  /\ coo_get f (6 * num m "A" + 1) 0 = 20.
Proof.
  assert (M : exists a lc, read_asb (final no_ext init vector_history) = Some a /\ assembled_model (final no_ext init vector_history) = Some (a_model a)
     /\ f_beams (a_model a) = [] /\ In "A" (dkeys (f_nodes (a_model a))) /\ dget "C" (a_cases a) = Some lc).
  { rewrite vector_final. eexists. eexists. split; [reflexivity|]. split; [reflexivity|]. split; [reflexivity|]. split; [left; reflexivity|reflexivity]. }
  destruct M as (a & lc & A & M & B1 & B2 & B3).
  assert (NR : never_readds_nodes no_ext vector_history).
  { unfold never_readds_nodes, vector_history. cbn [app load_history guarded fresh_node]. split; [exists []; split; [reflexivity|intros []]|cbn [guarded fresh_node]; tauto]. }
  assert (L : exists f, load_vector (final no_ext init vector_history) "C" = Some f).
  { apply (c26_defined no_ext vector_history _ (a_model a) "C" eq_refl NR M); [rewrite B1; intros ? ? []|]. exists a, lc. split; [exact A|exact B3]. }
  destruct L as (f & L). exists (a_model a), f. split; [exact M|]. split; [exact L|].
  assert (T : exists t o, l_built (load_notes (trace no_ext init vector_history)) = Some t /\ l_case t "C" = Some o
     /\ (forall p, o_uses o p = put "P" (0%nat, 10) (fun _ => None) p)
     /\ (forall b, s_line (l_sheet t 0) b = None /\ s_point (l_sheet t 0) b = None) /\ node_load t 0 "A" 1 = 2).
  { rewrite <- (app_nil_r vector_history), vector_trace. eexists. eexists. split; [reflexivity|]. split; [reflexivity|]. repeat split. }
  destruct T as (t & o & T & O1 & O2 & O3 & O4).
  rewrite (C79_vector no_ext vector_history _ _ _ _ t o ["P"] "A" 1 eq_refl NR M L T O1).
  - unfold told_at. cbn [map lsum]. rewrite O2, put_eq, O4. ring.
  - intros p i fac. rewrite O2. unfold put. destruct (String.eqb p "P"); [|discriminate]. intros X. apply some_inj in X. inversion X; subst. exact O3.
  - repeat constructor. intros [].
  - intros p. rewrite O2. unfold put. destruct (String.eqb_spec p "P") as [->|]; [left; reflexivity|congruence].
  - exact B2.
  - lia.
Qed.
