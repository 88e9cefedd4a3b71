(** A column turned about its axis: the answers are not turned (C111). *)
From Coq Require Import Reals Lra Lia List String Arith Bool ZArith Sorting.Permutation.
From Verif Require Import Base BaseFacts Csys Sections Element Load FeModel Assembly Solver Post Api
  SpecApi ApiFacts WfFacts HidFacts ApiProofs1 LoadFacts SpecElim ElimFacts SpecGeom CsysFacts SpecBeam BeamFacts AsmFacts SpecAsm AsmProofs
  AsmTotal AsmProofs2 SpecLoad LoadProofs AsmProofs3 SpecSolve AsmSolve Demo SolveDemo SpecStatics StaticsProofs StaticsProofs2
  SpecTold ToldProofs SpecToldLoad ToldLoadProofs SpecSame SameProofs SameProofs2 StaticsMain StaticsDemo StaticsDemo2 StaticsDemo3.
Import ListNotations.
Local Open Scope string_scope.
Local Open Scope list_scope.
Local Open Scope R_scope.

Definition foot : vec3 := V3 0 0 0.
Definition head : vec3 := V3 0 0 1.
(** A column whose second moments of area are 1 and 2, clamped at its foot and pushed at its head. *)
Definition col_base (e : vec3) : list op :=
  [OpAddNode "A" 0 0 0; OpAddNode "B" 0 0 1; OpSetRestraint "A" all_fixed; OpAddPattern "P"; OpSetNodalLoad "P" "B" (pull e);
   OpAddStatic "C"; OpAddCasePattern "C" "P" 1].
Definition col_op : op := OpAddSimpleBeam "b" "A" "B" 6 0 1 1 2 1 1.
Definition col_ops (e : vec3) : list op := col_base e ++ [col_op].
Definition col_beam : beam :=
  Beam "b" (nd "A" foot) (nd "B" head) (match line_csys foot head with Some c => c | None => CS zero3 zero3 zero3 zero3 end) no_releases (PSimple 6 0 1 1 2 1 1).
Definition col_fem : fem :=
  Fem [("A", nd "A" foot); ("B", nd "B" head)] [("A", list6 all_fixed)] [] [] [] [("b", col_beam)] [] [("A", 0%nat); ("B", 1%nat)] [("b", 0%nat)] [].
Definition col_heap (e : vec3) : list pattern := [Pattern "P" [("B", list6 (pull e))] [] [] []].
Definition col_cases : dict lcase := [("C", one_case "C" "P" 0 1 [])].
Definition col_core (e : vec3) : core := Core col_fem [("P", 0%nat)] (col_heap e) col_cases.

Lemma col_sep : well_separated foot head.
Proof.
  right. unfold plan_offset, rise, foot, head; cbn [vx vy vz]. replace (0 - 0) with 0 by ring. rewrite Rabs_R0, Rmax_left by lra.
  rewrite Rabs_left by lra. lra.
Qed.
Lemma col_final ext e : final ext init (col_ops e) = World (col_core e) [].
Proof.
  unfold col_ops. rewrite final_app.
  assert (N : final ext init (col_base e) = World (Core (Fem (f_nodes col_fem) (f_rest col_fem) [] [] [] [] [] (f_hnode col_fem) [] []) [("P", 0%nat)] (col_heap e) col_cases) []).
  { unfold col_base. rewrite final_cons. unfold after at 1. rewrite step_add_node. rewrite final_cons. unfold after at 1. rewrite step_add_node. reflexivity. }
  rewrite N, final_cons, final_nil. unfold after, col_op. cbn [step]. unfold model_add_simple_beam. cbn [w_core k_fem f_nodes col_fem dget String.eqb Ascii.eqb Bool.eqb bindO].
  unfold model_put_beam. 
  assert (MK : mk_beam "b" (nd "A" foot) (nd "B" head) (PSimple 6 0 1 1 2 1 1) = Some col_beam).
  { unfold mk_beam, col_beam. pose proof col_sep as H. unfold n_loc, nd, node_at. cbn [n_csys cs_O]. rewrite !vec_eta.
    destruct (line_csys foot head) eqn:L; [reflexivity|]. apply line_csys_none in L. contradiction. }
  rewrite MK. reflexivity.
Qed.
Lemma col_fresh ext e : never_readds_nodes ext (col_ops e).
Proof.
  assert (A1 : forall w n x y z, answer ext (after ext w (OpAddNode n x y z)) OpNodeNames = RNames (dkeys (dset n (node_at n x y z) (f_nodes (k_fem (w_core w)))))).
  { intros. unfold answer, after. rewrite step_add_node. reflexivity. }
  unfold never_readds_nodes, col_ops, col_base. cbn [app guarded fresh_node].
  split; [exists []; split; [reflexivity|intros []]|]. split; [|cbn; tauto].
  rewrite A1. eexists. split; [reflexivity|]. cbn. intros [X|[]]; discriminate.
Qed.

Lemma col_x : axis_x foot head = V3 0 0 1.
Proof.
  unfold axis_x, unit3, vsub, foot, head; cbn [vx vy vz]. replace (_ + _ + _) with 1 by ring. rewrite sqrt_1, Rinv_1.
  unfold vscale; cbn [vx vy vz]. apply vec3_eq; cbn [vx vy vz]; ring.
Qed.
Lemma col_z : axis_z foot head = V3 0 1 0.
Proof.
  unfold axis_z. rewrite col_x. unfold up_for, plan_offset, foot, head; cbn [vx vy vz]. replace (0 - 0) with 0 by ring. rewrite Rabs_R0, Rmax_left by lra.
  destruct (Rlt_dec _ _) as [_|N]; [|exfalso; apply N; lra].
  unfold unit3, cross; cbn [vx vy vz]. replace (_ ^ 2 + _ ^ 2 + _ ^ 2) with 1 by ring. rewrite sqrt_1, Rinv_1.
  unfold vscale; cbn [vx vy vz]. apply vec3_eq; cbn [vx vy vz]; ring.
Qed.
Lemma col_y : axis_y foot head = V3 1 0 0.
Proof. unfold axis_y. rewrite col_x, col_z. apply vec3_eq; cbn; ring. Qed.
Lemma col_dist : distance foot head = 1.
Proof. unfold distance, foot, head; cbn [vx vy vz]. replace (_ + _ + _) with 1 by ring. apply sqrt_1. Qed.

(** Displacements of the head. *)
Definition headed (v : list R) : string -> nat -> R := fun k j => if String.eqb k "B" then nth j v 0 else 0.
Definition push_x : vec3 := V3 12 0 0.
Definition push_y : vec3 := V3 0 12 0.
Definition bent_x : list R := [1/3; 0; 0; 0; 1/2; 0].
Definition bent_y : list R := [0; 2/3; 0; -1; 0; 0].
Definition col_ext : externals := tries [bent_x; bent_y].

Section Col.
Variables (e : vec3) (v : list R).
Hypothesis EV : (e = push_x /\ v = bent_x) \/ (e = push_y /\ v = bent_y).
Let ext := col_ext.
Let w := final ext init (col_ops e ++ [OpAssemble]).
Lemma col_guard : never_readds_nodes ext (col_ops e ++ [OpAssemble]).
Proof. apply told_guard, col_fresh. Qed.
Lemma col_asm : exists a, read_asb w = Some a /\ a_model a = col_fem /\ a_heap a = col_heap e /\ a_cases a = col_cases /\ w_core w = col_core e.
Proof.
  destruct (assembled_now ext (col_ops e) col_guard) as (_ & a & Ha & Em & Eh & Ec & _). fold w in Ha, Em, Eh, Ec. exists a.
  assert (E : w_core w = col_core e) by (unfold w; rewrite (core_assembled ext (col_ops e)), col_final; reflexivity).
  rewrite Em, Eh, Ec, E. split; [exact Ha|]. repeat split; reflexivity.
Qed.
Lemma col_model : assembled_model w = Some col_fem.
Proof. destruct col_asm as (a & Ha & Em & _). unfold assembled_model. rewrite Ha, <- Em. reflexivity. Qed.
Lemma col_table : answer ext w (OpNodeRestraints (Some "C")) = RFlags [].
Proof. destruct col_asm as (a & _ & _ & _ & _ & E). unfold answer. cbn [step]. rewrite E. reflexivity. Qed.
Lemma col_flag k j : flag (governing ext w "C") k j = match k with "A" => Nat.ltb j 6 | _ => false end.
Proof.
  destruct col_asm as (a & _ & _ & _ & _ & E). unfold governing. rewrite col_table. unfold answer. cbn [step snd]. rewrite E.
  unfold flag, entry. rewrite lookup_dget. cbn [col_core k_fem col_fem f_rest dget]. destruct (String.eqb_spec k "A") as [->|N].
  - do 6 (destruct j as [|j]; [reflexivity|]). destruct j; reflexivity.
  - destruct k as [|[[] [] [] [] [] [] [] []] [|]]; try reflexivity. congruence.
Qed.
Lemma col_prop k b : In (k, b) (f_beams col_fem) -> b = col_beam.
Proof. intros [H|[]]. injection H as _ H. exact (eq_sym H). Qed.
Lemma col_stiff : exists K, stiffness ext w = Some K.
Proof.
  apply (c21_defined ext _ w col_fem eq_refl col_guard col_model). intros k b H. apply col_prop in H. subst b. cbn. lra.
Qed.
Lemma col_load : exists f, load_vector w "C" = Some f.
Proof.
  apply (proj2 (c26_defined ext _ w col_fem "C" eq_refl col_guard col_model
    ltac:(intros k b HB; apply col_prop in HB; subst b; cbn; lra))).
  destruct col_asm as (a & Ha & _ & _ & Ec & _). exists a, (one_case "C" "P" 0 1 []). split; [exact Ha|]. rewrite Ec. reflexivity.
Qed.
Lemma col_good : good col_fem.
Proof. exact (assembled_good ext _ w _ eq_refl col_guard col_model). Qed.
Lemma col_keyA : In "A" (dkeys (f_nodes col_fem)).
Proof. cbn; auto. Qed.
Lemma col_keyB : In "B" (dkeys (f_nodes col_fem)).
Proof. cbn; auto. Qed.
Lemma col_power x : lsum (map (fun fp => fst fp * pattern_power col_fem (snd fp) (spread col_fem x)) (applied w "C")) = dot3 e (dvec x "B").
Proof.
  destruct col_asm as (a & Ha & _ & Eh & Ec & _). unfold applied. rewrite Ha, Ec, Eh.
  cbn [col_cases dget String.eqb Ascii.eqb Bool.eqb applied_in one_case c_factor c_pats flat_map fst snd col_heap nth_error app map lsum].
  unfold pattern_power. rewrite (lsum_zero (member_power _ _ _) (f_beams col_fem)) by (intros; apply nodal_member_power; split; reflexivity).
  change (dkeys (f_nodes col_fem)) with ["A"; "B"]. cbn [map lsum].
  assert (NA : node_power col_fem (Pattern "P" [("B", list6 (pull e))] [] [] []) (spread col_fem x) "A" = 0).
  { unfold node_power, node_force, node_moment, triple, load_entry. cbn [p_nodal dget String.eqb Ascii.eqb Bool.eqb]. unfold dot3; cbn [vx vy vz]. ring. }
  assert (NB : node_power col_fem (Pattern "P" [("B", list6 (pull e))] [] [] []) (spread col_fem x) "B" = dot3 e (dvec x "B")).
  { unfold node_power. destruct (spread_disp col_fem x _ col_good col_keyB) as [-> ->]. unfold node_force, node_moment, triple, load_entry.
    cbn [p_nodal dget String.eqb Ascii.eqb Bool.eqb pull list6 nth Nat.add]. unfold dot3; cbn [vx vy vz]. ring. }
  rewrite NA, NB. ring.
Qed.
Lemma col_permitted : permitted ext w "C" (spread col_fem (headed v)).
Proof.
  apply (permitted_named ext _ "C" col_fem _ col_guard col_model). fold w. intros k j Hk Hj F. rewrite col_flag in F.
  unfold headed. destruct (String.eqb_spec k "B") as [->|]; [discriminate|reflexivity].
Qed.
Lemma col_balanced : balanced ext w "C" (spread col_fem (headed v)).
Proof.
  destruct col_stiff as (K & HK). destruct col_load as (f & HF).
  apply (balanced_named ext _ "C" col_fem K _ col_guard col_model HK). fold w. intros x P.
  assert (XA : dvec x "A" = zero3 /\ rvec x "A" = zero3).
  { split; apply vec3_eq; cbn; (apply P; [exact col_keyA|lia|rewrite col_flag; reflexivity]). }
  destruct XA as [XA RA].
  rewrite (energy_named ext _ w col_fem K _ _ eq_refl col_model HK).
  rewrite (work_named ext _ w col_fem f "C" _ eq_refl col_model HF), col_power.
  cbn [col_fem f_shells f_beams dvals map lsum snd]. unfold beam_work, beam_ends, ends_at. cbn [col_beam b_ni b_nj n_name nd node_at n_loc n_csys cs_O b_prop props].
  change (n_loc (nd "A" foot)) with foot. change (n_loc (nd "B" head)) with head. rewrite ?vec_eta.
  destruct (spread_disp col_fem x _ col_good col_keyA) as [-> ->]. destruct (spread_disp col_fem x _ col_good col_keyB) as [-> ->].
  destruct (spread_disp col_fem (headed v) _ col_good col_keyA) as [-> ->]. destruct (spread_disp col_fem (headed v) _ col_good col_keyB) as [-> ->].
  rewrite XA, RA, col_dist, col_x, col_y, col_z. unfold ends_along, along. cbn [d_i r_i d_j r_j].
  unfold member_work, bend. cbn [EA GJ EI2 EI3 d_i r_i d_j r_j vx vy vz]. unfold dot3, zero3, dvec, rvec. cbn [vx vy vz].
  unfold headed. cbn [String.eqb Ascii.eqb Bool.eqb].
  destruct EV as [[-> ->]|[-> ->]]; cbn [push_x push_y bent_x bent_y nth vx vy vz]; field.
Qed.
Lemma col_solved : solved ext w "C".
Proof.
  apply (tries_solved _ _ "C" [] (seq 0 6) (spread col_fem (headed v)) col_guard); change (tries [bent_x; bent_y]) with ext; fold w.
  - intros m0 E0. rewrite col_model in E0. apply some_inj in E0. subst m0. split; [reflexivity|]. intros k b H. apply col_prop in H. subst b. cbn. lra.
  - exact col_table.
  - intros d k E I. injection E as <-. destruct I.
  - left. reflexivity.
  - exact col_permitted.
  - exact col_balanced.
  - intros q. assert (NN : answer ext w OpNodeNames = RNames ["A"; "B"]).
    { destruct col_asm as (a & _ & _ & _ & _ & E). unfold answer. cbn [step snd]. rewrite E. reflexivity. }
    unfold restrained_for. rewrite NN. unfold restrained_in. split.
    + intros I. apply in_seq in I. exists ["A"; "B"], "A", 0%nat, q. repeat split; try lia. rewrite col_flag. apply Nat.ltb_lt. lia.
    + intros (l & k & i & j & El & Hi & Hj & -> & F). injection El as <-. rewrite col_flag in F.
      destruct i as [|[|i]]; cbn in Hi; [apply in_seq; lia|injection Hi as <-; discriminate|destruct i; discriminate].
  - unfold equations. rewrite col_model. change (size col_fem) with 12%nat. 
    assert (FR : free 12 (seq 0 6) = seq 6 6) by reflexivity. rewrite FR.
    assert (SP : forall j, (j < 6)%nat -> spread col_fem (headed v) (6 + j) = nth j v 0).
    { intros j Hj. change (6 + j)%nat with (6 * num col_fem "B" + j)%nat. rewrite (spread_at col_fem _ "B" j col_good col_keyB Hj). reflexivity. }
    assert (MV : map (spread col_fem (headed v)) (seq 6 6) = v).
    { change (seq 6 6) with (map (fun j => (6 + j)%nat) (seq 0 6)). rewrite map_map, (map_ext_in _ (fun j => nth j v 0)) by (intros j Hj; apply SP; apply in_seq in Hj; lia).
      destruct EV as [[_ ->]|[_ ->]]; reflexivity. }
    rewrite MV. destruct EV as [[_ ->]|[_ ->]]; cbn; auto.
Qed.
Lemma col_symmetric : symmetric_elements ext w.
Proof. intros m0 E. rewrite col_model in E. apply some_inj in E. subst m0. left. reflexivity. Qed.
Lemma col_stable : stable ext w "C".
Proof.
  apply (m107_clamped ext (col_ops e) "C" col_fem (col_fresh ext e) col_model).
  - destruct col_stiff as (K & E). fold w. rewrite E. discriminate.
  - intros k b H. apply col_prop in H. subst b. cbn. lra.
  - left. reflexivity.
  - intros k n H.
    assert (CA : carried ext w "C" col_fem "A") by (apply carried_clamp; intros j Hj; rewrite col_flag; apply Nat.ltb_lt; exact Hj).
    destruct H as [H|[H|[]]]; injection H as <- _; [exact CA|].
    change "B" with (n_name (b_nj col_beam)). apply (carried_end ext w "C" col_fem "b"); [left; reflexivity|exact CA].
Qed.
Lemma col_answer : answer ext (after ext w (OpSolveStatic "C")) (OpNodalDisp "B" "C") = RVec v.
Proof.
  unfold w. rewrite (answered ext (col_ops e) "C" col_fem "B" col_guard (sv_true _ _ _ col_solved) col_model col_keyB). fold w. f_equal.
  assert (E : forall j, (j < 6)%nat -> named col_fem (solution ext w "C") "B" j = nth j v 0).
  { intros j Hj. unfold named.
    rewrite <- (m106_unique ext (col_ops e) "C" (spread col_fem (headed v)) (col_fresh ext e) col_solved col_symmetric col_stable col_permitted col_balanced).
    - rewrite (spread_at col_fem _ "B" j col_good col_keyB Hj). reflexivity.
    - unfold equations. fold w. rewrite col_model. change (size col_fem) with 12%nat. change (num col_fem "B") with 1%nat. lia. }
  cbn [seq map]. rewrite !E by lia. destruct EV as [[_ ->]|[_ ->]]; reflexivity.
Qed.
Lemma col_told : exists t l, describes ext (col_ops e) t l /\ holds col_fem t /\ holds_loads (col_heap e) col_cases l.
Proof.
  destruct col_asm as (a & Ha & Em & Eh & Ec & _). destruct (c78_built ext _ col_fem col_model) as (t & T & HO). destruct (c79_built ext _ a Ha) as (l & L & HL).
  rewrite Eh, Ec in HL. exists t, l. unfold describes. auto.
Qed.
End Col.

Lemma m111_column_refuted : exists ext ops ops' t t' l l' k v v', never_readds_nodes ext ops /\ never_readds_nodes ext ops' /\
  let w := final ext init (ops ++ [OpAssemble]) in let w' := final ext init (ops' ++ [OpAssemble]) in
  describes ext ops t l /\ describes ext ops' t' l' /\ alike 0 1 zero3 t t' /\ alike_case 0 1 l l' "C" /\ (forall k, t_shell t k = None)
  /\ round_supports ext w "C" /\ solved ext w "C" /\ solved ext w' "C" /\ stable ext w "C"
  /\ answer ext (after ext w (OpSolveStatic "C")) (OpNodalDisp k "C") = RVec v
  /\ answer ext (after ext w' (OpSolveStatic "C")) (OpNodalDisp k "C") = RVec v'
  /\ v' <> turn_six 0 1 v.
Proof.
  pose proof (or_introl (conj eq_refl eq_refl) : (push_x = push_x /\ bent_x = bent_x) \/ (push_x = push_y /\ bent_x = bent_y)) as E1.
  pose proof (or_intror (conj eq_refl eq_refl) : (push_y = push_x /\ bent_y = bent_x) \/ (push_y = push_y /\ bent_y = bent_y)) as E2.
  destruct (col_told push_x) as (t & l & D & H & HL). destruct (col_told push_y) as (t' & l' & D' & H' & HL').
  exists col_ext, (col_ops push_x), (col_ops push_y), t, t', l, l', "B", bent_x, bent_y.
  split; [apply col_fresh|]. split; [apply col_fresh|]. intros w w'. split; [exact D|]. split; [exact D'|].
  split.
  { constructor; intros k.
    - rewrite (told_node _ _ _ H), (told_node _ _ _ H'). cbn [col_fem f_nodes dget]. destruct (String.eqb k "A"); [|destruct (String.eqb k "B"); [|reflexivity]];
      cbn [option_map fst]; f_equal; apply vec3_eq; cbn; ring.
    - rewrite (told_rest _ _ _ H), (told_rest _ _ _ H'). reflexivity.
    - rewrite (told_beam _ _ _ H), (told_beam _ _ _ H'). reflexivity.
    - rewrite (told_shell _ _ _ H), (told_shell _ _ _ H'). reflexivity. }
  split.
  { assert (CS : forall e l, holds_loads (col_heap e) col_cases l ->
      exists o, l_case l "C" = Some o /\ (forall k, o_uses o k = if String.eqb k "P" then Some (0%nat, 1) else None) /\ (forall k, o_rest o k = None)
      /\ forall k, s_node (l_sheet l 0) k = (if String.eqb k "B" then Some (pull e) else None) /\ s_line (l_sheet l 0) k = None /\ s_point (l_sheet l 0) k = None).
    { clear. intros e l (_ & HS & HC). specialize (HC "C"). cbn [col_cases dget String.eqb Ascii.eqb Bool.eqb] in HC. destruct (l_case l "C") as [o|]; [|contradiction].
      exists o. split; [reflexivity|]. destruct HC as (_ & P & F & R0). split; [|split].
      - intros k. specialize (P k). specialize (F k). cbn [one_case c_pats c_factor dget] in P, F. destruct (String.eqb k "P"); destruct (o_uses o k) as [[i f]|]; cbn in *; congruence.
      - intros k. specialize (R0 k). cbn in R0. symmetry in R0. apply map_none in R0. exact R0.
      - intros k. destruct (HS 0%nat _ eq_refl) as (A & B & C). specialize (A k). specialize (B k). specialize (C k). cbn [p_nodal p_dist p_conc dget] in A, B, C.
        symmetry in B, C. apply map_none in B, C. repeat split; auto. destruct (String.eqb k "B"); [apply as_list_some; symmetry; exact A|symmetry in A; apply map_none in A; exact A]. }
    destruct (CS _ _ HL) as (o & E & UO & RO & SH). destruct (CS _ _ HL') as (o' & E' & UO' & RO' & SH').
    unfold alike_case. rewrite E, E'. split.
    - intros k. rewrite UO, UO'. destruct (String.eqb k "P"); [|exact I]. split; [reflexivity|].
      constructor; intros k0; destruct (SH k0) as (A & B & C); destruct (SH' k0) as (A' & B' & C'); [|congruence|congruence].
      rewrite A, A'. destruct (String.eqb k0 "B"); [|reflexivity]. cbn [option_map]. f_equal. unfold pull, push_x, push_y, as_list, turn_six, turn_z. cbn [nth vx vy vz].
      repeat f_equal; ring.
    - intros k. rewrite RO, RO'. reflexivity. }
  split; [intros k; rewrite (told_shell _ _ _ H); reflexivity|].
  split; [intros k; unfold w; rewrite !col_flag; split; reflexivity|].
  split; [exact (col_solved _ _ E1)|]. split; [exact (col_solved _ _ E2)|]. split; [exact (col_stable _)|].
  split; [exact (col_answer _ _ E1)|]. split; [exact (col_answer _ _ E2)|].
  unfold turn_six, turn_z, bent_x, bent_y. cbn [nth vx vy vz]. intros E. pose proof (f_equal (fun l => nth 1 l 0) E) as X. cbn [nth] in X. lra.
Qed.
