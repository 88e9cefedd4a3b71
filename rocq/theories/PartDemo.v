(** The cantilever of C115 with a second one beside it (C130).
    (Examples only; nothing here is part of the model.) *)
From Coq Require Import Reals Lra Lia List String Arith Bool ZArith Sorting.Permutation.
From Verif Require Import Base BaseFacts Csys Sections Element Load FeModel Assembly Solver Post Api
  SpecApi ApiFacts WfFacts HidFacts ApiProofs1 LoadFacts SpecElim ElimFacts SpecGeom CsysFacts SpecBeam BeamFacts AsmFacts SpecAsm AsmProofs
  AsmTotal AsmProofs2 SpecLoad LoadProofs AsmProofs3 SpecSolve AsmSolve Demo SolveDemo SpecStatics StaticsProofs StaticsProofs2 SpecTold ToldProofs
  SpecToldLoad ToldLoadProofs SpecSame SameProofs SameProofs2 StaticsMain SpecCut CutProofs2 ToldDemo StaticsDemo StaticsDemo2 StaticsDemo3 GaussDemo SolvableProofs CutDemo
  SpecPart PartProofs2.
Import ListNotations.
Local Open Scope string_scope.
Local Open Scope list_scope.
Local Open Scope R_scope.

(** A and B, the member k between them, and the loads P and Q on them are those of the cantilever;
    E is clamped, F is free, the member k2 runs from E to F, and P loads F as well. *)
Definition duo_nodes : list op := [OpAddNode "A" 0 0 0; OpAddNode "B" 1 0 0; OpAddNode "E" (1/4) 0 0; OpAddNode "F" 1 0 0].
Definition duo_loads : list op :=
  [OpSetRestraint "A" all_fixed; OpSetRestraint "E" all_fixed; OpAddPattern "P"; OpSetNodalLoad "P" "B" (0, 0, 5, 0, 0, 0); OpSetNodalLoad "P" "F" (0, 9, 0, 0, 0, 0);
   OpSetBeamDist "P" "k" 0 0 8 4 0 0 0 0; OpSetBeamConc "P" "k" (0, 3, 0, 0, 0, 0) (5/8);
   OpAddPattern "Q"; OpSetNodalLoad "Q" "B" (0, 0, 7, 0, 0, 0);
   OpAddStatic "C"; OpAddCasePattern "C" "P" 2; OpAddStatic "D"; OpAddCasePattern "D" "Q" 3].
Definition duo_beams : list op := [OpAddSimpleBeam "k" "A" "B" 4 0 1 1 1 1 1; OpAddSimpleBeam "k2" "E" "F" 4 0 1 1 1 1 1].
Definition duo_ops : list op := duo_nodes ++ duo_loads ++ duo_beams.
Definition duo_fem (bs : list (string * beam)) (hs : list (string * nat)) : fem :=
  Fem [("A", nd "A" p0); ("B", nd "B" p1); ("E", nd "E" half); ("F", nd "F" p1)] [("A", list6 all_fixed); ("E", list6 all_fixed)] [] [] [] bs []
      [("A", 0%nat); ("B", 1%nat); ("E", 2%nat); ("F", 3%nat)] hs [].
Definition duo_heap : list pattern :=
  [Pattern "P" [("B", [0; 0; 5; 0; 0; 0]); ("F", [0; 9; 0; 0; 0; 0])] [] [("k", [0; 8; 0; 0; 0; 0; 0; 4; 0; 0; 0; 0])] [("k", [0; 3; 0; 0; 0; 0; 5/8])];
   Pattern "Q" [("B", [0; 0; 7; 0; 0; 0])] [] [] []].
Definition duo_core (m : fem) : core := Core m [("P", 0%nat); ("Q", 1%nat)] duo_heap canti_cases.
Definition duo_k : string * beam := ("k", rod "k" "A" p0 "B" p1).
Definition duo_k2 : string * beam := ("k2", rod "k2" "E" half "F" p1).
Definition duo_model : fem := duo_fem [duo_k; duo_k2] [("k", 0%nat); ("k2", 1%nat)].

Lemma duo_start ext : final ext init (duo_nodes ++ duo_loads) = World (duo_core (duo_fem [] [])) [].
Proof.
  rewrite final_app.
  assert (N : final ext init duo_nodes = World (Core (let m := duo_fem [] [] in Fem (f_nodes m) [] [] [] [] [] [] (f_hnode m) [] []) [] [] []) []).
  { unfold final, duo_nodes; cbn [run]; rewrite !step_add_node; reflexivity. }
  rewrite N. reflexivity.
Qed.
Lemma duo_final ext : final ext init duo_ops = World (duo_core duo_model) [].
Proof.
  unfold duo_ops. rewrite app_assoc, final_app, duo_start. unfold duo_beams. rewrite !final_cons, final_nil.
  rewrite (rod_step ext (duo_core (duo_fem [] [])) "k" "A" p0 "B" p1 (duo_fem [duo_k] [("k", 0%nat)]) sep_p eq_refl eq_refl eq_refl).
  apply (rod_step ext (Core (duo_fem [duo_k] [("k", 0%nat)]) _ _ _) "k2" "E" half "F" p1 _ sep_right eq_refl eq_refl eq_refl).
Qed.
Lemma duo_fresh ext : never_readds_nodes ext duo_ops.
Proof.
  assert (A1 : forall w n x y z, answer ext (after ext w (OpAddNode n x y z)) OpNodeNames = RNames (dkeys (dset n (node_at n x y z) (f_nodes (k_fem (w_core w)))))).
  { intros. unfold answer, after. rewrite step_add_node. reflexivity. }
  assert (A2 : forall w n x y z, f_nodes (k_fem (w_core (after ext w (OpAddNode n x y z)))) = dset n (node_at n x y z) (f_nodes (k_fem (w_core w)))).
  { intros. unfold after. rewrite step_add_node. reflexivity. }
  unfold never_readds_nodes, duo_ops, duo_nodes, duo_loads, duo_beams; cbn [app guarded fresh_node].
  split; [exists []; split; [reflexivity|intros []]|]. split; [rewrite A1; eexists; split; [reflexivity|]; cbn; intros [X|[]]; discriminate|].
  split; [rewrite A1, A2; eexists; split; [reflexivity|]; cbn; intros [X|[X|[]]]; discriminate|].
  split; [rewrite A1, !A2; eexists; split; [reflexivity|]; cbn; intros [X|[X|[X|[]]]]; discriminate|]. repeat split.
Qed.

Section Duo.
Variables (ext : externals).
Let w := final ext init (duo_ops ++ [OpAssemble]).
Let m := duo_model.
Lemma duo_asm : exists a, read_asb w = Some a /\ a_model a = m /\ a_heap a = duo_heap /\ a_cases a = canti_cases /\ w_core w = duo_core m.
Proof.
  destruct (assembled_now ext duo_ops (told_guard _ _ (duo_fresh ext))) as (_ & a & Ha & Em & Eh & Ec & _).
  fold w in Ha, Em, Eh, Ec. exists a.
  assert (E : w_core w = duo_core m) by (unfold w; rewrite core_assembled, duo_final; reflexivity).
  rewrite Em, Eh, Ec, E. split; [exact Ha|]. repeat split; reflexivity.
Qed.
Lemma duo_assembled : assembled_model w = Some m.
Proof. destruct duo_asm as (a & Ha & Em & _). unfold assembled_model. rewrite Ha. cbn. f_equal. exact Em. Qed.
Lemma duo_table c : answer ext w (OpNodeRestraints (Some c)) = match dget c canti_cases with Some lc => RFlags (c_rest lc) | None => RNone end.
Proof. destruct duo_asm as (a & _ & _ & _ & _ & E). unfold answer. cbn [step]. rewrite E. cbn [k_cases duo_core]. destruct (dget c canti_cases); reflexivity. Qed.
Lemma duo_global : answer ext w (OpNodeRestraints None) = RFlags [("A", list6 all_fixed); ("E", list6 all_fixed)].
Proof. destruct duo_asm as (a & _ & _ & _ & _ & E). unfold answer. cbn [step]. rewrite E. reflexivity. Qed.
Lemma duo_symmetric : symmetric_elements ext w.
Proof. intros m0 E. rewrite duo_assembled in E. apply some_inj in E. subst m0. left. reflexivity. Qed.
Lemma duo_positive k b : In (k, b) (f_beams m) -> props_pos (b_prop b).
Proof. intros [H|[H|[]]]; injection H as _ <-; cbn; lra. Qed.
Lemma duo_governing c : c = "C" \/ c = "D" -> governing ext w c = RFlags [("A", list6 all_fixed); ("E", list6 all_fixed)].
Proof.
  intros H. unfold governing. rewrite duo_table, duo_global.
  assert (R0 : exists lc, dget c canti_cases = Some lc /\ c_rest lc = []) by (destruct H as [-> | ->]; eexists; split; reflexivity).
  destruct R0 as (lc & -> & ->). reflexivity.
Qed.
Lemma duo_carried c k n : c = "C" \/ c = "D" -> In (k, n) (f_nodes m) -> carried ext w c m k.
Proof.
  intros HC H.
  assert (CL : forall z, z = "A" \/ z = "E" -> carried ext w c m z).
  { intros z Hz. apply carried_clamp. intros j Hj. rewrite (duo_governing c HC). unfold flag, entry. rewrite lookup_dget. destruct Hz as [-> | ->]; cbn [dget];
    do 6 (destruct j as [|j]; [reflexivity|]); lia. }
  assert (CB : carried ext w c m "B") by (apply (carried_end ext w c _ "k" (snd duo_k)); [left; reflexivity|apply CL; now left]).
  assert (CF : carried ext w c m "F") by (apply (carried_end ext w c _ "k2" (snd duo_k2)); [right; left; reflexivity|apply CL; now right]).
  destruct H as [H|[H|[H|[H|[]]]]]; injection H as <- _; auto.
Qed.
Lemma duo_stiffness : stiffness ext w <> None.
Proof.
  assert (MU : forall k b, In (k, b) (f_beams m) -> 1 + poisson (b_prop b) <> 0).
  { intros k b I. pose proof (duo_positive k b I) as PP. unfold props_pos in PP. destruct (b_prop b); cbn; lra. }
  destruct (c21_defined ext (duo_ops ++ [OpAssemble]) w m eq_refl (told_guard _ _ (duo_fresh ext)) duo_assembled MU) as (K & HK). rewrite HK. discriminate.
Qed.
Lemma duo_stable c : c = "C" \/ c = "D" -> stable ext w c.
Proof.
  intros HC. apply (m107_clamped ext duo_ops c m (duo_fresh ext) duo_assembled duo_stiffness duo_positive (or_introl eq_refl)).
  intros k n. apply (duo_carried c k n HC).
Qed.
Lemma duo_there k : k = "E" \/ k = "F" -> answer ext w (OpNodeLocation k) <> RNone.
Proof.
  intros H. destruct duo_asm as (a & _ & _ & _ & _ & E). unfold answer. cbn [step snd]. rewrite E.
  unfold model_node_location. cbn [k_fem duo_core]. destruct H as [-> | ->]; discriminate.
Qed.
Lemma duo_solved c : c = "C" \/ c = "D" -> exact_solver ext -> able_solver ext -> solved ext w c.
Proof.
  intros HC EX AB. assert (T : answer ext w (OpNodeRestraints (Some c)) = RFlags []) by (rewrite duo_table; destruct HC as [-> | ->]; reflexivity).
  constructor; [|exact EX|rewrite T; left; reflexivity].
  apply (m113_clamped ext duo_ops c m [] (duo_fresh ext) EX AB duo_assembled eq_refl duo_positive (fun k n => duo_carried c k n HC) T).
  - intros d k E I. injection E as <-. destruct I.
  - left. reflexivity.
Qed.
Lemma duo_described : exists t l, describes ext duo_ops t l /\ holds m t /\ holds_loads duo_heap canti_cases l.
Proof.
  destruct duo_asm as (a & Ha & Em & Eh & Ec & _).
  destruct (c78_built ext _ m duo_assembled) as (t & T & HO). destruct (c79_built ext _ a Ha) as (l & L & HL). rewrite Eh, Ec in HL.
  exists t, l. unfold describes. auto.
Qed.
Lemma canti_governing c : c = "C" \/ c = "D" -> governing ext (final ext init (canti_ops false ++ [OpAssemble])) c = RFlags [("A", list6 all_fixed)].
Proof.
  intros H. unfold governing. rewrite canti_table, canti_global.
  assert (R0 : exists lc, dget c canti_cases = Some lc /\ c_rest lc = []) by (destruct H as [-> | ->]; eexists; split; reflexivity).
  destruct R0 as (lc & -> & ->). reflexivity.
Qed.
Definition near (k : string) : bool := (String.eqb k "A" || String.eqb k "B")%bool.
Definition beside (k : string) : bool := negb (near k).
Lemma duo_held c : c = "C" \/ c = "D" -> same_held near ext (final ext init (canti_ops false ++ [OpAssemble])) w c.
Proof.
  intros H k j P. rewrite (canti_governing c H), (duo_governing c H). unfold flag, entry. rewrite !lookup_dget. cbn [dget].
  destruct (String.eqb k "A"); [reflexivity|]. destruct (String.eqb_spec k "E") as [->|N]; [discriminate|reflexivity].
Qed.
End Duo.

Lemma duo_beam t k a b p : holds duo_model t -> t_beam t k = Some (a, b, p) -> (k = "k" /\ a = "A" /\ b = "B") \/ (k = "k2" /\ a = "E" /\ b = "F").
Proof.
  intros (_ & _ & _ & _ & _ & B & _) E. rewrite <- B in E. unfold duo_model, duo_fem in E. cbn [f_beams dget duo_k duo_k2] in E.
  destruct (String.eqb_spec k "k") as [->|]; [left|]. { cbn in E. apply some_inj in E. injection E as <- <- _. auto. }
  destruct (String.eqb_spec k "k2") as [->|]; [right|discriminate]. cbn in E. apply some_inj in E. injection E as <- <- _. auto.
Qed.
Lemma duo_apart t part : holds duo_model t -> part = near \/ part = beside -> apart part t.
Proof.
  intros H P. split.
  - intros k a b p E. destruct (duo_beam t k a b p H E) as [(_ & -> & ->)|(_ & -> & ->)]; destruct P as [-> | ->]; reflexivity.
  - intros k l s E. destruct H as (_ & _ & _ & _ & _ & _ & S). rewrite <- S in E. discriminate.
Qed.
Lemma canti_apart t : holds (canti_fem false true) t -> apart near t.
Proof.
  intros (_ & _ & _ & _ & _ & B & S). split.
  - intros k a b p E. rewrite <- B in E. cbn [canti_fem f_beams dget] in E. destruct (String.eqb k "k"); [|discriminate].
    cbn in E. apply some_inj in E. injection E as <- <- _. reflexivity.
  - intros k l s E. rewrite <- S in E. discriminate.
Qed.
Lemma duo_same t t' : holds (canti_fem false true) t -> holds duo_model t' -> same_part near t t'.
Proof.
  intros (N & _ & _ & _ & _ & B & S) (N' & _ & _ & _ & _ & B' & S'). split; intros k.
  - intros P. rewrite <- N, <- N'. unfold duo_model, duo_fem. cbn [canti_fem f_nodes dget]. unfold near in P. destruct (String.eqb k "A"); [reflexivity|]. destruct (String.eqb k "B"); [reflexivity|discriminate].
  - unfold beam_of. rewrite <- B, <- B'. unfold duo_model, duo_fem. cbn [canti_fem f_beams dget duo_k duo_k2]. destruct (String.eqb k "k"); [reflexivity|].
    destruct (String.eqb k "k2"); reflexivity.
  - unfold shell_of. rewrite <- S, <- S'. reflexivity.
Qed.
Lemma duo_case l c p i f : holds_loads duo_heap canti_cases l -> In (c, one_case c p i f []) canti_cases ->
  exists o, l_case l c = Some o /\ (forall k, o_uses o k = if String.eqb k p then Some (i, f) else None).
Proof.
  intros (_ & _ & H) I. specialize (H c).
  assert (E : dget c canti_cases = Some (one_case c p i f [])) by (destruct I as [I|[I|[]]]; pose proof (f_equal fst I) as I1; pose proof (f_equal snd I) as I2; cbn [fst snd] in I1, I2; rewrite <- I1 in *; rewrite <- I2; reflexivity).
  rewrite E in H. destruct (l_case l c) as [o|]; [|contradiction]. exists o. split; [reflexivity|]. destruct H as (_ & P & F & _).
  intros k. specialize (P k). specialize (F k). cbn [one_case c_pats c_factor dget] in P, F. destruct (String.eqb k p); destruct (o_uses o k) as [[i0 f0]|]; cbn in *; congruence.
Qed.
Lemma duo_part_case t l l' : holds_loads (canti_heap false) canti_cases l -> holds_loads duo_heap canti_cases l' -> part_case near t l l' "C".
Proof.
  intros H H'. destruct (canti_case _ _ "C" "P" 0%nat 2 H ltac:(cbn; auto)) as (o & E & U & _). destruct (duo_case _ "C" "P" 0%nat 2 H' ltac:(cbn; auto)) as (o' & E' & U').
  unfold part_case. rewrite E, E'. intros p. rewrite U, U'. destruct (String.eqb p "P"); [|exact I]. left. split; [reflexivity|].
  destruct H as (_ & H & _). destruct H' as (_ & H' & _). destruct (H 0%nat _ eq_refl) as (A & B & C). destruct (H' 0%nat _ eq_refl) as (A' & B' & C'). split.
  - intros k P. apply (option_map_inj as_list _ _ as_list_inj). rewrite <- A, <- A'. cbn [p_nodal dget]. destruct (String.eqb k "B"); [reflexivity|].
    destruct (String.eqb_spec k "F") as [->|]; [discriminate|reflexivity].
  - intros k _. split; [apply (option_map_inj line_row _ _ line_row_inj); rewrite <- B, <- B'|apply (option_map_inj point_row _ _ point_row_inj); rewrite <- C, <- C']; reflexivity.
Qed.
Lemma duo_idle t l : holds duo_model t -> holds_loads duo_heap canti_cases l -> idle_case beside t l "D".
Proof.
  intros HT H o p i f E U. destruct (duo_case _ "D" "Q" 1%nat 3 H ltac:(cbn; auto)) as (o' & E' & U'). rewrite E in E'. apply some_inj in E'. subst o'.
  rewrite U' in U. destruct (String.eqb p "Q"); [|discriminate]. apply some_inj in U. injection U as <- <-. destruct H as (_ & H & _).
  destruct (H 1%nat _ eq_refl) as (A & B & C). split.
  - intros k P. apply (option_map_inj as_list _ _ as_list_inj). rewrite <- A. cbn [p_nodal dget]. destruct (String.eqb_spec k "B") as [->|]; [discriminate|reflexivity].
  - intros k _. split; [apply (option_map_inj line_row _ _ line_row_inj); rewrite <- B|apply (option_map_inj point_row _ _ point_row_inj); rewrite <- C]; reflexivity.
Qed.
