(** A cantilever under member loads, whole and cut at a quarter of its length (C115).
    (Examples only; nothing here is part of the model.) *)
From Coq Require Import Reals Lra Lia List String Arith Bool ZArith Sorting.Permutation.
From Verif Require Import Base BaseFacts Csys Sections Element Load FeModel Assembly Solver Post Api
  SpecApi ApiFacts WfFacts HidFacts ApiProofs1 LoadFacts SpecElim ElimFacts SpecGeom CsysFacts SpecBeam BeamFacts AsmFacts SpecAsm AsmProofs
  AsmTotal AsmProofs2 SpecLoad LoadProofs AsmProofs3 SpecSolve AsmSolve Demo SolveDemo SpecStatics StaticsProofs StaticsProofs2 SpecTold ToldProofs
  SpecToldLoad ToldLoadProofs SpecSame SameProofs SameProofs2 StaticsMain SpecCut CutProofs2 ToldDemo StaticsDemo StaticsDemo2 StaticsDemo3 GaussDemo SolvableProofs.
Import ListNotations.
Local Open Scope string_scope.
Local Open Scope list_scope.
Local Open Scope R_scope.

(** A is clamped, B is free; the member k runs from A to B and carries a line load, a point load at
    five eighths of its length, both in P; P and Q also load B. *)
Definition half : vec3 := V3 (1/4) 0 0.
Definition canti_nodes (parts : bool) : list op :=
  OpAddNode "A" 0 0 0 :: OpAddNode "B" 1 0 0 :: (if parts then [OpAddNode "N" (1/4) 0 0] else []).
Definition canti_loads (parts : bool) : list op :=
  OpSetRestraint "A" all_fixed :: OpAddPattern "P" :: OpSetNodalLoad "P" "B" (0, 0, 5, 0, 0, 0) ::
  (if parts then [OpSetBeamDist "P" "k" 0 0 8 7 0 0 0 0; OpSetBeamDist "P" "k2" 0 0 7 4 0 0 0 0; OpSetBeamConc "P" "k2" (0, 3, 0, 0, 0, 0) (1/2)]
   else [OpSetBeamDist "P" "k" 0 0 8 4 0 0 0 0; OpSetBeamConc "P" "k" (0, 3, 0, 0, 0, 0) (5/8)]) ++
  [OpAddPattern "Q"; OpSetNodalLoad "Q" "B" (0, 0, 7, 0, 0, 0);
   OpAddStatic "C"; OpAddCasePattern "C" "P" 2; OpAddStatic "D"; OpAddCasePattern "D" "Q" 3].
Definition canti_beams (parts : bool) : list op :=
  if parts then [OpAddSimpleBeam "k" "A" "N" 4 0 1 1 1 1 1; OpAddSimpleBeam "k2" "N" "B" 4 0 1 1 1 1 1]
  else [OpAddSimpleBeam "k" "A" "B" 4 0 1 1 1 1 1].
Definition canti_ops (parts : bool) : list op := canti_nodes parts ++ canti_loads parts ++ canti_beams parts.

Definition rod (n a : string) (p : vec3) (b : string) (q : vec3) : beam :=
  Beam n (nd a p) (nd b q) (match line_csys p q with Some c => c | None => CS zero3 zero3 zero3 zero3 end) no_releases (PSimple 4 0 1 1 1 1 1).
Definition canti_fem (parts : bool) (bs : bool) : fem :=
  Fem (("A", nd "A" p0) :: ("B", nd "B" p1) :: (if parts then [("N", nd "N" half)] else []))
      [("A", list6 all_fixed)] [] [] []
      (if bs then if parts then [("k", rod "k" "A" p0 "N" half); ("k2", rod "k2" "N" half "B" p1)] else [("k", rod "k" "A" p0 "B" p1)] else []) []
      (("A", 0%nat) :: ("B", 1%nat) :: (if parts then [("N", 2%nat)] else []))
      (if bs then if parts then [("k", 0%nat); ("k2", 1%nat)] else [("k", 0%nat)] else []) [].
Definition canti_heap (parts : bool) : list pattern :=
  [Pattern "P" [("B", [0; 0; 5; 0; 0; 0])] []
     (if parts then [("k", [0; 8; 0; 0; 0; 0; 0; 7; 0; 0; 0; 0]); ("k2", [0; 7; 0; 0; 0; 0; 0; 4; 0; 0; 0; 0])] else [("k", [0; 8; 0; 0; 0; 0; 0; 4; 0; 0; 0; 0])])
     (if parts then [("k2", [0; 3; 0; 0; 0; 0; 1/2])] else [("k", [0; 3; 0; 0; 0; 0; 5/8])]);
   Pattern "Q" [("B", [0; 0; 7; 0; 0; 0])] [] [] []].
Definition canti_cases : dict lcase := [("C", one_case "C" "P" 0 2 []); ("D", one_case "D" "Q" 1 3 [])].
Definition canti_core (parts bs : bool) : core := Core (canti_fem parts bs) [("P", 0%nat); ("Q", 1%nat)] (canti_heap parts) canti_cases.

Lemma sep_left : well_separated p0 half.
Proof. left. unfold plan_offset, p0, half; cbn [vx vy vz]. eapply Rle_trans; [|apply Rmax_l]. rewrite Rabs_left by lra. lra. Qed.
Lemma sep_right : well_separated half p1.
Proof. left. unfold plan_offset, p1, half; cbn [vx vy vz]. eapply Rle_trans; [|apply Rmax_l]. rewrite Rabs_left by lra. lra. Qed.
Lemma rod_mk n a p b q : well_separated p q -> mk_beam n (nd a p) (nd b q) (PSimple 4 0 1 1 1 1 1) = Some (rod n a p b q).
Proof.
  intros H. unfold mk_beam, rod. destruct p as [px py pz], q as [qx qy qz]. unfold n_loc, nd, node_at. cbn [n_csys cs_O vx vy vz].
  destruct (line_csys _ _) eqn:L; [reflexivity|]. apply line_csys_none in L. contradiction.
Qed.
Lemma canti_start ext parts : final ext init (canti_nodes parts ++ canti_loads parts) = World (canti_core parts false) [].
Proof.
  rewrite final_app.
  assert (N : final ext init (canti_nodes parts) = World (Core (let m := canti_fem parts false in
     Fem (f_nodes m) [] [] [] [] [] [] (f_hnode m) [] []) [] [] []) []).
  { destruct parts; unfold final, canti_nodes; cbn [run]; rewrite !step_add_node; reflexivity. }
  rewrite N. destruct parts; reflexivity.
Qed.
(** With the first part only. *)
Definition canti_first : fem :=
  let m := canti_fem true false in Fem (f_nodes m) (f_rest m) [] [] [] [("k", rod "k" "A" p0 "N" half)] [] (f_hnode m) [("k", 0%nat)] [].
Lemma rod_step ext c n a p b q m' : well_separated p q -> dget a (f_nodes (k_fem c)) = Some (nd a p) -> dget b (f_nodes (k_fem c)) = Some (nd b q) ->
  m' = snd (let m := k_fem c in let e := rod n a p b q in (0%nat, Fem (f_nodes m) (f_rest m) (f_mats m) (f_bsecs m) (f_ssecs m) (dset n e (f_beams m)) (f_shells m) (f_hnode m) (dset n (List.length (f_beams m)) (f_hbeam m)) (f_hshell m))) ->
  after ext (World c []) (OpAddSimpleBeam n a b 4 0 1 1 1 1 1) = World (Core m' (k_pats c) (k_heap c) (k_cases c)) [].
Proof.
  intros WS A B ->. unfold after. cbn [step]. unfold model_add_simple_beam. cbn [w_core]. rewrite A, B. cbn [bindO]. unfold model_put_beam.
  rewrite (rod_mk n a p b q WS). reflexivity.
Qed.
Lemma canti_final ext parts : final ext init (canti_ops parts) = World (canti_core parts true) [].
Proof.
  unfold canti_ops. rewrite app_assoc, final_app, canti_start. destruct parts; cbn [canti_beams]; rewrite !final_cons, final_nil.
  - rewrite (rod_step ext (canti_core true false) "k" "A" p0 "N" half canti_first sep_left eq_refl eq_refl eq_refl).
    apply (rod_step ext (Core canti_first _ _ _) "k2" "N" half "B" p1 _ sep_right eq_refl eq_refl eq_refl).
  - apply (rod_step ext (canti_core false false) "k" "A" p0 "B" p1 _ sep_p eq_refl eq_refl eq_refl).
Qed.
Lemma canti_fresh ext parts : never_readds_nodes ext (canti_ops parts).
Proof.
  assert (A1 : forall w n x y z, answer ext (after ext w (OpAddNode n x y z)) OpNodeNames = RNames (dkeys (dset n (node_at n x y z) (f_nodes (k_fem (w_core w)))))).
  { intros. unfold answer, after. rewrite step_add_node. reflexivity. }
  assert (A2 : forall w n x y z, f_nodes (k_fem (w_core (after ext w (OpAddNode n x y z)))) = dset n (node_at n x y z) (f_nodes (k_fem (w_core w)))).
  { intros. unfold after. rewrite step_add_node. reflexivity. }
  unfold never_readds_nodes. destruct parts; unfold canti_ops, canti_nodes, canti_loads, canti_beams; cbn [app guarded fresh_node].
  - split; [exists []; split; [reflexivity|intros []]|]. split; [rewrite A1; eexists; split; [reflexivity|]; cbn; intros [X|[]]; discriminate|].
    split; [rewrite A1, A2; eexists; split; [reflexivity|]; cbn; intros [X|[X|[]]]; discriminate|]. repeat split.
  - split; [exists []; split; [reflexivity|intros []]|]. split; [rewrite A1; eexists; split; [reflexivity|]; cbn; intros [X|[]]; discriminate|]. repeat split.
Qed.

Section Canti.
Variables (ext : externals) (parts : bool).
Let w := final ext init (canti_ops parts ++ [OpAssemble]).
Let m := canti_fem parts true.
Lemma canti_asm : exists a, read_asb w = Some a /\ a_model a = m /\ a_heap a = canti_heap parts /\ a_cases a = canti_cases /\ w_core w = canti_core parts true.
Proof.
  destruct (assembled_now ext (canti_ops parts) (told_guard _ _ (canti_fresh ext parts))) as (_ & a & Ha & Em & Eh & Ec & _).
  fold w in Ha, Em, Eh, Ec. exists a.
  assert (E : w_core w = canti_core parts true) by (unfold w; rewrite core_assembled, canti_final; reflexivity).
  rewrite Em, Eh, Ec, E. split; [exact Ha|]. repeat split; reflexivity.
Qed.
Lemma canti_model : assembled_model w = Some m.
Proof. destruct canti_asm as (a & Ha & Em & _). unfold assembled_model. rewrite Ha. cbn. f_equal. exact Em. Qed.
Lemma canti_table c : answer ext w (OpNodeRestraints (Some c)) = match dget c canti_cases with Some lc => RFlags (c_rest lc) | None => RNone end.
Proof. destruct canti_asm as (a & _ & _ & _ & _ & E). unfold answer. cbn [step]. rewrite E. cbn [k_cases canti_core]. destruct (dget c canti_cases); reflexivity. Qed.
Lemma canti_global : answer ext w (OpNodeRestraints None) = RFlags [("A", list6 all_fixed)].
Proof. destruct canti_asm as (a & _ & _ & _ & _ & E). unfold answer. cbn [step]. rewrite E. reflexivity. Qed.
Lemma canti_symmetric : symmetric_elements ext w.
Proof. intros m0 E. rewrite canti_model in E. apply some_inj in E. subst m0. left. reflexivity. Qed.
Lemma canti_positive k b : In (k, b) (f_beams m) -> props_pos (b_prop b).
Proof. unfold m. destruct parts; cbn [canti_fem f_beams In]; [intros [H|[H|[]]]|intros [H|[]]]; injection H as _ <-; cbn; lra. Qed.
Lemma canti_elastic : elastic ext w.
Proof.
  intros m0 E. rewrite canti_model in E. apply some_inj in E. subst m0. split; [|left; reflexivity].
  intros k b H. apply canti_positive in H. unfold props_pos in H. unfold props_nonneg. destruct (b_prop b); repeat split; lra.
Qed.
Lemma canti_clamped c : c = "C" \/ c = "D" -> clamped ext w c "A".
Proof.
  intros H j Hj. unfold governing. rewrite canti_table, canti_global.
  assert (R0 : exists lc, dget c canti_cases = Some lc /\ c_rest lc = []) by (destruct H as [-> | ->]; eexists; split; reflexivity).
  destruct R0 as (lc & -> & ->). unfold flag, entry. rewrite lookup_dget. cbn [dget]. do 6 (destruct j as [|j]; [reflexivity|]). lia.
Qed.
Lemma canti_carried c k n : c = "C" \/ c = "D" -> In (k, n) (f_nodes m) -> carried ext w c m k.
Proof.
  intros HC H. assert (CA : carried ext w c m "A") by (apply carried_clamp, canti_clamped, HC).
  unfold m in *. destruct parts; cbn in H.
  - assert (CN : carried ext w c (canti_fem true true) "N") by (apply (carried_end ext w c _ "k" (rod "k" "A" p0 "N" half)); [left; reflexivity|exact CA]).
    assert (CB : carried ext w c (canti_fem true true) "B") by (apply (carried_end ext w c _ "k2" (rod "k2" "N" half "B" p1)); [right; left; reflexivity|exact CN]).
    destruct H as [H|[H|[H|[]]]]; injection H as <- _; assumption.
  - assert (CB : carried ext w c (canti_fem false true) "B") by (apply (carried_end ext w c _ "k" (rod "k" "A" p0 "B" p1)); [left; reflexivity|exact CA]).
    destruct H as [H|[H|[]]]; injection H as <- _; assumption.
Qed.
Lemma canti_stiffness : stiffness ext w <> None.
Proof.
  assert (MU : forall k b, In (k, b) (f_beams m) -> 1 + poisson (b_prop b) <> 0).
  { intros k b I. pose proof (canti_positive k b I) as PP. unfold props_pos in PP. destruct (b_prop b); cbn; lra. }
  destruct (c21_defined ext (canti_ops parts ++ [OpAssemble]) w m eq_refl (told_guard _ _ (canti_fresh ext parts)) canti_model MU) as (K & HK). rewrite HK. discriminate.
Qed.
Lemma canti_stable c : c = "C" \/ c = "D" -> stable ext w c.
Proof.
  intros HC. apply (m107_clamped ext (canti_ops parts) c m (canti_fresh ext parts) canti_model canti_stiffness canti_positive (or_introl eq_refl)).
  intros k n. apply (canti_carried c k n HC).
Qed.
Lemma canti_there k : k = "A" \/ k = "B" -> answer ext w (OpNodeLocation k) <> RNone.
Proof.
  intros H. destruct canti_asm as (a & _ & _ & _ & _ & E). unfold answer. cbn [step snd]. rewrite E.
  unfold model_node_location. cbn [k_fem canti_core]. destruct H as [-> | ->]; destruct parts; discriminate.
Qed.
Lemma canti_solved c : c = "C" \/ c = "D" -> exact_solver ext -> able_solver ext -> solved ext w c.
Proof.
  intros HC EX AB. assert (T : answer ext w (OpNodeRestraints (Some c)) = RFlags []) by (rewrite canti_table; destruct HC as [-> | ->]; reflexivity).
  constructor; [|exact EX|rewrite T; left; reflexivity].
  apply (m113_clamped ext (canti_ops parts) c m [] (canti_fresh ext parts) EX AB canti_model eq_refl canti_positive (fun k n => canti_carried c k n HC) T).
  - intros d k E I. injection E as <-. destruct I.
  - left. reflexivity.
Qed.
Lemma canti_described : exists t l, describes ext (canti_ops parts) t l /\ holds m t /\ holds_loads (canti_heap parts) canti_cases l.
Proof.
  destruct canti_asm as (a & Ha & Em & Eh & Ec & _).
  destruct (c78_built ext _ m canti_model) as (t & T & HO). destruct (c79_built ext _ a Ha) as (l & L & HL). rewrite Eh, Ec in HL.
  exists t, l. unfold describes. auto.
Qed.
End Canti.

Lemma line_row_inj v v' : line_row v = line_row v' -> v = v'.
Proof. destruct v as [[[[? ?] ?] ?] [[[? ?] ?] ?]], v' as [[[[? ?] ?] ?] [[[? ?] ?] ?]]. cbn. intros E. injection E. intros. subst. reflexivity. Qed.
Lemma point_row_inj v v' : point_row v = point_row v' -> v = v'.
Proof. destruct v as [[[[[[? ?] ?] ?] ?] ?] ?], v' as [[[[[[? ?] ?] ?] ?] ?] ?]. cbn. intros E. injection E. intros. subst. reflexivity. Qed.
Lemma as_list_inj {A} (v v' : six A) : as_list v = as_list v' -> v = v'.
Proof. destruct v as [[[[[? ?] ?] ?] ?] ?], v' as [[[[[? ?] ?] ?] ?] ?]. cbn. intros E. injection E. intros. subst. reflexivity. Qed.
Lemma option_map_inj {A B} (f : A -> B) x y : (forall a b, f a = f b -> a = b) -> option_map f x = option_map f y -> x = y.
Proof. intros H. destruct x, y; cbn; intros E; try discriminate; [|reflexivity]. apply some_inj in E. f_equal. apply H, E. Qed.
Lemma told_value {A B} (f : A -> B) x y z : (forall a b, f a = f b -> a = b) -> x = option_map f y -> x = option_map f z -> y = z.
Proof. intros H E E'. apply (option_map_inj f _ _ H). congruence. Qed.

Lemma canti_cut t t' : holds (canti_fem false true) t -> holds (canti_fem true true) t' -> cut (1/4) "k" "k2" "N" "A" "B" p0 p1 t t'.
Proof.
  intros (N & R0 & _ & _ & _ & B & S) (N' & R0' & _ & _ & _ & B' & S'). constructor.
  - lra.
  - rewrite <- N, <- R0, <- B. repeat split; reflexivity.
  - intros i Hi. rewrite <- N, <- N'. cbn [canti_fem f_nodes dget]. destruct (String.eqb i "A"); [reflexivity|]. destruct (String.eqb i "B"); [reflexivity|].
    destruct (String.eqb_spec i "N"); [contradiction|reflexivity].
  - intros i. rewrite <- R0, <- R0'. reflexivity.
  - intros i. rewrite <- S, <- S'. reflexivity.
  - intros i H1 H2. rewrite <- B, <- B'. cbn [canti_fem f_beams dget]. destruct (String.eqb_spec i "k"); [contradiction|]. destruct (String.eqb_spec i "k2"); [contradiction|]. reflexivity.
  - rewrite <- !N. split; reflexivity.
  - rewrite <- N'. cbn [canti_fem f_nodes dget String.eqb Ascii.eqb Bool.eqb option_map fst]. f_equal.
    unfold part_way, p0, p1, vadd, vscale, vsub, n_loc, nd, node_at, half; cbn [n_csys cs_O vx vy vz]. apply vec3_eq; cbn [vx vy vz]; lra.
  - exists (PSimple 4 0 1 1 1 1 1). rewrite <- B, <- !B'. repeat split; reflexivity.
  - left. replace (part_way (1/4) p0 p1) with half by (unfold part_way, p0, p1, vadd, vscale, vsub, half; cbn [vx vy vz]; apply vec3_eq; cbn [vx vy vz]; lra).
    split; unfold not_steep, plan_offset, p0, p1, half; cbn [vx vy vz]; (eapply Rle_trans; [|apply Rmax_l]); rewrite Rabs_left by lra; lra.
Qed.
Lemma canti_case parts l c p i f : holds_loads (canti_heap parts) canti_cases l -> In (c, one_case c p i f []) canti_cases ->
  exists o, l_case l c = Some o /\ (forall k, o_uses o k = if String.eqb k p then Some (i, f) else None) /\ (forall k, o_rest o k = None).
Proof.
  intros (_ & _ & H) I. specialize (H c).
  assert (E : dget c canti_cases = Some (one_case c p i f [])) by (destruct I as [I|[I|[]]]; pose proof (f_equal fst I) as I1; pose proof (f_equal snd I) as I2; cbn [fst snd] in I1, I2; rewrite <- I1 in *; rewrite <- I2; reflexivity).
  rewrite E in H. destruct (l_case l c) as [o|]; [|contradiction].
  exists o. split; [reflexivity|]. destruct H as (_ & P & F & R0). split.
  - intros k. specialize (P k). specialize (F k). cbn [one_case c_pats c_factor dget] in P, F. destruct (String.eqb k p); destruct (o_uses o k) as [[i0 f0]|]; cbn in *; congruence.
  - intros k. specialize (R0 k). cbn in R0. destruct (o_rest o k); [discriminate|reflexivity].
Qed.
Lemma canti_cut_case l l' c : holds_loads (canti_heap false) canti_cases l -> holds_loads (canti_heap true) canti_cases l' -> c = "C" \/ c = "D" -> cut_case (1/4) "k" "k2" "N" l l' c.
Proof.
  intros H H' HC.
  assert (SH : forall i, (i < 2)%nat -> cut_sheet (1/4) "k" "k2" "N" (l_sheet l i) (l_sheet l' i)).
  { destruct H as (_ & H & _), H' as (_ & H' & _). intros i Hi.
    assert (Q : exists p p', nth_error (canti_heap false) i = Some p /\ nth_error (canti_heap true) i = Some p') by (destruct i as [|[|i]]; [eexists; eexists; split; reflexivity..|lia]).
    destruct Q as (p & p' & Q & Q'). destruct (H i p Q) as (A & B & C), (H' i p' Q') as (A' & B' & C').
    destruct i as [|[|i]]; [| |lia]; cbn [canti_heap nth_error] in Q, Q'; apply some_inj in Q; apply some_inj in Q'; subst p p'; cbn [p_nodal p_dist p_conc] in *.
    - constructor.
      + apply (told_value as_list None); [exact as_list_inj|exact (A "N")|reflexivity].
      + intros j. apply (option_map_inj as_list _ _ as_list_inj). rewrite <- A, <- A'. reflexivity.
      + intros j H1 H2. apply (option_map_inj line_row _ _ line_row_inj). rewrite <- B, <- B'. cbn [dget]. destruct (String.eqb_spec j "k"); [contradiction|]. destruct (String.eqb_spec j "k2"); [contradiction|]. reflexivity.
      + intros j H1 H2. apply (option_map_inj point_row _ _ point_row_inj). rewrite <- C, <- C'. cbn [dget]. destruct (String.eqb_spec j "k"); [contradiction|]. destruct (String.eqb_spec j "k2"); [contradiction|]. reflexivity.
      + rewrite (told_value line_row _ (s_line (l_sheet l 0) "k") (Some ((0, 8, 0, 0), (0, 4, 0, 0))) line_row_inj (B "k") eq_refl).
        rewrite (told_value line_row _ (s_line (l_sheet l' 0) "k") (Some ((0, 8, 0, 0), (0, 7, 0, 0))) line_row_inj (B' "k") eq_refl).
        rewrite (told_value line_row _ (s_line (l_sheet l' 0) "k2") (Some ((0, 7, 0, 0), (0, 4, 0, 0))) line_row_inj (B' "k2") eq_refl).
        cbn [halves_line]. unfold between. split; repeat f_equal; lra.
      + rewrite (told_value point_row _ (s_point (l_sheet l 0) "k") (Some ((0, 3, 0, 0, 0, 0), 5/8)) point_row_inj (C "k") eq_refl).
        rewrite (told_value point_row _ (s_point (l_sheet l' 0) "k") None point_row_inj (C' "k") eq_refl).
        rewrite (told_value point_row _ (s_point (l_sheet l' 0) "k2") (Some ((0, 3, 0, 0, 0, 0), 1/2)) point_row_inj (C' "k2") eq_refl).
        cbn [halves_point]. right. split; [lra|]. split; [reflexivity|]. replace ((5 / 8 - 1 / 4) / (1 - 1 / 4)) with (1/2) by field. reflexivity.
    - constructor.
      + apply (told_value as_list None); [exact as_list_inj|exact (A "N")|reflexivity].
      + intros j. apply (option_map_inj as_list _ _ as_list_inj). rewrite <- A, <- A'. reflexivity.
      + intros j H1 H2. apply (option_map_inj line_row _ _ line_row_inj). rewrite <- B, <- B'. reflexivity.
      + intros j H1 H2. apply (option_map_inj point_row _ _ point_row_inj). rewrite <- C, <- C'. reflexivity.
      + rewrite (told_value line_row _ (s_line (l_sheet l 1) "k") None line_row_inj (B "k") eq_refl).
        split; apply (told_value line_row None); auto using line_row_inj.
        * exact (B' "k"). * exact (B' "k2").
      + rewrite (told_value point_row _ (s_point (l_sheet l 1) "k") None point_row_inj (C "k") eq_refl).
        split; apply (told_value point_row None); auto using point_row_inj.
        * exact (C' "k"). * exact (C' "k2"). }
  assert (CC : exists p i f, In (c, one_case c p i f []) canti_cases /\ (i < 2)%nat).
  { destruct HC as [-> | ->]; [exists "P", 0%nat, 2|exists "Q", 1%nat, 3]; (split; [cbn; auto|lia]). }
  destruct CC as (p & i & f & I & Hi).
  destruct (canti_case _ _ _ _ _ _ H I) as (o & E & U & R0). destruct (canti_case _ _ _ _ _ _ H' I) as (o' & E' & U' & R0').
  unfold cut_case. rewrite E, E'. split; [|split; [|apply R0]].
  - intros k. rewrite U, U'. destruct (String.eqb k p); [|exact Logic.I]. split; [reflexivity|]. apply SH, Hi.
  - intros k. rewrite R0, R0'. reflexivity.
Qed.
Lemma canti_unloaded l : holds_loads (canti_heap false) canti_cases l -> unloaded l "D" "k".
Proof.
  intros H o p i f E U. destruct (canti_case _ _ "D" "Q" 1%nat 3 H ltac:(cbn; auto)) as (o' & E' & U' & _). rewrite E in E'. apply some_inj in E'. subst o'.
  rewrite U' in U. destruct (String.eqb p "Q"); [|discriminate]. apply some_inj in U. injection U as <- <-. destruct H as (_ & H & _).
  destruct (H 1%nat _ eq_refl) as (_ & B & C). specialize (B "k"). specialize (C "k"). cbn in B, C.
  split; [destruct (s_line (l_sheet l 1) "k")|destruct (s_point (l_sheet l 1) "k")]; (discriminate || reflexivity).
Qed.
Lemma canti_props t a b p : holds (canti_fem false true) t -> t_beam t "k" = Some (a, b, p) -> props_pos p.
Proof. intros (_ & _ & _ & _ & _ & B & _) E. rewrite <- B in E. cbn in E. apply some_inj in E. injection E as _ _ <-. cbn. lra. Qed.
