(** Concrete solved models: bars between two nodes, in several variants.
    (Examples only; nothing here is part of the model.) *)
From Coq Require Import Reals Lra Lia List String Arith Bool ZArith Sorting.Permutation.
From Verif Require Import Base BaseFacts Csys Sections Element Load FeModel Assembly Solver Post Api
  SpecApi ApiFacts WfFacts HidFacts ApiProofs1 LoadFacts SpecElim ElimFacts SpecGeom CsysFacts SpecBeam BeamFacts AsmFacts SpecAsm AsmProofs
  AsmTotal AsmProofs2 SpecLoad LoadProofs AsmProofs3 SpecSolve AsmSolve Demo SolveDemo SpecStatics StaticsProofs StaticsProofs2 SameProofs SameProofs2 StaticsDemo.
Import ListNotations.
Local Open Scope string_scope.
Local Open Scope list_scope.
Local Open Scope R_scope.

(** Two nodes, listed in either order; A is clamped; the patterns P and Q pull B by [e]; the
    cases apply 2 P (C), 3 Q (D), 2 P and 6 Q (E), and 2 P with B guided as well (S). *)
Definition guide_y : six bool := (false, true, false, false, false, false).
Definition bar_nodes (ab : bool) (p q : vec3) : list op :=
  let a := OpAddNode "A" (vx p) (vy p) (vz p) in let b := OpAddNode "B" (vx q) (vy q) (vz q) in if ab then [a; b] else [b; a].
Definition pull (e : vec3) : six R := (vx e, vy e, vz e, 0, 0, 0).
Definition bar_tail (e : vec3) : list op :=
  [OpSetRestraint "A" all_fixed; OpAddPattern "P"; OpSetNodalLoad "P" "B" (pull e); OpAddPattern "Q"; OpSetNodalLoad "Q" "B" (pull e);
   OpAddStatic "C"; OpAddCasePattern "C" "P" 2; OpAddStatic "D"; OpAddCasePattern "D" "Q" 3;
   OpAddStatic "E"; OpAddCasePattern "E" "P" 2; OpAddCasePattern "E" "Q" 6;
   OpAddStatic "S"; OpAddCasePattern "S" "P" 2; OpSetCaseRestraint "S" "A" all_fixed; OpSetCaseRestraint "S" "B" guide_y].
Definition bar_ops (ab : bool) (p q e : vec3) : list op := bar_nodes ab p q ++ bar_tail e.
(** A member of the given stiffness. *)
Definition bar (n : string) (E : R) : op := OpAddSimpleBeam n "A" "B" E 0 1 1 1 1 1.

Definition nd (n : string) (p : vec3) : node := node_at n (vx p) (vy p) (vz p).
Definition bar_beam (p q : vec3) (n : string) (E : R) : beam :=
  Beam n (nd "A" p) (nd "B" q)
    (match line_csys p q with Some c => c | None => CS zero3 zero3 zero3 zero3 end) no_releases (PSimple E 0 1 1 1 1 1).
Definition bar_fem (ab : bool) (p q : vec3) (bs : list (string * R)) : fem :=
  Fem (if ab then [("A", nd "A" p); ("B", nd "B" q)] else [("B", nd "B" q); ("A", nd "A" p)])
      [("A", list6 all_fixed)] [] [] []
      (map (fun kE => (fst kE, bar_beam p q (fst kE) (snd kE))) bs) []
      (if ab then [("A", 0%nat); ("B", 1%nat)] else [("B", 0%nat); ("A", 1%nat)]) (combine (map fst bs) (seq 0 (List.length bs))) [].
Definition bar_heap (e : vec3) : list pattern :=
  [Pattern "P" [("B", list6 (pull e))] [] [] []; Pattern "Q" [("B", list6 (pull e))] [] [] []].
Definition one_case (n p : string) (ad : nat) (f : R) (rest : dict (list bool)) : lcase :=
  LCase KStatic n [(p, ad)] [(p, f)] [(p, default_curve)] rest.
Definition bar_cases : dict lcase :=
  [("C", one_case "C" "P" 0 2 []); ("D", one_case "D" "Q" 1 3 []);
   ("E", LCase KStatic "E" [("P", 0%nat); ("Q", 1%nat)] [("P", 2); ("Q", 6)] [("P", default_curve); ("Q", default_curve)] []);
   ("S", one_case "S" "P" 0 2 [("A", list6 all_fixed); ("B", list6 guide_y)])].
Definition bar_core (ab : bool) (p q e : vec3) (bs : list (string * R)) : core :=
  Core (bar_fem ab p q bs) [("P", 0%nat); ("Q", 1%nat)] (bar_heap e) bar_cases.

Lemma bar_final ext ab p q e : final ext init (bar_ops ab p q e) = World (bar_core ab p q e []) [].
Proof.
  unfold bar_ops. rewrite final_app.
  assert (N : final ext init (bar_nodes ab p q) = World (Core (let m := bar_fem ab p q [] in
     Fem (f_nodes m) [] [] [] [] [] [] (f_hnode m) [] []) [] [] []) []).
  { destruct ab; unfold final, bar_nodes; cbn [run]; rewrite !step_add_node; reflexivity. }
  rewrite N. destruct ab; reflexivity.
Qed.
Lemma bar_mk p q n E : well_separated p q -> mk_beam n (nd "A" p) (nd "B" q) (PSimple E 0 1 1 1 1 1) = Some (bar_beam p q n E).
Proof.
  intros H. unfold mk_beam, bar_beam. destruct p as [px py pz], q as [qx qy qz]. unfold n_loc, nd, node_at. cbn [n_csys cs_O vx vy vz].
  destruct (line_csys _ _) eqn:L; [reflexivity|]. apply line_csys_none in L. contradiction.
Qed.
Lemma bar_step ext ab p q e bs n E : well_separated p q -> ~ In n (map fst bs) ->
  after ext (World (bar_core ab p q e bs) []) (bar n E) = World (bar_core ab p q e (bs ++ [(n, E)])) [].
Proof.
  intros WS NI. unfold after, bar. cbn [step]. unfold model_add_simple_beam. cbn [w_core bar_core k_fem].
  assert (A : dget "A" (f_nodes (bar_fem ab p q bs)) = Some (nd "A" p)) by (destruct ab; reflexivity).
  assert (B : dget "B" (f_nodes (bar_fem ab p q bs)) = Some (nd "B" q)) by (destruct ab; reflexivity).
  rewrite A, B. cbn [bindO]. unfold model_put_beam. rewrite (bar_mk p q n E WS). cbn [bindO ret_fem snd].
  unfold with_fem_w, with_fem, with_core. cbn [w_core bar_core k_fem k_pats k_heap k_cases w_files fst]. f_equal. unfold bar_core. f_equal.
  unfold bar_fem. cbn [f_nodes f_rest f_mats f_bsecs f_ssecs f_beams f_shells f_hnode f_hbeam f_hshell].
  rewrite !map_app, app_length. cbn [map fst snd List.length]. f_equal.
  - apply dset_new. unfold dkeys. rewrite map_map. cbn [fst]. exact NI.
  - rewrite seq_app, map_length. cbn [seq Nat.add].
    assert (CA : forall (l1 : list string) (l2 : list nat) a b, List.length l1 = List.length l2 -> combine (l1 ++ [a]) (l2 ++ [b]) = combine l1 l2 ++ [(a, b)]).
    { induction l1 as [|x l1 IH]; intros [|y l2] a b L; try discriminate; [reflexivity|]. cbn. rewrite IH by (cbn in L; lia). reflexivity. }
    rewrite CA by (rewrite map_length, seq_length; reflexivity). apply dset_new. intros I. apply NI.
    unfold dkeys in I. apply in_map_iff in I as ([a b] & <- & I). apply in_combine_l in I. exact I.
Qed.
Definition bars (bs : list (string * R)) : list op := map (fun kE => bar (fst kE) (snd kE)) bs.
Lemma bars_run ext ab p q e bs : well_separated p q -> forall bs0, NoDup (map fst (bs0 ++ bs)) ->
  final ext (World (bar_core ab p q e bs0) []) (bars bs) = World (bar_core ab p q e (bs0 ++ bs)) [].
Proof.
  intros WS. induction bs as [|[n E] bs IH]; intros bs0 ND; cbn [bars map fst snd].
  - rewrite final_nil, app_nil_r. reflexivity.
  - rewrite final_cons, bar_step; [|exact WS|].
    + change (map (fun kE => bar (fst kE) (snd kE)) bs) with (bars bs). rewrite IH, <- app_assoc; [reflexivity|]. rewrite <- app_assoc. exact ND.
    + intros I. rewrite map_app in ND. cbn [map fst] in ND. apply NoDup_remove_2 in ND. apply ND, in_or_app. left. exact I.
Qed.
Lemma bars_final ext ab p q e bs : well_separated p q -> NoDup (map fst bs) ->
  final ext init (bar_ops ab p q e ++ bars bs) = World (bar_core ab p q e bs) [].
Proof. intros WS ND. rewrite final_app, bar_final. apply (bars_run ext ab p q e bs WS []). exact ND. Qed.

Lemma bars_fresh ext ab p q e tail : (forall o, In o tail -> adds_node o = None) ->
  never_readds_nodes ext (bar_ops ab p q e ++ tail).
Proof.
  intros H. unfold never_readds_nodes. apply guarded_app. split.
  - assert (A1 : forall w n x y z, answer ext (after ext w (OpAddNode n x y z)) OpNodeNames = RNames (dkeys (dset n (node_at n x y z) (f_nodes (k_fem (w_core w)))))).
    { intros. unfold answer, after. rewrite step_add_node. reflexivity. }
    destruct ab; unfold bar_ops, bar_nodes, bar_tail; cbn [app guarded fresh_node].
    + split; [exists []; split; [reflexivity|intros []]|]. split; [|cbn; tauto].
      rewrite A1. eexists. split; [reflexivity|]. cbn. intros [X|[]]; discriminate.
    + split; [exists []; split; [reflexivity|intros []]|]. split; [|cbn; tauto].
      rewrite A1. eexists. split; [reflexivity|]. cbn. intros [X|[]]; discriminate.
  - generalize (final ext init (bar_ops ab p q e)). induction tail as [|o tail IH]; intros w; cbn [guarded]; [exact I|]. split.
    + specialize (H o (or_introl eq_refl)). destruct o; try exact I. discriminate.
    + apply IH. intros o' Ho. apply H. right. exact Ho.
Qed.
Lemma bars_no_node bs o : In o (bars bs ++ [OpAssemble]) -> adds_node o = None.
Proof. intros H. apply in_app_or in H as [H|[<-|[]]]; [|reflexivity]. unfold bars in H. apply in_map_iff in H as (kE & <- & _). reflexivity. Qed.

(** The world after assembling. *)
Definition bar_run (ab : bool) (p q e : vec3) (bs : list (string * R)) : list op := bar_ops ab p q e ++ bars bs.
Lemma bar_fresh ext ab p q e bs : never_readds_nodes ext (bar_run ab p q e bs ++ [OpAssemble]).
Proof. unfold bar_run. rewrite <- app_assoc. apply bars_fresh. apply bars_no_node. Qed.

Section World.
Variables (ext : externals) (ab : bool) (p q e : vec3) (bs : list (string * R)).
Hypothesis WS : well_separated p q.
Hypothesis ND : NoDup (map fst bs).
Let w := final ext init (bar_run ab p q e bs ++ [OpAssemble]).
Lemma bar_asm : exists a, read_asb w = Some a /\ a_model a = bar_fem ab p q bs /\ a_heap a = bar_heap e /\ a_cases a = bar_cases
  /\ w_core w = bar_core ab p q e bs.
Proof.
  destruct (assembled_now ext (bar_run ab p q e bs) (bar_fresh ext ab p q e bs)) as (_ & a & Ha & Em & Eh & Ec & _).
  fold w in Ha, Em, Eh, Ec. exists a.
  assert (E : w_core w = bar_core ab p q e bs).
  { unfold w. rewrite (core_assembled ext (bar_run ab p q e bs)). unfold bar_run. rewrite (bars_final ext ab p q e bs WS ND). reflexivity. }
  rewrite Em, Eh, Ec, E. split; [exact Ha|]. repeat split; reflexivity.
Qed.
Lemma bar_assembled : assembled_model w = Some (bar_fem ab p q bs).
Proof. destruct bar_asm as (a & Ha & Em & _). unfold assembled_model. rewrite Ha, <- Em. reflexivity. Qed.
Lemma bar_applied c : applied w c = match dget c bar_cases with Some lc => applied_in (bar_heap e) lc | None => [] end.
Proof. destruct bar_asm as (a & Ha & Em & Eh & Ec & _). unfold applied. rewrite Ha, Ec, Eh. reflexivity. Qed.
Lemma bar_table c : answer ext w (OpNodeRestraints (Some c)) = match dget c bar_cases with Some lc => RFlags (c_rest lc) | None => RNone end.
Proof.
  destruct bar_asm as (a & _ & _ & _ & _ & E). unfold answer. cbn [step]. rewrite E. cbn [k_cases bar_core].
  destruct (dget c bar_cases); reflexivity.
Qed.
Lemma bar_global : answer ext w (OpNodeRestraints None) = RFlags [("A", list6 all_fixed)].
Proof. destruct bar_asm as (a & _ & _ & _ & _ & E). unfold answer. cbn [step snd]. rewrite E. reflexivity. Qed.
Lemma bar_names : answer ext w OpNodeNames = RNames (dkeys (f_nodes (bar_fem ab p q bs))).
Proof. destruct bar_asm as (a & _ & _ & _ & _ & E). unfold answer. cbn [step snd]. rewrite E. reflexivity. Qed.
Lemma bar_beams k b : In (k, b) (f_beams (bar_fem ab p q bs)) -> exists E, In (k, E) bs /\ b = bar_beam p q k E.
Proof. cbn [bar_fem f_beams]. intros H. apply in_map_iff in H as ([k' E] & H & I). cbn in H. inversion H; subst. exists E. auto. Qed.
Lemma bar_keys : In "A" (dkeys (f_nodes (bar_fem ab p q bs))) /\ In "B" (dkeys (f_nodes (bar_fem ab p q bs))).
Proof. destruct ab; cbn; auto. Qed.
Lemma bar_stiff : exists K, stiffness ext w = Some K.
Proof.
  apply (c21_defined ext _ w (bar_fem ab p q bs) eq_refl (bar_fresh ext ab p q e bs) bar_assembled).
  intros k b H. apply bar_beams in H as (E & _ & ->). cbn. lra.
Qed.
Lemma bar_loads c : dget c bar_cases <> None -> exists f, load_vector w c = Some f.
Proof.
  intros H. apply (proj2 (c26_defined ext _ w (bar_fem ab p q bs) c eq_refl (bar_fresh ext ab p q e bs) bar_assembled
    ltac:(intros k b HB; apply bar_beams in HB as (E & _ & ->); cbn; lra))).
  destruct bar_asm as (a & Ha & _ & _ & Ec & _). destruct (dget c bar_cases) as [lc|] eqn:D; [|congruence].
  exists a, lc. split; [exact Ha|]. rewrite Ec. exact D.
Qed.

(** Total pull of a case, and the flags that govern it. *)
Definition total_of (c : string) : R := match dget c bar_cases with Some lc => lsum (map snd (c_factor lc)) | None => 0 end.
Lemma vec_eta v : V3 (vx v) (vy v) (vz v) = v.
Proof. apply vec3_eq; reflexivity. Qed.
Lemma bar_pull c x : dget c bar_cases <> None -> dvec x "A" = zero3 -> rvec x "A" = zero3 ->
  lsum (map (fun fp => fst fp * pattern_power (bar_fem ab p q bs) (snd fp) (spread (bar_fem ab p q bs) x)) (applied w c))
  = total_of c * dot3 e (dvec x "B").
Proof.
  intros H XA RA. rewrite bar_applied.
  pose proof (assembled_good ext _ w _ eq_refl (bar_fresh ext ab p q e bs) bar_assembled) as G.
  set (m := bar_fem ab p q bs) in *. destruct bar_keys as [KA KB]. fold m in KA, KB.
  assert (PP : forall n, pattern_power m (Pattern n [("B", list6 (pull e))] [] [] []) (spread m x) = dot3 e (dvec x "B")).
  { intros n. unfold pattern_power. rewrite (lsum_zero (member_power _ _ _) (f_beams m)) by (intros; apply nodal_member_power; split; reflexivity).
    assert (NA : node_power m (Pattern n [("B", list6 (pull e))] [] [] []) (spread m x) "A" = 0).
    { unfold node_power, node_force, node_moment, triple, load_entry. cbn [p_nodal dget String.eqb Ascii.eqb Bool.eqb]. unfold dot3; cbn [vx vy vz]. ring. }
    assert (NB : node_power m (Pattern n [("B", list6 (pull e))] [] [] []) (spread m x) "B" = dot3 e (dvec x "B")).
    { unfold node_power. destruct (spread_disp m x _ G KB) as [-> ->]. unfold node_force, node_moment, triple, load_entry.
      cbn [p_nodal dget String.eqb Ascii.eqb Bool.eqb pull list6 nth Nat.add]. unfold dot3; cbn [vx vy vz]. ring. }
    assert (KS : dkeys (f_nodes m) = if ab then ["A"; "B"] else ["B"; "A"]) by (unfold m; destruct ab; reflexivity).
    rewrite KS. destruct ab; cbn [map lsum]; rewrite NA, NB; ring. }
  unfold total_of. unfold bar_cases in H |- *. cbn [dget] in H |- *.
  repeat (match goal with |- context [String.eqb c ?s] => destruct (String.eqb c s) end;
          [cbn [applied_in one_case c_factor c_pats flat_map dget fst snd String.eqb Ascii.eqb Bool.eqb bar_heap nth_error app map lsum]; rewrite ?PP; ring|]).
  congruence.
Qed.
End World.

Definition stiffness_sum (p q : vec3) (bs : list (string * R)) : R := lsum (map (fun kE => snd kE / distance p q) bs).
Definition six_of (v : vec3) : list R := [vx v; vy v; vz v; 0; 0; 0].
Lemma bar_solved xs ab p q bs c lc : well_separated p q -> NoDup (map fst bs) -> stiffness_sum p q bs <> 0 ->
  dget c bar_cases = Some lc -> c_rest lc = [] \/ c_rest lc = [("A", list6 all_fixed); ("B", list6 guide_y)] /\ vy (axis_x p q) = 0 ->
  let v := vscale (total_of c / stiffness_sum p q bs) (axis_x p q) in
  In (if c_rest lc then six_of v else [vx v; vz v; 0; 0; 0]) xs ->
  let ext := tries xs in let w := final ext init (bar_run ab p q (axis_x p q) bs ++ [OpAssemble]) in
  solved ext w c /\ permitted ext w c (spread (bar_fem ab p q bs) (tip v)) /\ balanced ext w c (spread (bar_fem ab p q bs) (tip v)).
Proof.
  intros WS ND SS LC RS v IX ext w. set (e := axis_x p q) in *. set (m := bar_fem ab p q bs).
  pose proof (bar_assembled ext ab p q e bs WS ND) as Hm. fold w in Hm.
  destruct (bar_stiff ext ab p q e bs WS ND) as (K & HK). fold w in HK.
  destruct (bar_loads ext ab p q e bs WS ND c) as (f & HF); [rewrite LC; discriminate|]. fold w in HF.
  pose proof (bar_table ext ab p q e bs WS ND c) as TB. fold w in TB. rewrite LC in TB.
  pose proof (bar_global ext ab p q e bs WS ND) as TG. fold w in TG. pose proof (bar_names ext ab p q e bs WS ND) as NN. fold w in NN.
  destruct (bar_keys ext ab p q e bs) as [KA KB].
  set (tb := if c_rest lc then [("A", list6 all_fixed)] else c_rest lc).
  assert (GV : governing ext w c = RFlags tb) by (unfold governing; rewrite TB, TG; unfold tb; destruct (c_rest lc); reflexivity).
  assert (FB : forall k j, flag (governing ext w c) k j = true -> k = "A" \/ (k = "B" /\ j = 1%nat /\ c_rest lc <> [])).
  { intros k j. rewrite GV. unfold flag, entry. rewrite lookup_dget. unfold tb. destruct RS as [->|[-> _]]; cbn [dget].
    - destruct (String.eqb_spec k "A") as [->|]; [auto|discriminate].
    - destruct (String.eqb_spec k "A") as [->|]; [auto|]. destruct (String.eqb_spec k "B") as [->|]; [|discriminate].
      intros H. right. split; [reflexivity|]. split; [|discriminate]. do 6 (destruct j as [|j]; [cbn in H; discriminate || reflexivity|]). destruct j; discriminate. }
  assert (FA : forall j, (j < 6)%nat -> flag (governing ext w c) "A" j = true).
  { intros j Hj. rewrite GV. unfold flag, entry. rewrite lookup_dget. unfold tb. destruct RS as [->|[-> _]]; cbn [dget String.eqb Ascii.eqb Bool.eqb];
    do 6 (destruct j as [|j]; [reflexivity|]); lia. }
  assert (PU : permitted ext w c (spread m (tip v))).
  { apply (permitted_named ext _ c m _ (bar_fresh ext ab p q e bs) Hm). fold w. intros k j Hk Hj F. apply FB in F as [->|(-> & -> & NE)]; [reflexivity|].
    destruct RS as [Z|[_ Y]]; [congruence|]. change (total_of c / stiffness_sum p q bs * vy e = 0). rewrite Y. ring. }
  assert (BU : balanced ext w c (spread m (tip v))).
  { apply (bars_balanced ext _ c m p q (total_of c) _ K f (bar_fresh ext ab p q e bs) Hm HK HF KA KB eq_refl); auto.
    - intros k b H. apply bar_beams in H as (E & _ & ->). cbn [bar_beam b_ni b_nj]. repeat split; apply vec_eta.
    - intros x XA RA. apply (bar_pull ext ab p q e bs WS ND c x); [rewrite LC; discriminate|exact XA|exact RA].
    - assert (SE : lsum (map (fun b => EA (props (b_prop b)) / distance p q) (dvals (f_beams m))) = stiffness_sum p q bs).
      { unfold stiffness_sum, m, dvals. cbn [bar_fem f_beams]. rewrite !map_map. apply lsum_map_ext. intros kE _. cbn. f_equal. ring. }
      rewrite SE. field. exact SS. }
  split; [|split; [exact PU|exact BU]].
  assert (SP : forall j, (j < 6)%nat -> spread m (tip v) (6 * num m "B" + j) = nth j (six_of v) 0).
  { intros j Hj. rewrite (spread_at m _ "B" j (assembled_good ext _ w _ eq_refl (bar_fresh ext ab p q e bs) Hm) KB Hj). reflexivity. }
  set (iA := if ab then 0%nat else 1%nat).
  set (fixed0 := map (fun j => (6 * iA + j)%nat) (seq 0 6) ++ (if c_rest lc then [] else [(6 * (1 - iA) + 1)%nat])).
  apply (tries_solved xs _ c (c_rest lc) fixed0 (spread m (tip v)) (bar_fresh ext ab p q e bs)); fold ext; fold w; auto.
  - intros m0 E0. rewrite Hm in E0. apply some_inj in E0. subst m0. split; [reflexivity|]. intros k b H. apply bar_beams in H as (E & _ & ->). cbn. lra.
  - intros d k E I. injection E as <-. exists (dkeys (f_nodes m)). split; [exact NN|]. destruct RS as [E|[E _]]; rewrite E in I; [destruct I|]. cbn in I.
    destruct I as [<-|[<-|[]]]; assumption.
  - destruct RS as [->|[-> _]]; [left; reflexivity|right]. exists "A", 0%nat. split; [lia|reflexivity].
  - intros q0. unfold restrained_for. rewrite NN, GV. unfold fixed0, tb, iA. unfold restrained_in.
    split.
    + intros I. exists (dkeys (f_nodes m)), (nth (q0 / 6) (dkeys (f_nodes m)) ""), (q0 / 6)%nat, (q0 mod 6)%nat.
      assert (Q : q0 = (6 * (q0 / 6) + q0 mod 6)%nat) by (apply Nat.div_mod; discriminate).
      destruct RS as [ER|[ER _]]; rewrite ER in I |- *; destruct ab; cbn [map seq app Nat.mul Nat.add Nat.sub In] in I;
      decompose [or] I; try contradiction; subst q0; (split; [reflexivity|]; split; [reflexivity|]; split; [cbn; lia|]; split; [exact Q|reflexivity]).
    + intros (l & k & i & j & El & Hi & Hj & -> & F). injection El as <-.
      destruct RS as [ER|[ER _]]; rewrite ER in F |- *; destruct ab; cbn [m bar_fem f_nodes dkeys map fst] in Hi.
      all: destruct i as [|[|i]]; [..|destruct i; discriminate]; cbn in Hi; injection Hi as <-;
        unfold flag, entry in F; rewrite lookup_dget in F; cbn [dget String.eqb Ascii.eqb Bool.eqb] in F; try discriminate;
        do 6 (destruct j as [|j]; [cbn in F |- *; try discriminate; auto 20|]); lia.
  - replace (equations w) with 12%nat by (unfold equations; rewrite Hm; destruct ab; reflexivity).
    assert (NB : num m "B" = if ab then 1%nat else 0%nat) by (destruct ab; reflexivity). rewrite NB in SP.
    destruct RS as [ER|[ER _]]; rewrite ER in IX; unfold fixed0, iA; rewrite ER; destruct ab; cbn [map seq app Nat.mul Nat.add Nat.sub] in SP |- *.
    all: match goal with |- In (map _ (free 12 ?l)) _ => let z := eval vm_compute in (free 12 l) in change (free 12 l) with z end; cbn [map].
    all: pose proof (SP 0%nat ltac:(lia)) as S0; pose proof (SP 1%nat ltac:(lia)) as S1; pose proof (SP 2%nat ltac:(lia)) as S2;
      pose proof (SP 3%nat ltac:(lia)) as S3; pose proof (SP 4%nat ltac:(lia)) as S4; pose proof (SP 5%nat ltac:(lia)) as S5;
      cbn [six_of nth Nat.add] in S0, S1, S2, S3, S4, S5; rewrite ?S0, ?S1, ?S2, ?S3, ?S4, ?S5; exact IX.
Qed.
