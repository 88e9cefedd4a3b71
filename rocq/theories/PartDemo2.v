(** The second cantilever of C130 on its own.
    (Examples only; nothing here is part of the model.) *)
From Coq Require Import Reals Lra Lia List String Arith Bool ZArith Sorting.Permutation.
From Verif Require Import Base BaseFacts Csys Sections Element Load FeModel Assembly Solver Post Api
  SpecApi ApiFacts WfFacts HidFacts ApiProofs1 LoadFacts SpecElim ElimFacts SpecGeom CsysFacts SpecBeam BeamFacts AsmFacts SpecAsm AsmProofs
  AsmTotal AsmProofs2 SpecLoad LoadProofs AsmProofs3 SpecSolve AsmSolve Demo SolveDemo SpecStatics StaticsProofs StaticsProofs2 SpecTold ToldProofs
  SpecToldLoad ToldLoadProofs SpecSame SameProofs SameProofs2 StaticsMain SpecCut CutProofs2 ToldDemo StaticsDemo StaticsDemo2 StaticsDemo3 GaussDemo SolvableProofs CutDemo
  SpecPart PartProofs2 PartDemo.
Import ListNotations.
Local Open Scope string_scope.
Local Open Scope list_scope.
Local Open Scope R_scope.

Definition solo_ops : list op :=
  [OpAddNode "E" (1/4) 0 0; OpAddNode "F" 1 0 0; OpSetRestraint "E" all_fixed; OpAddStatic "C"; OpAddSimpleBeam "k2" "E" "F" 4 0 1 1 1 1 1].
Definition solo_fem (bs : list (string * beam)) (hs : list (string * nat)) : fem :=
  Fem [("E", nd "E" half); ("F", nd "F" p1)] [("E", list6 all_fixed)] [] [] [] bs [] [("E", 0%nat); ("F", 1%nat)] hs [].
Definition solo_cases : dict lcase := [("C", new_case KStatic "C")].
Definition solo_core (m : fem) : core := Core m [] [] solo_cases.
Definition solo_model : fem := solo_fem [duo_k2] [("k2", 0%nat)].
Lemma solo_final ext : final ext init solo_ops = World (solo_core solo_model) [].
Proof.
  change solo_ops with ((firstn 4 solo_ops) ++ [OpAddSimpleBeam "k2" "E" "F" 4 0 1 1 1 1 1]). rewrite final_app.
  assert (N : final ext init (firstn 4 solo_ops) = World (solo_core (solo_fem [] [])) []).
  { unfold final, solo_ops; cbn [run firstn]; rewrite !step_add_node; reflexivity. }
  rewrite N, final_cons, final_nil. apply (rod_step ext (solo_core (solo_fem [] [])) "k2" "E" half "F" p1 _ sep_right eq_refl eq_refl eq_refl).
Qed.
Lemma solo_fresh ext : never_readds_nodes ext solo_ops.
Proof.
  assert (A1 : forall w n x y z, answer ext (after ext w (OpAddNode n x y z)) OpNodeNames = RNames (dkeys (dset n (node_at n x y z) (f_nodes (k_fem (w_core w)))))).
  { intros. unfold answer, after. rewrite step_add_node. reflexivity. }
  unfold never_readds_nodes, solo_ops; cbn [app guarded fresh_node].
  split; [exists []; split; [reflexivity|intros []]|]. split; [rewrite A1; eexists; split; [reflexivity|]; cbn; intros [X|[]]; discriminate|]. repeat split.
Qed.

Section Solo.
Variables (ext : externals).
Let w := final ext init (solo_ops ++ [OpAssemble]).
Let m := solo_model.
Lemma solo_asm : exists a, read_asb w = Some a /\ a_model a = m /\ w_core w = solo_core m.
Proof.
  destruct (assembled_now ext solo_ops (told_guard _ _ (solo_fresh ext))) as (_ & a & Ha & Em & _).
  fold w in Ha, Em. exists a.
  assert (E : w_core w = solo_core m) by (unfold w; rewrite core_assembled, solo_final; reflexivity).
  rewrite Em, E. split; [exact Ha|]. repeat split; reflexivity.
Qed.
Lemma solo_assembled : assembled_model w = Some m.
Proof. destruct solo_asm as (a & Ha & Em & _). unfold assembled_model. rewrite Ha. cbn. f_equal. exact Em. Qed.
Lemma solo_governing : governing ext w "C" = RFlags [("E", list6 all_fixed)].
Proof. destruct solo_asm as (a & _ & _ & E). unfold governing, answer. cbn [step]. rewrite E. reflexivity. Qed.
Lemma solo_positive k b : In (k, b) (f_beams m) -> props_pos (b_prop b).
Proof. intros [H|[]]; injection H as _ <-; cbn; lra. Qed.
Lemma solo_stiffness : stiffness ext w <> None.
Proof.
  assert (MU : forall k b, In (k, b) (f_beams m) -> 1 + poisson (b_prop b) <> 0).
  { intros k b I. pose proof (solo_positive k b I) as PP. unfold props_pos in PP. destruct (b_prop b); cbn; lra. }
  destruct (c21_defined ext (solo_ops ++ [OpAssemble]) w m eq_refl (told_guard _ _ (solo_fresh ext)) solo_assembled MU) as (K & HK). rewrite HK. discriminate.
Qed.
Lemma solo_stable : stable ext w "C".
Proof.
  apply (m107_clamped ext solo_ops "C" m (solo_fresh ext) solo_assembled solo_stiffness solo_positive (or_introl eq_refl)).
  intros k n H.
  assert (CE : carried ext w "C" m "E").
  { apply carried_clamp. intros j Hj. fold w. rewrite solo_governing. unfold flag, entry. rewrite lookup_dget. cbn [dget]. do 6 (destruct j as [|j]; [reflexivity|]); lia. }
  assert (CF : carried ext w "C" m "F") by (apply (carried_end ext w "C" _ "k2" (snd duo_k2)); [left; reflexivity|exact CE]).
  destruct H as [H|[H|[]]]; injection H as <- _; assumption.
Qed.
Lemma solo_described : exists t l, describes ext solo_ops t l /\ holds m t.
Proof.
  destruct solo_asm as (a & Ha & _). destruct (c78_built ext _ m solo_assembled) as (t & T & HO). destruct (c79_built ext _ a Ha) as (l & L & _).
  exists t, l. unfold describes. auto.
Qed.
Lemma solo_held : same_held beside ext w (final ext init (duo_ops ++ [OpAssemble])) "C".
Proof.
  intros k j P. rewrite (duo_governing ext "C" (or_introl eq_refl)), solo_governing. unfold flag, entry. rewrite !lookup_dget. cbn [dget].
  destruct (String.eqb_spec k "A") as [->|N]; [discriminate|reflexivity].
Qed.
Lemma duo_elastic : elastic ext (final ext init (duo_ops ++ [OpAssemble])).
Proof.
  intros m0 E. rewrite duo_assembled in E. apply some_inj in E. subst m0. split; [|left; reflexivity].
  intros k b H. apply duo_positive in H. unfold props_pos in H. unfold props_nonneg. destruct (b_prop b); repeat split; lra.
Qed.
End Solo.
Lemma solo_apart t : holds solo_model t -> apart beside t.
Proof.
  intros (_ & _ & _ & _ & _ & B & S). split.
  - intros k a b p E. rewrite <- B in E. cbn [solo_model solo_fem f_beams dget duo_k2] in E. destruct (String.eqb k "k2"); [|discriminate].
    cbn in E. apply some_inj in E. injection E as <- <- _. reflexivity.
  - intros k l s E. rewrite <- S in E. discriminate.
Qed.
Lemma solo_same t t' : holds solo_model t -> holds duo_model t' -> same_part beside t t'.
Proof.
  intros (N & _ & _ & _ & _ & B & S) (N' & _ & _ & _ & _ & B' & S'). split; intros k.
  - intros P. rewrite <- N, <- N'. unfold duo_model, duo_fem. cbn [solo_model solo_fem f_nodes dget]. unfold beside, near in P. destruct (String.eqb k "A"); [discriminate|]. destruct (String.eqb k "B"); [discriminate|reflexivity].
  - unfold beam_of. rewrite <- B, <- B'. unfold duo_model, duo_fem. cbn [solo_model solo_fem f_beams dget duo_k duo_k2]. destruct (String.eqb_spec k "k") as [->|]; [reflexivity|].
    destruct (String.eqb k "k2"); reflexivity.
  - unfold shell_of. rewrite <- S, <- S'. reflexivity.
Qed.
Lemma canti_only t k : holds (canti_fem false true) t -> t_node t k <> None -> near k = true.
Proof.
  intros (N & _) H. rewrite <- N in H. cbn [canti_fem f_nodes dget] in H. unfold near. destruct (String.eqb k "A"); [reflexivity|]. destruct (String.eqb k "B"); [reflexivity|]. contradiction.
Qed.
