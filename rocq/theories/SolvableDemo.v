(** A free node, which balances no load in many ways (C113).  (Examples only.) *)
From Coq Require Import Reals Lra Lia List String Arith Bool ZArith Sorting.Permutation.
From Verif Require Import Base BaseFacts Csys Sections Element Load FeModel Assembly Solver Post Api
  SpecApi ApiFacts WfFacts HidFacts ApiProofs1 ApiProofs5 LoadFacts SpecElim ElimFacts SpecGeom CsysFacts SpecBeam BeamFacts AsmFacts SpecAsm AsmProofs
  AsmTotal AsmProofs2 SpecLoad LoadProofs AsmProofs3 SpecSolve AsmSolve Demo SolveDemo SpecStatics StaticsProofs StaticsProofs2
  StaticsMain StaticsDemo.
Import ListNotations.
Local Open Scope string_scope.
Local Open Scope list_scope.
Local Open Scope R_scope.

Definition loose_ops : list op := [OpAddNode "A" 0 0 0; OpAddStatic "C"].
Definition loose_ext : externals := tries [[0; 0; 0; 0; 0; 0]].
Lemma loose_fresh ext : never_readds_nodes ext loose_ops.
Proof. unfold never_readds_nodes, loose_ops. cbn [guarded fresh_node]. split; [exists []; split; [reflexivity|simpl; tauto]|]. tauto. Qed.
Section Loose.
Let ext := loose_ext.
Let w := final ext init (loose_ops ++ [OpAssemble]).
Lemma loose_asm : exists a, read_asb w = Some a /\ f_nodes (a_model a) = [("A", node_at "A" 0 0 0)] /\ f_beams (a_model a) = [] /\ f_shells (a_model a) = []
  /\ a_cases a = [("C", LCase KStatic "C" [] [] [] [])] /\ answer ext w (OpNodeRestraints None) = RFlags []
  /\ answer ext w (OpNodeRestraints (Some "C")) = RFlags [].
Proof.
  destruct (assembled_now ext loose_ops (told_guard _ _ (loose_fresh _))) as (_ & a & Ha & Em & Eh & Ec & _). fold w in Ha, Em, Eh, Ec.
  assert (E : exists m, w_core w = Core m [] [] [("C", LCase KStatic "C" [] [] [] [])] /\ f_nodes m = [("A", node_at "A" 0 0 0)] /\ f_beams m = [] /\ f_shells m = [] /\ f_rest m = []).
  { unfold w. rewrite core_assembled. unfold loose_ops, final. cbn [run]. rewrite step_add_node. eexists. split; [reflexivity|]. repeat split. }
  destruct E as (m & E & N & B & S & R0). exists a. split; [exact Ha|]. rewrite Em, Ec, E. cbn [k_fem k_cases]. repeat split; try assumption.
  - unfold answer. cbn [step]. rewrite E. unfold ret. cbn [snd k_fem]. rewrite R0. reflexivity.
  - unfold answer. cbn [step]. rewrite E. reflexivity.
Qed.
Lemma loose_model : exists m, assembled_model w = Some m /\ f_beams m = [] /\ f_shells m = [] /\ equations w = 6%nat.
Proof.
  destruct loose_asm as (a & Ha & N & B & S & _). assert (E : assembled_model w = Some (a_model a)) by (unfold assembled_model; rewrite Ha; reflexivity).
  exists (a_model a). split; [exact E|]. split; [exact B|]. split; [exact S|]. unfold equations. rewrite E. unfold size. rewrite N. reflexivity.
Qed.
Lemma loose_free q : ~ restrained_for ext w "C" q.
Proof.
  destruct loose_asm as (a & Ha & N & B & S & _ & G & T). unfold restrained_for, restrained_in, governing. rewrite T, G.
  intros (l & k & i & j & _ & _ & _ & _ & F). discriminate F.
Qed.
Lemma loose_stiff p q : stiff_at ext w p q = 0.
Proof.
  destruct loose_asm as (a & Ha & N & B & S & _). unfold stiff_at, stiffness. rewrite Ha. unfold assemble_K. cbn [bindO].
  rewrite B, S. reflexivity.
Qed.
Lemma loose_load q : load_at w "C" q = 0.
Proof.
  unfold load_at. destruct (load_vector w "C") as [f|] eqn:F; [|reflexivity].
  assert (X : load_vector w "C" <> None) by (rewrite F; discriminate).
  destruct (load_applied ext loose_ops "C" X) as (m & _ & E). specialize (E q). change (final ext init (loose_ops ++ [OpAssemble])) with w in E. unfold load_at in E. rewrite F in E.
  rewrite E. destruct loose_asm as (a & Ha & _ & _ & _ & C & _). unfold applied. rewrite Ha, C. reflexivity.
Qed.
Lemma loose_solved : solved ext w "C".
Proof.
  destruct loose_model as (m & Em & B & S & EQ). destruct loose_asm as (a & Ha & _ & _ & _ & _ & _ & T).
  apply (tries_solved [[0; 0; 0; 0; 0; 0]] loose_ops "C" [] [] (fun _ => 0) (told_guard _ _ (loose_fresh _)));
  change (tries [[0; 0; 0; 0; 0; 0]]) with ext; fold w.
  - intros m0 E. rewrite Em in E. apply some_inj in E. subst m0. split; [exact S|]. rewrite B. intros k b [].
  - exact T.
  - intros d k E I. injection E as <-. destruct I.
  - left. reflexivity.
  - intros q _ _. reflexivity.
  - intros q _ _. rewrite loose_load. unfold holding. apply rsum_0. intros; ring.
  - intros q. split; [intros []|]. intros H. exact (loose_free q H).
  - rewrite EQ. left. reflexivity.
Qed.
Lemma loose_energy x : energy ext w x x = 0.
Proof. unfold energy, work_of. apply rsum_0. intros q _. unfold holding. rewrite (rsum_0 (equations w)); [ring|]. intros p _. rewrite loose_stiff. ring. Qed.
Lemma loose_symmetric : symmetric_elements ext w.
Proof. intros m E. destruct loose_model as (m' & E' & _ & S & _). rewrite E' in E. apply some_inj in E. subst m'. left. exact S. Qed.
Lemma loose_elastic : elastic ext w.
Proof. intros m E. destruct loose_model as (m' & E' & B & S & _). rewrite E' in E. apply some_inj in E. subst m'. split; [rewrite B; intros k b []|left; exact S]. Qed.
End Loose.
