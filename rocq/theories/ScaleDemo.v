(** A bar of twice the stiffness, for the examples of C139. *)
From Coq Require Import Reals Lra Lia List String Arith Bool ZArith.
From Verif Require Import Base BaseFacts Csys Sections Element Load FeModel Assembly Kernels Solver Post Api SpecApi ApiFacts SpecElim SpecGeom CsysFacts SpecBeam SpecAsm AsmProofs
  SpecLoad SpecSolve SpecTold SpecToldLoad Demo Demo2 SpecStatics SpecSame StaticsDemo StaticsDemo2 StaticsDemo3 FreqDemo SpecScale.
Import ListNotations.
Local Open Scope string_scope.
Local Open Scope list_scope.
Local Open Scope R_scope.

Lemma thick_scaled t t' : holds (bar_fem true p0 p1 slim) t -> holds (bar_fem true p0 p1 thick) t' -> rescaled 2 t t'.
Proof.
  intros H H'. constructor; intros k.
  - rewrite (bars_node _ _ _ _ _ _ H), (bars_node _ _ _ _ _ _ H'). reflexivity.
  - rewrite (told_shell _ _ _ H), (told_shell _ _ _ H'). split; reflexivity.
  - rewrite (bars_beam _ _ _ _ _ _ H), (bars_beam _ _ _ _ _ _ H'). cbn [slim thick dget]. destruct (String.eqb k "b"); cbn [option_map]; [|exact I].
    repeat split; cbn; lra.
Qed.
Lemma thick_mass t t' : holds (bar_fem true p0 p1 slim) t -> holds (bar_fem true p0 p1 thick) t' -> same_mass t t'.
Proof.
  intros H H'. split.
  - intros k. exact (bars_nodes_told true true p0 p1 slim thick t t' k H H').
  - intros k a b p a' b' p'. rewrite (bars_beam _ _ _ _ _ _ H), (bars_beam _ _ _ _ _ _ H'). cbn [slim thick dget]. destruct (String.eqb k "b"); cbn [option_map]; [|discriminate].
    intros E E'. apply some_inj in E, E'. pose proof (f_equal snd E) as Q. pose proof (f_equal snd E') as Q'. cbn in Q, Q'. subst p p'. reflexivity.
Qed.
