(** A history for the instances of C79, followed call by call. *)
From Coq Require Import Reals List String Arith.
From Verif Require Import Base BaseFacts Csys Sections Element Load FeModel Assembly Solver Post Api SpecApi ApiFacts Demo.
Import ListNotations.
Local Open Scope string_scope.
Local Open Scope list_scope.
Local Open Scope R_scope.

Definition no_ext : externals := Ext zero_ker (fun _ _ _ => None) (fun _ _ _ => None).
Definition load_history : list op :=
  [OpAddPattern "P"; OpSetNodalLoad "P" "A" (1, 2, 3, 4, 5, 6); OpAddStatic "C"; OpAddCasePattern "C" "P" 10;
   OpAddPattern "P"; OpSetNodalLoad "P" "A" (7, 0, 0, 0, 0, 0); OpAddStatic "D"; OpAddCasePattern "D" "P" 3].
Definition vector_history : list op := OpAddNode "A" 0 0 0 :: load_history ++ [OpAssemble].
Definition later_history : list op := vector_history ++ [OpAddStatic "C"].

Definition vw0 : world := Eval cbn in fst (with_fem_w init (Fem [("A", node_at "A" 0 0 0)] [] [] [] [] [] [] [("A", 0%nat)] [] []), RBool true).
Definition vw1 : world := Eval cbn in fst (step no_ext vw0 (OpAddPattern "P")).
Lemma vs1 : step no_ext vw0 (OpAddPattern "P") = (vw1, RBool true).
Proof. reflexivity. Qed.
Definition vw2 : world := Eval cbn in fst (step no_ext vw1 (OpSetNodalLoad "P" "A" (1, 2, 3, 4, 5, 6))).
Lemma vs2 : step no_ext vw1 (OpSetNodalLoad "P" "A" (1, 2, 3, 4, 5, 6)) = (vw2, RBool true).
Proof. reflexivity. Qed.
Definition vw3 : world := Eval cbn in fst (step no_ext vw2 (OpAddStatic "C")).
Lemma vs3 : step no_ext vw2 (OpAddStatic "C") = (vw3, RBool true).
Proof. reflexivity. Qed.
Definition vw4 : world := Eval cbn in fst (step no_ext vw3 (OpAddCasePattern "C" "P" 10)).
Lemma vs4 : step no_ext vw3 (OpAddCasePattern "C" "P" 10) = (vw4, RBool true).
Proof. reflexivity. Qed.
Definition vw5 : world := Eval cbn in fst (step no_ext vw4 (OpAddPattern "P")).
Lemma vs5 : step no_ext vw4 (OpAddPattern "P") = (vw5, RBool true).
Proof. reflexivity. Qed.
Definition vw6 : world := Eval cbn in fst (step no_ext vw5 (OpSetNodalLoad "P" "A" (7, 0, 0, 0, 0, 0))).
Lemma vs6 : step no_ext vw5 (OpSetNodalLoad "P" "A" (7, 0, 0, 0, 0, 0)) = (vw6, RBool true).
Proof. reflexivity. Qed.
Definition vw7 : world := Eval cbn in fst (step no_ext vw6 (OpAddStatic "D")).
Lemma vs7 : step no_ext vw6 (OpAddStatic "D") = (vw7, RBool true).
Proof. reflexivity. Qed.
Definition vw8 : world := Eval cbn in fst (step no_ext vw7 (OpAddCasePattern "D" "P" 3)).
Lemma vs8 : step no_ext vw7 (OpAddCasePattern "D" "P" 3) = (vw8, RBool true).
Proof. reflexivity. Qed.
Definition vw9 : world := fst (step no_ext vw8 OpAssemble).
Lemma vs9 : step no_ext vw8 (OpAssemble) = (vw9, RBool true).
Proof. reflexivity. Qed.
Definition vw10 : world := Eval cbn in fst (step no_ext vw9 (OpAddStatic "C")).
Lemma vs10 : step no_ext vw9 (OpAddStatic "C") = (vw10, RBool true).
Proof. reflexivity. Qed.

Ltac follow_calls := unfold vector_history; cbn [app load_history]; rewrite !final_cons; unfold after;
  rewrite step_add_node; change (fst (with_fem_w init _, RBool true)) with vw0;
  rewrite vs1; cbn [fst]; rewrite vs2; cbn [fst]; rewrite vs3; cbn [fst]; rewrite vs4; cbn [fst]; rewrite vs5; cbn [fst];
  rewrite vs6; cbn [fst]; rewrite vs7; cbn [fst]; rewrite vs8; cbn [fst]; rewrite vs9; cbn [fst].
Lemma vector_final : final no_ext init vector_history = vw9.
Proof. follow_calls. reflexivity. Qed.
Lemma later_final : final no_ext init later_history = vw10.
Proof. unfold later_history. rewrite final_app, vector_final, final_cons. unfold after. rewrite vs10. reflexivity. Qed.
Lemma trace_cons ext w o ops r w' : step ext w o = (w', r) -> trace ext w (o :: ops) = (o, r) :: trace ext w' ops.
Proof. intros E. cbn [trace]. unfold answer, after. now rewrite E. Qed.
Lemma vector_trace rest : trace no_ext init (vector_history ++ rest)
  = map (fun o => (o, RBool true)) vector_history ++ trace no_ext vw9 rest.
Proof.
  unfold vector_history. cbn [app load_history].
  erewrite trace_cons by (rewrite step_add_node; reflexivity).
  match goal with |- context [trace _ ?w (OpAddPattern "P" :: OpSetNodalLoad "P" "A" (1, 2, 3, 4, 5, 6) :: _)] => change w with vw0 end.
  erewrite trace_cons by exact vs1. erewrite trace_cons by exact vs2. erewrite trace_cons by exact vs3.
  erewrite trace_cons by exact vs4. erewrite trace_cons by exact vs5. erewrite trace_cons by exact vs6.
  erewrite trace_cons by exact vs7. erewrite trace_cons by exact vs8. erewrite trace_cons by exact vs9. reflexivity.
Qed.
