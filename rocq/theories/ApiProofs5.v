(** Witnesses for the statements about sections and shells that fail. *)
From Coq Require Import Reals Lra Lia List String Arith Bool.
From Verif Require Import Base BaseFacts Csys Sections Element Load FeModel Assembly Solver Post Api
  SpecApi ApiFacts WfFacts ApiProofs3 Demo.
Import ListNotations.
Local Open Scope R_scope.
Local Open Scope string_scope.

Definition pipe_ops : list op := [OpAddMaterial "steel" 7850 2 (3/10) 0; OpAddPipe "p" "steel" 2 (1/2)].

Lemma pipe_true ext : outs ext init pipe_ops = [RBool true; RBool true].
Proof.
  unfold pipe_ops, outs. cbn. unfold mk_rectangle, Reqb.
  destruct (Req_EM_T (1/2) 0); [lra|]. destruct (Req_EM_T 2 0); [lra|]. reflexivity.
Qed.

Lemma c12_refuted :
  forall ext, exists ops n d t sec,
  outs ext init ops = repeat (RBool true) (List.length ops) /\ last ops OpClear = OpAddPipe n "steel" d t
  /\ 0 < t /\ t <= d / 2
  /\ stored_section (final ext init ops) n = Some sec
  /\ s_A sec <> PI / 4 * (d^2 - (d - 2*t)^2) /\ s_I22 sec <> s_I33 sec.
Proof.
  intros ext.
  assert (A : answer ext (final ext init [OpAddMaterial "steel" 7850 2 (3/10) 0]) (OpAddPipe "p" "steel" 2 (1/2)) = RBool true).
  { pose proof (pipe_true ext) as P. unfold pipe_ops in P. rewrite (outs_cons ext init) in P.
    rewrite outs_cons in P. injection P as P. exact P. }
  destruct (c12_always_wrong ext _ "p" "steel" 2 (1/2) ltac:(lra) ltac:(lra) A) as (sec & Hs & H1 & H2).
  exists pipe_ops, "p", 2, (1/2), sec. split; [apply pipe_true|]. split; [reflexivity|].
  split; [lra|]. split; [lra|]. split; [unfold pipe_ops; rewrite !final_cons; rewrite final_cons in Hs; exact Hs|]. split; [|apply H2; lra].
  apply H1. pose proof Ratan.PI2_3_2. lra.
Qed.

Definition shell_ops : list op :=
  [OpAddNode "n1" 0 0 0; OpAddNode "n2" 1 0 0; OpAddNode "n3" 1 1 0; OpAddNode "n4" 0 1 0;
   OpAddMaterial "steel" 7850 2 (3/10) 0; OpAddShellSection "s" "steel" 1 "shell"].

Lemma shell_run ext : outs ext init shell_ops = repeat (RBool true) 6.
Proof. unfold outs, shell_ops. cbn [run]. rewrite !step_add_node. reflexivity. Qed.

Lemma c13_refuted :
  forall ext, exists ops l,
  outs ext init ops = repeat (RBool true) (List.length ops)
  /\ answer ext (final ext init ops) OpNodeNames = RNames l
  /\ In "n1" l /\ In "n2" l /\ In "n3" l /\ In "n4" l
  /\ In (OpAddShellSection "s" "steel" 1 "shell") ops
  /\ answer ext (final ext init ops) (OpAddShell "q" "n1" "n2" "n3" "n4" (Some "s")) = RBool false.
Proof.
  intros ext. exists shell_ops, ["n1"; "n2"; "n3"; "n4"]. split; [apply shell_run|].
  unfold answer, final, shell_ops. cbn [run]. rewrite !step_add_node. cbn.
  repeat split; tauto.
Qed.

Lemma names_inj l l' : RNames l = RNames l' -> l = l'.
Proof. intros H. injection H as H. exact H. Qed.


Lemma c11_exists : forall ext, exists ops b ri rj,
  answer ext (final ext init ops) OpBeamNames = RNames [b]
  /\ ri <> (false, false, false, false, false, false)
  /\ answer ext (final ext init ops) (OpSetRelease b ri rj) = RBool false.
Proof.
  intros ext. exists demo, "b", (false, false, false, false, false, true), (false, false, false, false, false, false).
  rewrite demo_final. split; [reflexivity|]. split; [discriminate|reflexivity].
Qed.
