(** A concrete history used to show that the hypotheses of the theorems are met:
    a one-metre cantilever A-B along the global X axis with an axial tip load.
    (Examples only; nothing here is part of the model.) *)
From Coq Require Import Reals Lra Lia List String Arith Bool ZArith.
From Verif Require Import Base BaseFacts Csys Sections Element Load FeModel Assembly Solver Post Api
  SpecApi ApiFacts WfFacts HidFacts SpecGeom CsysFacts SpecBeam SpecAsm AsmProofs.
Import ListNotations.
Local Open Scope R_scope.
Local Open Scope string_scope.

(** A solver and kernels that give up / return zeros. *)
Definition zero_ker : kernels := Kernels (fun _ _ _ _ => zero_mat) (fun _ _ _ _ => zero_mat) (fun _ _ _ _ => zero_mat).

Definition all_fixed : six bool := (true, true, true, true, true, true).
Definition tip_load : six R := (1, 0, 0, 0, 0, 0).

Definition demo_nodes : list op := [OpAddNode "A" 0 0 0; OpAddNode "B" 1 0 0].
Definition demo_model : list op :=
  demo_nodes ++ [OpAddSimpleBeam "b" "A" "B" 1 0 1 1 1 1 1; OpSetRestraint "A" all_fixed].
Definition demo_loads : list op :=
  [OpAddPattern "P"; OpSetNodalLoad "P" "B" tip_load; OpAddStatic "C"; OpAddCasePattern "C" "P" 2].
Definition demo : list op := demo_model ++ demo_loads ++ [OpAssemble].

Definition node_at (n : string) (x y z : R) : node :=
  Node n (CS (V3 x y z) (V3 1 0 0) (V3 0 1 0) (V3 0 0 1)) [0;0;0;0;0;0].
Definition nodeA := node_at "A" 0 0 0.
Definition nodeB := node_at "B" 1 0 0.

Lemma demo_separated : well_separated (V3 0 0 0) (V3 1 0 0).
Proof.
  left. unfold plan_offset; cbn [vx vy vz]. apply Rle_trans with (Rabs (0 - 1)); [|apply Rmax_l].
  rewrite Rabs_left by lra. lra.
Qed.

Lemma demo_beam_ex : exists b, mk_beam "b" nodeA nodeB (PSimple 1 0 1 1 1 1 1) = Some b.
Proof.
  unfold mk_beam, n_loc, nodeA, nodeB, node_at; cbn [n_csys cs_O].
  destruct (line_csys (V3 0 0 0) (V3 1 0 0)) eqn:H; [eauto|].
  apply line_csys_none in H. exfalso. apply H, demo_separated.
Qed.

(** The beam of the example (its axes are those the constructor computes). *)
Definition demo_beam : beam :=
  Beam "b" nodeA nodeB
    (match line_csys (V3 0 0 0) (V3 1 0 0) with Some c => c | None => CS (V3 0 0 0) (V3 0 0 0) (V3 0 0 0) (V3 0 0 0) end)
    no_releases (PSimple 1 0 1 1 1 1 1).

Lemma demo_beam_eq : mk_beam "b" nodeA nodeB (PSimple 1 0 1 1 1 1 1) = Some demo_beam.
Proof.
  destruct demo_beam_ex as [b Hb]. rewrite Hb. f_equal.
  unfold mk_beam, n_loc, nodeA, nodeB, node_at in Hb; cbn [n_csys cs_O] in Hb.
  unfold demo_beam, nodeA, nodeB, node_at. destruct (line_csys (V3 0 0 0) (V3 1 0 0)) as [c|]; [|discriminate].
  injection Hb as <-. reflexivity.
Qed.

Definition demo_fem0 : fem :=
  Fem [("A", nodeA); ("B", nodeB)] [] [] [] [] [] [] [("A", 0%nat); ("B", 1%nat)] [] [].
Definition demo_fem : fem :=
  Fem [("A", nodeA); ("B", nodeB)] [("A", list6 all_fixed)] [] [] [] [("b", demo_beam)] []
      [("A", 0%nat); ("B", 1%nat)] [("b", 0%nat)] [].
Definition demo_pat : pattern := Pattern "P" [("B", [1;0;0;0;0;0])] [] [] [].
Definition demo_case : lcase :=
  LCase KStatic "C" [("P", 0%nat)] [("P", 2)] [("P", default_curve)] [].
Definition demo_core : core := Core demo_fem [("P", 0%nat)] [demo_pat] [("C", demo_case)].
Definition demo_asm : asm := Asm demo_fem [("C", demo_case)] [demo_pat] 6%Z [0;1;2;3;4;5]%nat.
Definition demo_world : world := World demo_core [(asb_file, FAsb demo_asm)].

Lemma add_node_eq n x y z m :
  model_add_node n x y z false m =
  Some (List.length (f_nodes m), Fem (dset n (node_at n x y z) (f_nodes m)) (f_rest m) (f_mats m) (f_bsecs m)
     (f_ssecs m) (f_beams m) (f_shells m) (dset n (List.length (f_nodes m)) (f_hnode m)) (f_hbeam m) (f_hshell m)).
Proof. unfold model_add_node. rewrite mk_node_total. reflexivity. Qed.

Lemma step_add_node ext w n x y z :
  step ext w (OpAddNode n x y z) =
  (with_fem_w w (let m := k_fem (w_core w) in
     Fem (dset n (node_at n x y z) (f_nodes m)) (f_rest m) (f_mats m) (f_bsecs m)
     (f_ssecs m) (f_beams m) (f_shells m) (dset n (List.length (f_nodes m)) (f_hnode m)) (f_hbeam m) (f_hshell m)), RBool true).
Proof. cbn [step]. rewrite add_node_eq. reflexivity. Qed.

Lemma step_demo_beam ext w :
  k_fem (w_core w) = demo_fem0 ->
  step ext w (OpAddSimpleBeam "b" "A" "B" 1 0 1 1 1 1 1) =
  (with_fem_w w (Fem [("A", nodeA); ("B", nodeB)] [] [] [] [] [("b", demo_beam)] []
      [("A", 0%nat); ("B", 1%nat)] [("b", 0%nat)] []), RBool true).
Proof.
  intros H. cbn [step]. rewrite H. unfold model_add_simple_beam.
  change (dget "A" (f_nodes demo_fem0)) with (Some nodeA).
  change (dget "B" (f_nodes demo_fem0)) with (Some nodeB).
  cbn [bindO]. unfold model_put_beam. rewrite demo_beam_eq. reflexivity.
Qed.

Lemma demo_nodes_run ext : run ext init demo_nodes = (World (Core demo_fem0 [] [] []) [], [RBool true; RBool true]).
Proof. unfold demo_nodes. cbn [run]. rewrite !step_add_node. reflexivity. Qed.

Lemma demo_run ext :
  run ext init demo = (demo_world, repeat (RBool true) 9).
Proof.
  unfold demo, demo_model, demo_nodes. cbn [app run]. rewrite !step_add_node.
  match goal with |- context [step ext ?w (OpAddSimpleBeam _ _ _ _ _ _ _ _ _ _)] =>
    rewrite (step_demo_beam ext w) by reflexivity end.
  cbn. reflexivity.
Qed.
Lemma demo_final ext : final ext init demo = demo_world.
Proof. unfold final. rewrite demo_run. reflexivity. Qed.
Lemma demo_outs ext : outs ext init demo = repeat (RBool true) 9.
Proof. unfold outs. rewrite demo_run. reflexivity. Qed.

(** No node is added twice, no pattern is created twice. *)
Lemma demo_fresh_nodes ext : never_readds_nodes ext demo.
Proof.
  unfold never_readds_nodes, demo, demo_model, demo_nodes. cbn [app guarded fresh_node].
  split; [exists []; split; [reflexivity|simpl; tauto]|].
  split; [|cbn; tauto].
  exists ["A"]; split; [|simpl; intros [H|[]]; discriminate].
  unfold answer, after. rewrite step_add_node. reflexivity.
Qed.

Lemma demo_fresh_patterns ext : never_recreates_patterns ext demo.
Proof.
  unfold never_recreates_patterns, demo, demo_model, demo_nodes. cbn [app guarded fresh_pattern].
  repeat (split; [exact I || idtac|]); try exact I.
  unfold answer, after. rewrite !step_add_node.
  match goal with |- context [step ext ?w (OpAddSimpleBeam _ _ _ _ _ _ _ _ _ _)] =>
    rewrite (step_demo_beam ext w) by reflexivity end.
  reflexivity.
Qed.
