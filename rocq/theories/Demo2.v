(** A concrete model with a four-node shell, used by the examples. *)
From Coq Require Import Reals Lra Lia List String Arith Bool.
From Verif Require Import Base BaseFacts Csys Sections Element Load FeModel Assembly Solver Post Api SpecApi ApiFacts
  SpecGeom CsysFacts SpecShell ShellGeom Demo ApiProofs5.
Import ListNotations.
Local Open Scope R_scope.
Local Open Scope string_scope.

Lemma square_triangle : triangle (V3 0 0 0) (V3 1 0 0) (V3 1 1 0).
Proof.
  unfold triangle, normal3, cross, vsub; cbn [vx vy vz]. intros H. unfold zero3 in H.
  injection H as _ _ H. lra.
Qed.

(** The axes of a counter-clockwise unit square in the X-Y plane. *)
Definition square_csys : csys := 
  match quad_csys (V3 0 0 0) (V3 1 0 0) (V3 1 1 0) (V3 0 1 0) with Some c => c | None => CS zero3 zero3 zero3 zero3 end.
Lemma square_csys_eq : quad_csys (V3 0 0 0) (V3 1 0 0) (V3 1 1 0) (V3 0 1 0) = Some square_csys.
Proof.
  unfold square_csys. destruct (c46_quad _ _ _ (V3 0 1 0) square_triangle) as (c & E & _).
  rewrite E. reflexivity.
Qed.

Definition n1 := node_at "n1" 0 0 0.
Definition n2 := node_at "n2" 1 0 0.
Definition n3 := node_at "n3" 1 1 0.
Definition n4 := node_at "n4" 0 1 0.
Definition no_solver : externals := Ext zero_ker (fun _ _ _ => None) (fun _ _ _ => None).
Definition shell_world : world := Eval cbn in
  let w := with_fem_w init (Fem [("n1", n1); ("n2", n2); ("n3", n3); ("n4", n4)] [] [] [] [] [] []
    [("n1", 0%nat); ("n2", 1%nat); ("n3", 2%nat); ("n4", 3%nat)] [] []) in
  fst (step no_solver (fst (step no_solver w (OpAddMaterial "steel" 7850 2 (3/10) 0))) (OpAddShellSection "s" "steel" 1 "shell")).
Lemma shell_final ext : final ext init shell_ops = shell_world.
Proof. unfold final, shell_ops. cbn [run]. rewrite !step_add_node. reflexivity. Qed.

Lemma shell_accepted : forall ext, exists w, answer ext w (OpAddShell "q" "s" "n1" "n2" "n3" (Some "n4")) = RBool true.
Proof.
  intros ext. exists (final ext init shell_ops). rewrite shell_final. unfold answer. cbn [step]. unfold model_add_shell.
  set (m := k_fem (w_core shell_world)).
  change (dget "n1" (f_nodes m)) with (Some n1). change (dget "n2" (f_nodes m)) with (Some n2).
  change (dget "n3" (f_nodes m)) with (Some n3). change (dget "n4" (f_nodes m)) with (Some n4).
  destruct (dget "s" (f_ssecs m)) as [sec|] eqn:E; [|discriminate E].
  cbn [bindO]. unfold mk_quad. unfold n1, n2, n3, n4, node_at, n_loc. cbn [n_csys cs_O]. rewrite square_csys_eq. reflexivity.
Qed.

(** The same with the shell. *)
Definition shelled : list op := (shell_ops ++ [OpAddShell "q" "s" "n1" "n2" "n3" (Some "n4")])%list.
Lemma shelled_names ext : answer ext (final ext init shelled) OpShellNames = RNames ["q"].
Proof.
  unfold shelled. rewrite final_app, shell_final. rewrite final_cons, final_nil. unfold answer, after.
  cbn [step]. unfold model_add_shell.
  set (m := k_fem (w_core shell_world)).
  change (dget "n1" (f_nodes m)) with (Some n1). change (dget "n2" (f_nodes m)) with (Some n2).
  change (dget "n3" (f_nodes m)) with (Some n3). change (dget "n4" (f_nodes m)) with (Some n4).
  destruct (dget "s" (f_ssecs m)) as [sec|] eqn:E; [|discriminate E].
  cbn [bindO]. unfold mk_quad. unfold n1, n2, n3, n4, node_at, n_loc. cbn [n_csys cs_O]. rewrite square_csys_eq.
  reflexivity.
Qed.
Lemma shelled_fresh ext : never_readds_elements ext shelled.
Proof.
  unfold never_readds_elements, shelled, shell_ops. cbn [app guarded fresh_element].
  repeat (split; [exact I|]). split; [|exact I]. unfold after. rewrite !step_add_node.
  exists []. split; [reflexivity|]. simpl. tauto.
Qed.
