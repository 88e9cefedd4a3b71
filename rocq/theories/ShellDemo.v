(** The unit square shell of Demo2, assembled. *)
From Coq Require Import Reals Lra Lia List String Arith Bool.
From Verif Require Import Base BaseFacts Csys Sections Element Load FeModel Assembly Solver Post Api SpecApi ApiFacts WfFacts HidFacts
  SpecGeom CsysFacts SpecShell ShellGeom SpecKernel SpecAsm AsmFacts AsmTotal Demo ApiProofs5 Demo2 Kernels AsmProofs.
Import ListNotations.
Local Open Scope R_scope.
Local Open Scope string_scope.

Definition shell_built : list op := (shelled ++ [OpAssemble])%list.
Definition gauss_ext : externals := Ext (code_kernels gauss2 tri_mid) (fun _ _ _ => None) (fun _ _ _ => None).
Lemma shell_built_fresh ext : never_readds_nodes ext shell_built.
Proof.
  unfold never_readds_nodes, shell_built, shelled, shell_ops. cbn [app guarded fresh_node]. unfold answer, after.
  split; [exists []; split; [reflexivity|simpl; tauto]|].
  rewrite !step_add_node.
  split; [exists ["n1"]; split; [reflexivity|simpl; intuition discriminate]|].
  split; [exists ["n1"; "n2"]; split; [reflexivity|simpl; intuition discriminate]|].
  split; [exists ["n1"; "n2"; "n3"]; split; [reflexivity|simpl; intuition discriminate]|]. tauto.
Qed.

Lemma shell_built_model ext : exists m s, assembled_model (final ext init shell_built) = Some m
  /\ f_shells m = [("q", s)] /\ f_beams m = [] /\ f_nodes m = [("n1", n1); ("n2", n2); ("n3", n3); ("n4", n4)]
  /\ mk_quad "q" (sh_sec s) n1 n2 n3 n4 = Some s
  /\ ss_type (sh_sec s) = "shell" /\ ss_t (sh_sec s) = 1 /\ m_E (ss_mat (sh_sec s)) = 2 /\ m_mu (ss_mat (sh_sec s)) = 3/10
  /\ exists K, stiffness ext (final ext init shell_built) = Some K.
Proof.
  assert (H : exists m s, assembled_model (final ext init shell_built) = Some m
  /\ f_shells m = [("q", s)] /\ f_beams m = [] /\ f_nodes m = [("n1", n1); ("n2", n2); ("n3", n3); ("n4", n4)]
  /\ mk_quad "q" (sh_sec s) n1 n2 n3 n4 = Some s
  /\ ss_type (sh_sec s) = "shell" /\ ss_t (sh_sec s) = 1 /\ m_E (ss_mat (sh_sec s)) = 2 /\ m_mu (ss_mat (sh_sec s)) = 3/10).
  { unfold shell_built, shelled. rewrite !final_app, shell_final. rewrite !final_cons, !final_nil. unfold after.
    cbn [step]. unfold model_add_shell.
    set (m := k_fem (w_core shell_world)).
    change (dget "n1" (f_nodes m)) with (Some n1). change (dget "n2" (f_nodes m)) with (Some n2).
    change (dget "n3" (f_nodes m)) with (Some n3). change (dget "n4" (f_nodes m)) with (Some n4).
    destruct (dget "s" (f_ssecs m)) as [sec|] eqn:E; [|discriminate E].
    cbn [bindO]. assert (Q : exists s, mk_quad "q" sec n1 n2 n3 n4 = Some s /\ sh_sec s = sec).
    { unfold mk_quad, n1, n2, n3, n4, node_at, n_loc. cbn [n_csys cs_O]. rewrite square_csys_eq. eexists. split; reflexivity. }
    destruct Q as (s & Q & S). rewrite Q. eexists. exists s. split; [reflexivity|]. split; [reflexivity|]. split; [reflexivity|].
    split; [reflexivity|]. rewrite S. split; [exact Q|]. cbn in E. injection E as <-. cbn. repeat split; reflexivity. }
  destruct H as (m & s & H1 & H2 & H3 & H). exists m, s. split; [exact H1|]. split; [exact H2|]. split; [exact H3|].
  destruct H as (H4 & H5 & H6 & H7 & H8 & H9). repeat (split; [assumption|]).
  unfold stiffness, assembled_model in *. destruct (read_asb (final ext init shell_built)) as [a|] eqn:RA; [|discriminate].
  cbn [option_map bindO] in *. apply some_inj in H1.
  destruct (asm_reach _ _ _ RA) as (c & W & _ & _ & EM & _ & _ & G).
  apply assemble_K_total; [rewrite EM; apply G, shell_built_fresh|]. rewrite H1, H3. intros k b [].
Qed.
Lemma square_plane : plane_quad (n_loc n1) (n_loc n2) (n_loc n3) (n_loc n4).
Proof.
  exists (V3 0 0 1). split; [unfold length3; cbn; replace (0 * (0 * 1) + 0 * (0 * 1) + 1 * (1 * 1)) with 1 by ring; apply sqrt_1|].
  repeat split; exists 1; (split; [lra|]); unfold normal3, cross, vsub, vscale, n_loc, n1, n2, n3, n4, node_at; cbn; f_equal; ring.
Qed.
