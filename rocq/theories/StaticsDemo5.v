(** A plate with all corners clamped and loaded: reactions with shells (C108).
    (Examples only; nothing here is part of the model.) *)
From Coq Require Import Reals Lra Lia List String Arith Bool ZArith Sorting.Permutation.
From Verif Require Import Base BaseFacts Csys Sections Element Load FeModel Assembly Solver Post Api
  SpecApi ApiFacts WfFacts HidFacts ApiProofs1 ApiProofs5 LoadFacts SpecElim ElimFacts SpecGeom CsysFacts SpecBeam BeamFacts AsmFacts SpecShell ShellGeom ShellProofs SpecAsm AsmProofs
  AsmTotal AsmProofs2 SpecLoad LoadProofs AsmProofs3 SpecSolve AsmSolve Demo Demo2 SpecKernel Kernels KernelProofs2 KernelProofs5 ShellDemo SolveDemo SpecStatics StaticsProofs StaticsProofs2
  StaticsMain StaticsDemo StaticsDemo2.
Import ListNotations.
Local Open Scope string_scope.
Local Open Scope list_scope.
Local Open Scope R_scope.

Definition plate_tail : list op :=
  [OpSetRestraint "n1" all_fixed; OpSetRestraint "n2" all_fixed; OpSetRestraint "n3" all_fixed; OpSetRestraint "n4" all_fixed;
   OpAddPattern "P"; OpSetNodalLoad "P" "n3" (1, 2, -5, 0, 0, 0); OpAddStatic "C"; OpAddCasePattern "C" "P" 2].
Definition plate_ops : list op := (shell_ops ++ plate_tail) ++ [OpAddShell "q" "s" "n1" "n2" "n3" (Some "n4")].
Definition plate_ext : externals := tries_on (code_kernels gauss2 tri_mid) [[]].
Definition plate_rest : dict (list bool) := [("n1", list6 all_fixed); ("n2", list6 all_fixed); ("n3", list6 all_fixed); ("n4", list6 all_fixed)].
Definition plate_heap : list pattern := [Pattern "P" [("n3", list6 (1, 2, -5, 0, 0, 0))] [] [] []].
Definition plate_cases : dict lcase := [("C", one_case "C" "P" 0 2 [])].

Lemma plate_fresh ext : never_readds_nodes ext plate_ops.
Proof.
  unfold never_readds_nodes, plate_ops, shell_ops, plate_tail. cbn [app guarded fresh_node]. unfold answer, after.
  split; [exists []; split; [reflexivity|simpl; tauto]|].
  rewrite !step_add_node.
  split; [exists ["n1"]; split; [reflexivity|simpl; intuition discriminate]|].
  split; [exists ["n1"; "n2"]; split; [reflexivity|simpl; intuition discriminate]|].
  split; [exists ["n1"; "n2"; "n3"]; split; [reflexivity|simpl; intuition discriminate]|]. tauto.
Qed.
Lemma plate_core ext : exists mats ssecs s, mk_quad "q" (sh_sec s) n1 n2 n3 n4 = Some s /\
  w_core (final ext init plate_ops) = Core (Fem [("n1", n1); ("n2", n2); ("n3", n3); ("n4", n4)] plate_rest mats [] ssecs [] [("q", s)]
    [("n1", 0%nat); ("n2", 1%nat); ("n3", 2%nat); ("n4", 3%nat)] [] [("q", 0%nat)]) [("P", 0%nat)] plate_heap plate_cases.
Proof.
  unfold plate_ops. rewrite !final_app, shell_final, final_cons, final_nil.
  set (w1 := final ext shell_world plate_tail).
  assert (E1 : exists mats ssecs sec, dget "s" ssecs = Some sec /\ w1 = World (Core (Fem [("n1", n1); ("n2", n2); ("n3", n3); ("n4", n4)] plate_rest mats [] ssecs [] []
    [("n1", 0%nat); ("n2", 1%nat); ("n3", 2%nat); ("n4", 3%nat)] [] []) [("P", 0%nat)] plate_heap plate_cases) []).
  { eexists. eexists. eexists. split; [|reflexivity]. reflexivity. }
  destruct E1 as (mats & ssecs & sec & HS & ->). unfold after. cbn [step]. unfold model_add_shell. cbn [w_core k_fem f_nodes f_ssecs].
  rewrite HS. cbn [dget String.eqb Ascii.eqb Bool.eqb bindO].
  assert (Q : exists s, mk_quad "q" sec n1 n2 n3 n4 = Some s /\ sh_sec s = sec).
  { unfold mk_quad, n1, n2, n3, n4, node_at, n_loc. cbn [n_csys cs_O]. rewrite square_csys_eq. eexists. split; reflexivity. }
  destruct Q as (s & Q & S0). rewrite Q. exists mats, ssecs, s. rewrite S0. split; [exact Q|]. reflexivity.
Qed.
Section Plate.
Let ext := plate_ext.
Let w := final ext init (plate_ops ++ [OpAssemble]).
Lemma plate_asm : exists a s, read_asb w = Some a /\ mk_quad "q" (sh_sec s) n1 n2 n3 n4 = Some s
  /\ f_nodes (a_model a) = [("n1", n1); ("n2", n2); ("n3", n3); ("n4", n4)] /\ f_beams (a_model a) = [] /\ f_shells (a_model a) = [("q", s)]
  /\ a_cases a = plate_cases /\ answer ext w (OpNodeRestraints None) = RFlags plate_rest /\ answer ext w OpNodeNames = RNames ["n1"; "n2"; "n3"; "n4"]
  /\ answer ext w (OpNodeRestraints (Some "C")) = RFlags [].
Proof.
  destruct (assembled_now ext plate_ops (told_guard _ _ (plate_fresh _))) as (_ & a & Ha & Em & Eh & Ec & _). fold w in Ha, Em, Eh, Ec.
  destruct (plate_core ext) as (mats & ssecs & s & Q & E). rewrite <- (core_assembled ext plate_ops) in E. fold w in E.
  exists a, s. split; [exact Ha|]. split; [exact Q|]. rewrite Em, Ec, E. unfold answer. cbn [step]. rewrite E. repeat split; reflexivity.
Qed.
Lemma plate_flag k j : In k ["n1"; "n2"; "n3"; "n4"] -> (j < 6)%nat -> flag (governing ext w "C") k j = true.
Proof.
  intros H Hj. destruct plate_asm as (a & s & _ & _ & _ & _ & _ & _ & G & _ & T). unfold governing. rewrite T, G.
  unfold flag, entry. rewrite lookup_dget. cbn in H. destruct H as [<-|[<-|[<-|[<-|[]]]]]; do 6 (destruct j as [|j]; [reflexivity|]); lia.
Qed.
Lemma plate_all q : (q < 24)%nat -> restrained_for ext w "C" q.
Proof.
  intros Hq. destruct plate_asm as (a & s & _ & _ & _ & _ & _ & _ & _ & NN & _). unfold restrained_for, restrained_in. rewrite NN.
  exists ["n1"; "n2"; "n3"; "n4"], (nth (q / 6) ["n1"; "n2"; "n3"; "n4"] ""), (q / 6)%nat, (q mod 6)%nat.
  assert (L : (q / 6 < 4)%nat) by (apply Nat.div_lt_upper_bound; lia). assert (M : (q mod 6 < 6)%nat) by (apply Nat.mod_upper_bound; discriminate).
  split; [reflexivity|]. split; [apply nth_error_nth'; exact L|]. split; [exact M|].
  split; [rewrite <- Nat.div_mod by discriminate; reflexivity|]. apply plate_flag; [apply nth_In; exact L|exact M].
Qed.
Lemma plate_equations : equations w = 24%nat.
Proof. destruct plate_asm as (a & s & Ha & _ & N & _). unfold equations, assembled_model. rewrite Ha. cbn [option_map]. unfold size. rewrite N. reflexivity. Qed.
Lemma plate_solved : solved ext w "C".
Proof.
  destruct plate_asm as (a & s & Ha & _ & N & B & _ & _ & _ & NN & T).
  apply (tries_on_solved (code_kernels gauss2 tri_mid) [[]] plate_ops "C" [] (seq 0 24) (fun _ => 0) (told_guard _ _ (plate_fresh _)));
  change (tries_on (code_kernels gauss2 tri_mid) [[]]) with ext; fold w.
  - intros m Hm. split; [right; apply code_symmetric|]. intros k b H. unfold assembled_model in Hm. rewrite Ha in Hm. cbn in Hm. apply some_inj in Hm. subst m. rewrite B in H. destruct H.
  - exact T.
  - intros d k E I. injection E as <-. destruct I.
  - left. reflexivity.
  - intros q Hq _. reflexivity.
  - intros q Hq NQ. exfalso. apply NQ, plate_all. rewrite plate_equations in Hq. exact Hq.
  - intros q. rewrite in_seq. split; [intros H; apply plate_all; lia|].
    intros (l & k & i & j & El & Hi & Hj & -> & F). rewrite NN in El. injection El as <-.
    assert ((i < 4)%nat) by (change 4%nat with (List.length ["n1"; "n2"; "n3"; "n4"]); apply nth_error_Some; congruence). lia.
  - rewrite plate_equations. left. reflexivity.
Qed.
Lemma plate_model : exists m s, assembled_model w = Some m /\ f_shells m = [("q", s)] /\ mk_quad "q" (sh_sec s) n1 n2 n3 n4 = Some s.
Proof. destruct plate_asm as (a & s & Ha & Q & _ & _ & S & _). exists (a_model a), s. split; [unfold assembled_model; rewrite Ha; reflexivity|]. auto. Qed.
End Plate.
Lemma square_proper s : mk_quad "q" (sh_sec s) n1 n2 n3 n4 = Some s -> proper_shape s.
Proof. intros HQ. unfold proper_shape. rewrite (proj1 (mk_quad_some _ _ _ _ _ _ _ HQ)). exact square_plane. Qed.
