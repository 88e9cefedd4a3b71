(** Concrete models for the viewers: the cantilever with pattern "pat1" and case "case1", solved.
    (Examples and counterexamples only; nothing here is part of the model.) *)
From Coq Require Import Reals Lra Lia List String Arith Bool ZArith.
From Verif Require Import Base BaseFacts Csys Sections Element Load FeModel Assembly Solver Post Api
  SpecApi ApiFacts WfFacts HidFacts ApiProofs1 LoadFacts SpecElim ElimFacts SpecGeom CsysFacts SpecBeam BeamFacts AsmFacts SpecAsm AsmProofs
  AsmTotal AsmProofs2 SpecLoad LoadProofs SpecSolve AsmSolve Demo SolveDemo SpecShell ShellGeom ApiProofs5 Demo2
  Viewer SpecViewer ViewerProofs ViewerProofs2 ViewerProofs3.
Import ListNotations.
Local Open Scope string_scope.
Local Open Scope list_scope.
Local Open Scope R_scope.

Definition seen_loads : list op :=
  [OpAddPattern "pat1"; OpSetNodalLoad "pat1" "B" tip_load; OpAddStatic "case1"; OpAddCasePattern "case1" "pat1" 2].
Definition seen_ops : list op := demo_model ++ seen_loads ++ [OpAssemble].
Definition seen_pat : pattern := Pattern "pat1" [("B", [1;0;0;0;0;0])] [] [] [].
Definition seen_case : lcase := LCase KStatic "case1" [("pat1", 0%nat)] [("pat1", 2)] [("pat1", default_curve)] [].
Definition seen_core : core := Core demo_fem [("pat1", 0%nat)] [seen_pat] [("case1", seen_case)].
Definition seen_asm : asm := Asm demo_fem [("case1", seen_case)] [seen_pat] 6%Z [0;1;2;3;4;5]%nat.
Definition seen_world : world := World seen_core [(asb_file, FAsb seen_asm)].

Lemma seen_final ext : final ext init seen_ops = seen_world.
Proof.
  unfold final, seen_ops, demo_model, demo_nodes, seen_loads. cbn [app run]. rewrite !step_add_node.
  match goal with |- context [step ext ?w (OpAddSimpleBeam _ _ _ _ _ _ _ _ _ _)] =>
    rewrite (step_demo_beam ext w) by reflexivity end.
  cbn. reflexivity.
Qed.
Lemma seen_fresh ext : never_readds_nodes ext seen_ops.
Proof.
  unfold never_readds_nodes, seen_ops, demo_model, demo_nodes, seen_loads. cbn [app guarded fresh_node].
  split; [exists []; split; [reflexivity|simpl; tauto]|].
  split; [|cbn; tauto].
  exists ["A"]; split; [|simpl; intros [H|[]]; discriminate].
  unfold answer, after. rewrite step_add_node. reflexivity.
Qed.

Lemma seen_solve : solve_linear tip_solver seen_asm "case1" = Some [0;0;0;0;0;0; 2;0;0;0;0;0].
Proof.
  pose proof (seen_fresh tip_solver) as NR. pose proof (seen_final tip_solver) as DF.
  assert (Ha : read_asb (final tip_solver init seen_ops) = Some seen_asm) by (rewrite DF; reflexivity).
  assert (Hm : assembled_model (final tip_solver init seen_ops) = Some demo_fem) by (rewrite DF; reflexivity).
  assert (HP : forall k b, In (k, b) (f_beams demo_fem) -> 1 + poisson (b_prop b) <> 0).
  { intros k b [H|[]]. injection H as <- <-. cbn. lra. }
  destruct (c21_defined tip_solver seen_ops _ demo_fem eq_refl NR Hm HP) as (K & HK).
  destruct (proj2 (c26_defined tip_solver seen_ops _ demo_fem "case1" eq_refl NR Hm HP)) as (f & HF).
  { rewrite DF. exists seen_asm, seen_case. split; reflexivity. }
  assert (EF : forall q, coo_get f q 0 = 2 * delta q 6).
  { intros q. rewrite (nodal_load tip_solver seen_ops _ demo_fem "case1" f q eq_refl Hm HF); rewrite DF.
    - change (applied seen_world "case1") with [(2, seen_pat)]. cbn [map lsum fst snd demo_fem f_nodes dkeys].
      unfold node_power, node_force, node_moment, triple, load_entry; cbn [seen_pat p_nodal dget String.eqb Ascii.eqb Bool.eqb nth Nat.add].
      change (num demo_fem "A") with 0%nat. change (num demo_fem "B") with 1%nat. unfold disp_at, rot_at, dot3; cbn [vx vy vz Nat.mul Nat.add]. ring.
    - intros fp [<-|[]]. split; reflexivity. }
  unfold stiffness in HK. unfold load_vector in HF. rewrite Ha in HK, HF. cbn [bindO] in HK, HF.
  assert (W : fem_wf demo_fem) by (apply (assembled_good _ _ _ _ eq_refl NR Hm)).
  unfold tip_solver. rewrite (solve_trial (demo_model ++ seen_loads) "case1" [2;0;0;0;0;0] _ seen_asm K f [0;1;2;3;4;5]%nat [0;1;2;3;4;5]%nat NR eq_refl Ha HK HF); try reflexivity.
  intros i Hi. change (List.length (free (size (a_model seen_asm)) [0;1;2;3;4;5]%nat)) with 6%nat in *.
  change (free (size (a_model seen_asm)) [0;1;2;3;4;5]%nat) with [6;7;8;9;10;11]%nat.
  set (p := nth i [6;7;8;9;10;11]%nat 0%nat).
  assert (D0 : delta p 0 = 0) by (unfold p; do 6 (destruct i as [|i]; [reflexivity|]); lia).
  clearbody p. cbn [rsum nth]. rewrite EF. destruct (demo_column 0 1 seen_asm K p (demo_like W) HK) as [C1 C2]. cbn [Nat.mul Nat.add] in C1, C2. rewrite C1, C2.
  rewrite D0. field.
Qed.
Definition seen_solved : list op := seen_ops ++ [OpSolveStatic "case1"].
Lemma seen_solved_world : exists K, final tip_solver init seen_solved = World seen_core [(asb_file, FAsb seen_asm); (stiff_file, FStiff K); ("case1.d.npy", FDisp [0;0;0;0;0;0; 2;0;0;0;0;0])].
Proof.
  unfold seen_solved. rewrite final_app, seen_final, final_cons, final_nil. unfold after. cbn [step]. unfold do_solve_static.
    change (read_asb seen_world) with (Some seen_asm).
    assert (exists K, assemble_K zero_ker seen_asm = Some K) as (K & HK).
    { destruct (c21_defined tip_solver seen_ops _ demo_fem eq_refl (seen_fresh _)) as (K & HK); [rewrite seen_final; reflexivity| |].
      - intros k b [H|[]]. injection H as <- <-. cbn. lra.
      - rewrite seen_final in HK. exists K. exact HK. }
    cbn [x_ker tip_solver trial] in *. rewrite HK, seen_solve. exists K. reflexivity.
Qed.

Definition seen_pts : dict vec3 := [("A", V3 0 0 0); ("B", V3 1 0 0)].
Lemma seen_view files ext : exists r cones, open_view ext (World seen_core files)
  = Some (Picture seen_pts [("A", 0%nat); ("B", 1%nat)] [("b", (V3 0 0 0, V3 1 0 0))] [] r cones).
Proof. do 2 eexists. cbn -[demo_beam]. reflexivity. Qed.
Definition bent_pts (k : R) : dict vec3 := [("A", V3 (0 + 0 * k) (0 + 0 * k) (0 + 0 * k)); ("B", V3 (1 + 2 * k) (0 + 0 * k) (0 + 0 * k))].
Lemma seen_bent k r cones : 
  show_deformation tip_solver (final tip_solver init seen_solved) (Picture seen_pts [("A", 0%nat); ("B", 1%nat)] [("b", (V3 0 0 0, V3 1 0 0))] [] r cones) k AX
  = Some (Drawing (bent_pts k) [("b", (V3 (0 + 0 * k) (0 + 0 * k) (0 + 0 * k), V3 (1 + 2 * k) (0 + 0 * k) (0 + 0 * k)))] [] [0; 2] [0; 2]).
Proof.
  destruct seen_solved_world as (K & ->). cbn -[demo_beam]. reflexivity.
Qed.

(** ** Counterexamples *)
Lemma square_tria : tria_csys (V3 0 0 0) (V3 1 0 0) (V3 1 1 0) <> None.
Proof.
  destruct (proj1 (c46_tria_partial _ _ _ square_triangle)) as (c & -> & _); [|discriminate].
  unfold normal3, cross, vsub, length3, vadd, vscale; cbn [vx vy vz].
  match goal with |- context [/ sqrt ?x] => rewrite (sqrt_n_1 x) by ring end.
  match goal with |- _ <= sqrt ?x => replace x with (2 * 2) by field end. rewrite sqrt_square; lra.
Qed.
Lemma c97_opens_refuted : exists ext ops l, answer ext (final ext init ops) OpNodeNames = RNames l /\ l <> []
  /\ answer ext (final ext init ops) OpShellNames = RNames ["t"] /\ open_view ext (final ext init ops) = None.
Proof.
  exists no_solver, (shell_ops ++ [OpAddShell "t" "s" "n1" "n2" "n3" None]), ["n1"; "n2"; "n3"; "n4"].
  assert (X : exists s, final no_solver init (shell_ops ++ [OpAddShell "t" "s" "n1" "n2" "n3" None])
             = with_fem_w shell_world (let m := k_fem (w_core shell_world) in
                 Fem (f_nodes m) (f_rest m) (f_mats m) (f_bsecs m) (f_ssecs m) (f_beams m) [("t", s)] (f_hnode m) (f_hbeam m) [("t", 0%nat)])
             /\ List.length (sh_nodes s) = 3%nat).
  { rewrite final_app, shell_final, final_cons, final_nil. unfold after. cbn [step]. unfold model_add_shell.
    set (m := k_fem (w_core shell_world)).
    change (dget "n1" (f_nodes m)) with (Some n1). change (dget "n2" (f_nodes m)) with (Some n2).
    change (dget "n3" (f_nodes m)) with (Some n3).
    destruct (dget "s" (f_ssecs m)) as [sec|] eqn:E; [|discriminate E].
    cbn [bindO]. unfold mk_tria. unfold n1, n2, n3, node_at, n_loc. cbn [n_csys cs_O].
    destruct (tria_csys (V3 0 0 0) (V3 1 0 0) (V3 1 1 0)) as [cs|] eqn:T.
    - eexists. split; reflexivity.
    - exfalso. revert T. apply square_tria. }
  destruct X as (s & -> & L). split; [reflexivity|]. split; [discriminate|]. split; [reflexivity|].
  cbn. destruct (sh_nodes s) as [|a [|b [|c [|d l]]]]; try discriminate. reflexivity.
Qed.

Lemma c97_beams_refuted : exists ext ops pic b p q, open_view ext (final ext init ops) = Some pic
  /\ answer ext (final ext init ops) (OpBeamLocation b) = RVec3s p q /\ exists q', lookup b (v_lines pic) = Some (p, q') /\ q' <> q.
Proof.
  exists no_solver, (seen_ops ++ [OpAddNode "B" 3 0 0]).
  assert (F : final no_solver init (seen_ops ++ [OpAddNode "B" 3 0 0]) =
    with_fem_w seen_world (Fem [("A", nodeA); ("B", node_at "B" 3 0 0)] [("A", list6 all_fixed)] [] [] [] [("b", demo_beam)] []
      [("A", 0%nat); ("B", 2%nat)] [("b", 0%nat)] [])).
  { rewrite final_app, seen_final, final_cons, final_nil. unfold after. rewrite step_add_node. reflexivity. }
  rewrite F. eexists. exists "b", (V3 0 0 0), (V3 1 0 0). split; [cbn -[demo_beam]; reflexivity|]. split; [reflexivity|].
  exists (V3 3 0 0). split; [reflexivity|]. intros H. injection H. lra.
Qed.

Lemma c98_nodes_refuted : exists ext ops pic l s n o u, let w := final ext init ops in
  open_view ext w = Some pic /\ presses ext w pic (open_window pic) l = Some s
  /\ stands ext w n o /\ displaced_by ext w n u /\ u <> V3 0 0 0 /\ r_scale s <> 0
  /\ wanted l 0 None = Some (AX, r_scale s) /\ In o (seen_nodes s) /\ ~ In o (map snd (g_pts (r_shown s))).
Proof.
  destruct seen_solved_world as (K & F).
  exists tip_solver, seen_solved. destruct (seen_view [(asb_file, FAsb seen_asm); (stiff_file, FStiff K); ("case1.d.npy", FDisp [0;0;0;0;0;0; 2;0;0;0;0;0])] tip_solver) as (r & cones & V).
  eexists. exists [PSlide 10; PNode; PDeform AX]. eexists. exists "B", (V3 1 0 0), (V3 2 0 0). cbv zeta.
  split; [rewrite F; exact V|]. split.
  { cbn [presses handle bindO open_window r_x r_y r_z r_node r_old r_new r_shown negb fst snd is_on r_scale]. rewrite seen_bent. reflexivity. }
  rewrite F. split; [reflexivity|]. split; [exists [2;0;0;0;0;0], [0;0;0]; split; reflexivity|].
  split; [intros H; injection H; lra|]. cbn [r_scale switch redraw]. split; [lra|]. split; [reflexivity|].
  split; [right; left; reflexivity|].
  intros [H|[H|[]]]; cbn in H; injection H; lra.
Qed.

Lemma c98_label_refuted : exists ext ops pic l s, let w := final ext init ops in
  open_view ext w = Some pic /\ presses ext w pic (open_window pic) l = Some s
  /\ nodes_later l /\ r_node s = true /\ seen_nodes s = [].
Proof.
  destruct seen_solved_world as (K & F).
  exists tip_solver, seen_solved. destruct (seen_view [(asb_file, FAsb seen_asm); (stiff_file, FStiff K); ("case1.d.npy", FDisp [0;0;0;0;0;0; 2;0;0;0;0;0])] tip_solver) as (r & cones & V).
  eexists. exists [PDeform AX; PNode; PDeform AX]. eexists. cbv zeta.
  split; [rewrite F; exact V|]. split.
  { cbn [presses handle bindO open_window r_x r_y r_z r_node r_old r_new r_shown negb fst snd is_on r_scale]. rewrite seen_bent. reflexivity. }
  split; [exact I|]. split; reflexivity.
Qed.

Lemma c99_moment_refuted : exists ext ops pic arrows n v, let w := final ext init ops in
  open_view ext w = Some pic /\ load_arrows ext w pic = Some arrows
  /\ answer ext w (OpGetNodalLoad "pat1" n) = RVec v /\ nth 5 v 0 <> 0 /\ map arrow_length arrows = [0].
Proof.
  set (ops := demo_model ++ [OpAddPattern "pat1"; OpSetNodalLoad "pat1" "B" (0,0,0,0,0,7)]).
  assert (F : final no_solver init ops = World (Core demo_fem [("pat1", 0%nat)] [Pattern "pat1" [("B", [0;0;0;0;0;7])] [] [] []] []) []).
  { unfold final, ops, demo_model, demo_nodes. cbn [app run]. rewrite !step_add_node.
    match goal with |- context [step no_solver ?w (OpAddSimpleBeam _ _ _ _ _ _ _ _ _ _)] =>
      rewrite (step_demo_beam no_solver w) by reflexivity end.
    cbn. reflexivity. }
  exists no_solver, ops. eexists. eexists. exists "B", [0;0;0;0;0;7]. cbv zeta. rewrite F.
  split; [cbn -[demo_beam]; reflexivity|]. split; [cbn; reflexivity|]. split; [reflexivity|]. split; [cbn; lra|].
  cbn [map]. unfold arrow_length, size3, vsub; cbn [fst snd vx vy vz]. f_equal.
  match goal with |- sqrt ?x = 0 => replace x with 0 by ring end. apply sqrt_0.
Qed.
Lemma c99_pattern_refuted : exists ext ops pic n v, let w := final ext init ops in
  open_view ext w = Some pic /\ answer ext w (OpGetNodalLoad "P" n) = RVec v /\ nth 0 v 0 <> 0 /\ load_arrows ext w pic = None.
Proof.
  exists no_solver, demo. eexists. exists "B", [1;0;0;0;0;0]. cbv zeta. rewrite demo_final.
  split; [cbn -[demo_beam]; reflexivity|]. split; [reflexivity|]. split; [cbn; lra|]. reflexivity.
Qed.

(** ** Examples *)
Lemma seen_force files ext : force_on ext (World seen_core files) "B" (V3 1 0 0).
Proof. exists [1;0;0;0;0;0], 0, 0, 0. repeat split. exists ["A"; "B"]. split; [reflexivity|right; left; reflexivity]. Qed.
Lemma seen_displaced : all_displaced tip_solver (final tip_solver init seen_solved).
Proof.
  destruct seen_solved_world as (K & ->). intros l n H. unfold nodes_are, answer in H. cbn in H. inversion H; subst. intros [<-|[<-|[]]].
  - exists (V3 0 0 0), [0;0;0;0;0;0], [0;0;0]. split; reflexivity.
  - exists (V3 2 0 0), [2;0;0;0;0;0], [0;0;0]. split; reflexivity.
Qed.
Lemma seen_open : exists r cones, open_view tip_solver (final tip_solver init seen_solved)
  = Some (Picture seen_pts [("A", 0%nat); ("B", 1%nat)] [("b", (V3 0 0 0, V3 1 0 0))] [] r cones).
Proof. destruct seen_solved_world as (K & ->). apply seen_view. Qed.
