(** Properties C15, C19, C20, C57, C59 and C62: the static solution.
    Only statements, each closed by a lemma proved elsewhere, with the assumptions it
    rests on and an instance of its hypotheses. *)
From Coq Require Import Reals Lra Lia List String Arith Bool ZArith Sorting.Permutation Sorting.Sorted.
From Verif Require Import Base BaseFacts Csys Sections Element Load FeModel Assembly Solver Post Api SpecApi ApiFacts SpecElim ElimFacts SpecGeom CsysFacts SpecBeam SpecAsm AsmProofs AsmProofs2 SpecLoad LoadProofs SpecSolve AsmSolve AsmSolve2 ApiProofs3 Demo Demo2 SolveDemo.
Import ListNotations.
Local Open Scope string_scope.
Local Open Scope list_scope.
Local Open Scope R_scope.

(** C15. After an assembly the DOF count is the number of equations that are not globally
    restrained, and six times the number of nodes minus the number of restrained ones. *)
Theorem C15_count ext ops F : never_readds_nodes ext (ops ++ [OpAssemble]) ->
  let w := final ext init (ops ++ [OpAssemble]) in
  forall a m, read_asb w = Some a -> assembled_model w = Some m ->
  lists_free (size m) (restrained_globally ext w) F ->
  a_dof a = Z.of_nat (List.length F)
  /\ forall R, NoDup R -> (forall q, In q R <-> restrained_globally ext w q) ->
     a_dof a = (6 * Z.of_nat (List.length (f_nodes m)) - Z.of_nat (List.length R))%Z.
Proof. exact (c15_count ext ops F). Qed.
Print Assumptions C15_count.
Example C15_example ext : let w := final ext init demo in
  demo = (demo_model ++ demo_loads) ++ [OpAssemble] /\ never_readds_nodes ext demo
  /\ (exists a, read_asb w = Some a /\ a_dof a = 6%Z) /\ assembled_model w = Some demo_fem
  /\ lists_free (size demo_fem) (restrained_globally ext w) [6;7;8;9;10;11]%nat.
Proof.
  cbv zeta. split; [reflexivity|]. split; [apply demo_fresh_nodes|]. rewrite demo_final.
  split; [exists demo_asm; split; reflexivity|]. split; [reflexivity|]. split.
  - repeat (constructor; [|repeat constructor]). constructor.
  - intros q. change (size demo_fem) with 12%nat. split.
    + intros H. split; [simpl in H; lia|]. intros (l & k & i & j & El & Ek & Hj & -> & Hf). injection El as <-.
      destruct i as [|[|i]]; [simpl in H; lia| |destruct i; discriminate]. injection Ek as <-. discriminate.
    + intros [H1 H2]. destruct (le_lt_dec 6 q) as [L|L]; [simpl; lia|]. exfalso. apply H2.
      exists ["A"; "B"], "A", 0%nat, q. repeat split; [exact L|]. do 6 (destruct q as [|q]; [reflexivity|]). lia.
Qed.

(** C19. After a successful solve with an exact solver the stored vector is zero at the
    restrained equations and (K d) is the load at all others.  Missing: cases whose own
    restraint table has entries but no True (see C19_refuted). *)
Theorem C19_equilibrium_partial ext ops c : never_readds_nodes ext (ops ++ [OpAssemble]) ->
  let w := final ext init (ops ++ [OpAssemble]) in
  answer ext w (OpSolveStatic c) = RBool true -> exact_solver ext ->
  usable (answer ext w (OpNodeRestraints (Some c))) ->
  exists m K f, assembled_model w = Some m /\ stiffness ext w = Some K /\ load_vector w c = Some f
  /\ (forall q, restrained_for ext w c q -> stored (after ext w (OpSolveStatic c)) c q = 0)
  /\ (f_shells m = [] \/ symmetric_kernels (x_ker ext) ->
      forall q, (q < size m)%nat -> ~ restrained_for ext w c q ->
      row (size m) K (stored (after ext w (OpSolveStatic c)) c) q = coo_get f q 0).
Proof. exact (c19_equilibrium_partial ext ops c). Qed.
Print Assumptions C19_equilibrium_partial.
Example C19_example : let w := final tip_solver init demo in
  demo = (demo_model ++ demo_loads) ++ [OpAssemble] /\ never_readds_nodes tip_solver demo
  /\ answer tip_solver w (OpSolveStatic "C") = RBool true /\ exact_solver tip_solver
  /\ usable (answer tip_solver w (OpNodeRestraints (Some "C")))
  /\ stored (after tip_solver w (OpSolveStatic "C")) "C" 6 = 2.
Proof.
  cbv zeta. destruct demo_solved as [S1 S2]. split; [reflexivity|]. split; [apply demo_fresh_nodes|]. split; [exact S1|].
  split; [apply trial_exact|]. split; [rewrite demo_final; left; reflexivity|]. unfold stored. rewrite S2. reflexivity.
Qed.

(** C19. Refuted without that condition: if a case's own restraint table has entries but no
    True, nothing is eliminated but the global restraints are used for the expansion. *)
Theorem C19_refuted : exists ext ops c, exact_solver ext /\ never_readds_nodes ext (ops ++ [OpAssemble])
  /\ let w := final ext init (ops ++ [OpAssemble]) in
     answer ext w (OpSolveStatic c) = RBool true
     /\ exists m K f q, assembled_model w = Some m /\ f_shells m = [] /\ stiffness ext w = Some K /\ load_vector w c = Some f
        /\ (q < size m)%nat /\ ~ restrained_for ext w c q
        /\ row (size m) K (stored (after ext w (OpSolveStatic c)) c) q = 0 /\ coo_get f q 0 = 1.
Proof. exact c19_refuted. Qed.
Print Assumptions C19_refuted.
(* existential: the witness is part of the statement *)

(** C20. Elimination follows the governing table; the expansion follows it if the case's
    own table is empty or has a True, and the global one otherwise. *)
Theorem C20_tables_partial ext ops c : never_readds_nodes ext (ops ++ [OpAssemble]) ->
  let w := final ext init (ops ++ [OpAssemble]) in
  (forall a l, read_asb w = Some a -> boundary_dofs a c = Some l -> forall q, In q l <-> restrained_for ext w c q)
  /\ (usable (answer ext w (OpNodeRestraints (Some c))) ->
      forall a l, read_asb w = Some a -> expansion_dofs a c = Some l -> forall q, In q l <-> restrained_for ext w c q)
  /\ (~ usable (answer ext w (OpNodeRestraints (Some c))) ->
      forall a l, read_asb w = Some a -> expansion_dofs a c = Some l -> forall q, In q l <-> restrained_globally ext w q).
Proof. exact (c20_partial ext ops c). Qed.
Print Assumptions C20_tables_partial.
Example C20_example ext : let w := final ext init demo in
  never_readds_nodes ext demo /\ usable (answer ext w (OpNodeRestraints (Some "C")))
  /\ boundary_dofs demo_asm "C" = Some [0;1;2;3;4;5]%nat /\ expansion_dofs demo_asm "C" = Some [0;1;2;3;4;5]%nat.
Proof.
  cbv zeta. split; [apply demo_fresh_nodes|]. rewrite demo_final. split; [left; reflexivity|]. split; reflexivity.
Qed.

(** C20. Refuted: with a table of only False entries the elimination drops nothing while the
    expansion uses the global restraints. *)
Theorem C20_refuted : exists ops c a l l', (forall ext, never_readds_nodes ext (ops ++ [OpAssemble])
    /\ read_asb (final ext init (ops ++ [OpAssemble])) = Some a)
  /\ boundary_dofs a c = Some l /\ expansion_dofs a c = Some l' /\ l = [] /\ l' = [0;1;2;3;4;5]%nat.
Proof. exact c20_refuted. Qed.
Print Assumptions C20_refuted.
(* existential: the witness is part of the statement *)

(** C57. The second-order solution is expanded correctly if the governing table lists its
    nodes in the order of their numbers.  Missing: other orders (see C57_refuted) and, as
    in C19, tables without a True. *)
Theorem C57_sorted_partial ext ops c : never_readds_nodes ext (ops ++ [OpAssemble]) ->
  let w := final ext init (ops ++ [OpAssemble]) in
  usable (answer ext w (OpNodeRestraints (Some c))) ->
  in_node_order (answer ext w OpNodeNames) (governing ext w c) ->
  forall a N A b x F restr, read_asb w = Some a -> reduced_system (x_ker ext) a c = Some (N, A, b) ->
  expansion_dofs a c = Some restr ->
  x_cg ext N A b = Some x -> List.length x = N -> lists_free (size (a_model a)) (restrained_for ext w c) F ->
  exists d, solve_2nd_order ext a c = Some d /\ List.length d = size (a_model a)
    /\ (forall q, restrained_for ext w c q -> nth q d 0 = 0) /\ map (fun q => nth q d 0) F = x.
Proof. exact (c57_sorted_partial ext ops c). Qed.
Print Assumptions C57_sorted_partial.
Example C57_example ext : let w := final ext init demo in
  never_readds_nodes ext demo /\ usable (answer ext w (OpNodeRestraints (Some "C")))
  /\ in_node_order (answer ext w OpNodeNames) (governing ext w "C").
Proof.
  cbv zeta. split; [apply demo_fresh_nodes|]. rewrite demo_final. split; [left; reflexivity|].
  exists ["A"; "B"], [("A", list6 all_fixed)], [0%nat]. repeat split. repeat constructor.
Qed.

(** C57. Refuted otherwise: node A (number 1) restrained before node O (number 0); the
    displacement of the free node is stored at the restrained node A. *)
Theorem C57_refuted : exists ext ops c a d, (forall N A b x, x_cg ext N A b = Some x ->
     List.length x = N /\ forall i, (i < N)%nat -> rsum N (fun j => coo_get A i j * nth j x 0) = nth i b 0)
  /\ never_readds_nodes ext (ops ++ [OpAssemble])
  /\ let w := final ext init (ops ++ [OpAssemble]) in
     read_asb w = Some a /\ usable (answer ext w (OpNodeRestraints (Some c)))
     /\ solve_2nd_order ext a c = Some d
     /\ exists q, restrained_for ext w c q /\ nth q d 0 = 2.
Proof. exact c57_refuted. Qed.
Print Assumptions C57_refuted.
(* existential: the witness is part of the statement *)

(** C59. As long as no node is added again, the interface is not replaced by a saved one and
    the case is not solved again, the stored displacements of a node stay what they were. *)
Theorem C59_results_stay_partial :
  forall ext pre mids n c v,
  never_readds_nodes ext (pre ++ mids) ->
  (forall o, In o (pre ++ mids) -> ~ is_Load o) ->
  (forall o, In o mids -> o <> OpSolveStatic c) ->
  answer ext (final ext init pre) (OpNodalDisp n c) = RVec v ->
  answer ext (final ext init (pre ++ mids)) (OpNodalDisp n c) = RVec v.
Proof. exact c59_results_stay_partial. Qed.
Print Assumptions C59_results_stay_partial.
Example C59_example : let w := final tip_solver init demo in
  answer tip_solver w (OpSolveStatic "C") = RBool true
  /\ answer tip_solver (after tip_solver w (OpSolveStatic "C")) (OpNodalDisp "B" "C") = RVec [2;0;0;0;0;0].
Proof.
  cbv zeta. destruct demo_solved as [S1 S2]. split; [exact S1|].
  destruct demo_solved_world as (K & F). rewrite final_app, final_cons, final_nil in F. rewrite F. reflexivity.
Qed.

(** C59. Refuted otherwise: a node added again and a new assembly make the stored result
    unreadable (an empty vector), although no call reported a problem. *)
Theorem C59_refuted : exists ext ops n c later d, answer ext (final ext init ops) (OpSolveStatic c) = RBool true
  /\ answer ext (final ext init (ops ++ [OpSolveStatic c])) (OpNodalDisp n c) = RVec d /\ List.length d = 6%nat
  /\ (forall o, In o later -> o <> OpSolveStatic c)
  /\ outs ext (final ext init (ops ++ [OpSolveStatic c])) later = map (fun _ => RBool true) later
  /\ answer ext (final ext init ((ops ++ [OpSolveStatic c]) ++ later)) (OpNodalDisp n c) = RVec [].
Proof. exact c59_refuted. Qed.
Print Assumptions C59_refuted.
(* existential: the witness is part of the statement *)

(** C62. A case is solved if it exists, its table names nodes only and is empty or has a
    True, no member has mu = -1 and the linear solver answers. *)
Theorem C62_solves ext ops c d : never_readds_nodes ext (ops ++ [OpAssemble]) ->
  let w := final ext init (ops ++ [OpAssemble]) in
  (forall m k b, assembled_model w = Some m -> In (k, b) (f_beams m) -> 1 + poisson (b_prop b) <> 0) ->
  answer ext w (OpNodeRestraints (Some c)) = RFlags d -> names_nodes ext w (RFlags d) -> usable (RFlags d) ->
  answering_solver ext -> answer ext w (OpSolveStatic c) = RBool true.
Proof. exact (c62_solves ext ops c d). Qed.
Print Assumptions C62_solves.
Example C62_example : exists ext, answering_solver ext /\ let w := final ext init demo in never_readds_nodes ext demo
  /\ (forall m k b, assembled_model w = Some m -> In (k, b) (f_beams m) -> 1 + poisson (b_prop b) <> 0)
  /\ answer ext w (OpNodeRestraints (Some "C")) = RFlags [] /\ names_nodes ext w (RFlags []) /\ usable (RFlags []).
Proof.
  exists (Ext zero_ker (fun N _ _ => Some (repeat 0 N)) (fun _ _ _ => None)). split.
  { intros N A b. exists (repeat 0 N). split; [reflexivity|apply repeat_length]. }
  cbv zeta. split; [apply demo_fresh_nodes|]. rewrite demo_final. split.
  - intros m k b Hm. injection Hm as <-. intros [H|[]]. injection H as <- <-. cbn. lra.
  - split; [reflexivity|]. split; [|left; reflexivity]. intros d k E. injection E as <-. intros [].
Qed.
