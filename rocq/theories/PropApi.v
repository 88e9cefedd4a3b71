(** C01-C14, C58, C67: the programming interface.
    Only statements, each closed by a lemma proved elsewhere, with the assumptions it
    rests on and an instance of its hypotheses. *)
From Coq Require Import Reals Lra Lia List String Arith Bool ZArith Sorting.Permutation Sorting.Sorted.
From Verif Require Import Base BaseFacts Csys Sections Element Load FeModel Assembly Solver Post Api SpecApi ApiFacts WfFacts ApiProofs1 ApiProofs2 ApiProofs3 ApiProofs4 ApiProofs5 NumProofs Demo Demo2 NumDemo.
Import ListNotations.
Local Open Scope string_scope.
Local Open Scope list_scope.
Local Open Scope R_scope.

(** C01. With fresh node names every node owns the block of six equations given by its
    position in the listing. *)
Theorem C01_numbering :
  forall ext ops, never_readds_nodes ext ops ->
  forall names, answer ext (final ext init ops) OpNodeNames = RNames names ->
  let m := k_fem (w_core (final ext init ops)) in
  NoDup names
  /\ (forall i n, nth_error names i = Some n -> model_node_hid n m = Some i)
  /\ (forall n i, model_node_hid n m = Some i -> nth_error names i = Some n)
  /\ (forall n n' i i' r r', model_node_hid n m = Some i -> model_node_hid n' m = Some i' ->
        (r < 6 -> r' < 6 -> i * 6 + r = i' * 6 + r' -> n = n' /\ r = r')%nat)
  /\ (forall n i r, model_node_hid n m = Some i -> (r < 6 -> i * 6 + r < 6 * List.length names)%nat).
Proof. exact c01_numbering. Qed.
Print Assumptions C01_numbering.
Example C01_example : forall ext, never_readds_nodes ext demo
  /\ answer ext (final ext init demo) OpNodeNames = RNames ["A"; "B"]%string.
Proof. intros ext. split; [apply demo_fresh_nodes|]. rewrite demo_final. reflexivity. Qed.

(** C01, for the model stored by the last assemble. *)
Theorem C01_numbering_assembled :
  forall ext ops, never_readds_nodes ext ops ->
  forall a, read_asb (final ext init ops) = Some a ->
  forall i n, nth_error (model_node_names (a_model a)) i = Some n -> model_node_hid n (a_model a) = Some i.
Proof. exact c01_numbering_assembled. Qed.
Print Assumptions C01_numbering_assembled.
Example C01_assembled_example : forall ext, never_readds_nodes ext demo
  /\ exists a, read_asb (final ext init demo) = Some a /\ nth_error (model_node_names (a_model a)) 1 = Some "B"%string.
Proof. intros ext. split; [apply demo_fresh_nodes|]. rewrite demo_final. exists demo_asm. split; reflexivity. Qed.

(** C01 fails as soon as a node name is added again: every call answers True and two
    listed nodes share one number. *)
Theorem C01_readded_refuted :
  forall ext, exists ops n1 n2 l i,
  (forall x, In x (outs ext init ops) -> x = RBool true)
  /\ answer ext (final ext init ops) OpNodeNames = RNames l
  /\ In n1 l /\ In n2 l /\ n1 <> n2
  /\ number_of (final ext init ops) n1 = Some i
  /\ number_of (final ext init ops) n2 = Some i.
Proof. exact c01_refuted. Qed.
Print Assumptions C01_readded_refuted.
(* existential: the witness is part of the statement *)

(** C02. Read-after-write for every setter with a getter (global restraints only for
    defined nodes: see C02_restraint_refuted). *)
Theorem C02_read_back_partial :
  forall ext ops o q P,
  let w := final ext init ops in
  reads_back o = Some (q, P) ->
  (forall n fl, o = OpSetRestraint n fl -> node_exists ext w n) ->
  answer ext w o = RBool true ->
  P (answer ext (after ext w o) q).
Proof. exact c02_read_back_partial. Qed.
Print Assumptions C02_read_back_partial.
Example C02_example : forall ext, let w := final ext init demo in
  answer ext w (OpSetNodalLoad "P" "B" (7,0,0,0,0,0)) = RBool true
  /\ answer ext w (OpAddNode "B" 5 5 5) = RBool true
  /\ answer ext w (OpSetCaseRestraint "C" "B" all_fixed) = RBool true
  /\ node_exists ext w "B".
Proof.
  intros ext w. unfold w. rewrite demo_final. repeat split; try reflexivity.
  - unfold answer. rewrite step_add_node. reflexivity.
  - exists ["A"; "B"]%string. split; [reflexivity|]. simpl. tauto.
Qed.

(** C02 for nodal masses (there is no query in the interface: the model's own getter). *)
Theorem C02_mass :
  forall ext w n v, answer ext w (OpSetMass n v) = RBool true ->
  model_nodal_mass n (k_fem (w_core (after ext w (OpSetMass n v)))) = Some (list6 v).
Proof. exact c02_mass. Qed.
Print Assumptions C02_mass.
Example C02_mass_example : forall ext, answer ext (final ext init demo) (OpSetMass "B" (1,1,1,0,0,0)) = RBool true.
Proof. intros ext. rewrite demo_final. reflexivity. Qed.

(** C02 is false for the restraint of an undefined node. *)
Theorem C02_restraint_refuted :
  forall ext, exists n fl q P, reads_back (OpSetRestraint n fl) = Some (q, P)
   /\ answer ext init (OpSetRestraint n fl) = RBool true
   /\ ~ P (answer ext (after ext init (OpSetRestraint n fl)) q).
Proof. exact c02_restraint_refuted. Qed.
Print Assumptions C02_restraint_refuted.
(* existential: the witness is part of the statement *)

(** C03. A call that answers False or None is indistinguishable from no call. *)
Theorem C03_failed_call :
  forall ext w o, answer ext w o = RBool false \/ answer ext w o = RNone ->
  indistinguishable ext (after ext w o) w.
Proof. exact c03_failed_call. Qed.
Print Assumptions C03_failed_call.
Example C03_example : forall ext, let w := final ext init demo in
  answer ext w (OpSetMass "Z" (1,1,1,0,0,0)) = RBool false
  /\ answer ext w (OpAddBeam "c" "A" "B" "nosection") = RBool false
  /\ answer ext w (OpAddCasePattern "C" "nopattern" 3) = RBool false.
Proof. intros ext w. unfold w. rewrite demo_final. repeat split. Qed.

(** C04. A call changes at most the observations it is entitled to change. *)
Theorem C04_frame :
  forall ext ops o b, let w := final ext init ops in
  ~ may_change o b -> observe ext (after ext w o) b = observe ext w b.
Proof. exact c04_frame. Qed.
Print Assumptions C04_frame.
Example C04_example : forall ext, let w := final ext init demo in
  ~ may_change (OpSetNodalLoad "P" "A" (7,0,0,0,0,0)) (ObNodalLoad "P" "B")
  /\ observe ext w (ObNodalLoad "P" "B") = VOut (RVec [1;0;0;0;0;0])
  /\ answer ext w (OpSetNodalLoad "P" "A" (7,0,0,0,0,0)) = RBool true.
Proof.
  intros ext w. unfold w. rewrite demo_final. repeat split. simpl. intros [_ H]. discriminate.
Qed.

(** C05 is false: restraining an undefined node answers True and records nothing. *)
Theorem C05_undefined_refuted :
  forall ext, exists n fl, answer ext init (OpSetRestraint n fl) = RBool true
    /\ entry n (answer ext (after ext init (OpSetRestraint n fl)) (OpNodeRestraints None)) = None.
Proof. exact c05_undefined_refuted. Qed.
Print Assumptions C05_undefined_refuted.
(* existential: the witness is part of the statement *)

(** C05, what holds: for a defined node the restraint is recorded, for an undefined one
    nothing changes at all.  Missing: the answer True in the second case. *)
Theorem C05_recorded_partial :
  forall ext w n fl,
  (node_exists ext w n ->
     entry n (answer ext (after ext w (OpSetRestraint n fl)) (OpNodeRestraints None)) = Some (list6 fl))
  /\ (~ node_exists ext w n -> indistinguishable ext (after ext w (OpSetRestraint n fl)) w).
Proof. exact c05_recorded_iff_partial. Qed.
Print Assumptions C05_recorded_partial.
Example C05_example : forall ext, let w := final ext init demo in node_exists ext w "B" /\ ~ node_exists ext w "Z".
Proof.
  intros ext w. unfold w. rewrite demo_final. split.
  - exists ["A"; "B"]%string. split; [reflexivity|]. simpl. tauto.
  - intros (l & H & I). cbn in H. injection H as <-. simpl in I. intuition discriminate.
Qed.

(** C06. get_node_names lists exactly the successfully added names, each once, in order of
    first addition; the right-hand side only looks at calls and answers. *)
Theorem C06_node_names :
  forall ext ops, answer ext (final ext init ops) OpNodeNames
    = RNames (track (note_name adds_node) [] nothing_saved (trace ext init ops)).
Proof. exact c06_node_names. Qed.
Print Assumptions C06_node_names.
Example C06_example : forall ext,
  track (note_name adds_node) [] nothing_saved (trace ext init demo_nodes) = ["A"; "B"]%string.
Proof.
  intros ext. rewrite <- (names_inj _ _ (C06_node_names ext demo_nodes)).
  unfold final. rewrite demo_nodes_run. reflexivity.
Qed.

(** C06 for beams. *)
Theorem C06_beam_names :
  forall ext ops, answer ext (final ext init ops) OpBeamNames
    = RNames (track (note_name adds_beam) [] nothing_saved (trace ext init ops)).
Proof. exact c06_beam_names. Qed.
Print Assumptions C06_beam_names.
Example C06_beam_example : forall ext, answer ext (final ext init demo) OpBeamNames = RNames ["b"]%string.
Proof. intros ext. rewrite demo_final. reflexivity. Qed.

(** C06 for shells. *)
Theorem C06_shell_names :
  forall ext ops, answer ext (final ext init ops) OpShellNames
    = RNames (track (note_name adds_shell) [] nothing_saved (trace ext init ops)).
Proof. exact c06_shell_names. Qed.
Print Assumptions C06_shell_names.
Example C06_shell_example : forall ext, answer ext (final ext init shelled) OpShellNames = RNames ["q"]%string.
Proof. exact shelled_names. Qed.

(** C07. Calls that do not re-add the beam (and do not load another interface) change
    neither its end coordinates nor its matrices. *)
Theorem C07_beam_immune :
  forall ext w ops b,
  (forall o, In o ops -> adds_beam o <> Some b /\ (forall f, o <> OpLoad f)) ->
  let w' := final ext w ops in
  answer ext w' (OpBeamLocation b) = answer ext w (OpBeamLocation b)
  /\ answer ext w' (OpBeamNodeNames b) = answer ext w (OpBeamNodeNames b)
  /\ element_K w' b = element_K w b
  /\ element_M w' b = element_M w b.
Proof. exact c07_beam_immune. Qed.
Print Assumptions C07_beam_immune.
Example C07_example : forall ext, let w := final ext init demo in
  (forall o, In o [OpAddNode "A" 9 9 9; OpAddMaterial "m" 1 1 0 0] -> adds_beam o <> Some "b"%string /\ (forall f, o <> OpLoad f))
  /\ answer ext w (OpBeamNodeNames "b") = RNames ["A"; "B"]%string.
Proof.
  intros ext w. unfold w. rewrite demo_final. split; [|reflexivity].
  intros o [<-|[<-|[]]]; split; intros; discriminate.
Qed.

(** C08. The load of a case is the sum over its patterns of factor times the pattern's
    current load, provided no pattern name is created twice. *)
Theorem C08_case_sees_patterns :
  forall ext ops c n, never_recreates_patterns ext ops ->
  let w := final ext init ops in
  answer ext w (OpNodeRestraints (Some c)) <> RNone ->
  exists v, case_load w c n = Some v /\ List.length v = 6%nat
    /\ forall i, nth i v 0 = total (fun p => component i (answer ext w (OpGetNodalLoad p n)))
                                   (track (note_factor c) [] nothing_saved (trace ext init ops)).
Proof. exact c08_case_sees_patterns_partial. Qed.
Print Assumptions C08_case_sees_patterns.
Example C08_example : forall ext, let w := final ext init demo in never_recreates_patterns ext demo
  /\ answer ext w (OpNodeRestraints (Some "C"%string)) <> RNone
  /\ case_load w "C" "B" <> Some (zeros 6).
Proof.
  intros ext w. split; [apply demo_fresh_patterns|]. unfold w. rewrite demo_final. split; [discriminate|].
  unfold case_load. cbn. intros H. injection H as H _. lra.
Qed.

(** C08 fails once a pattern name is created again. *)
Theorem C08_recreated_refuted :
  forall ext, exists ops, (forall x, In x (outs ext init ops) -> x = RBool true)
  /\ let w := final ext init ops in
     answer ext w (OpGetNodalLoad "P" "A") = RVec [1;0;0;0;0;0]
     /\ track (note_factor "C") [] nothing_saved (trace ext init ops) = [("P"%string, 1)]
     /\ case_load w "C" "A" = Some (zeros 6).
Proof. exact c08_recreated_refuted. Qed.
Print Assumptions C08_recreated_refuted.
(* existential: the witness is part of the statement *)

(** C09. Edits between assemble and the results have no influence. *)
Theorem C09_edits_do_not_reach_results :
  forall ext w edits cont, Forall is_edit edits -> Forall is_result cont ->
  outs ext (final ext w edits) cont = outs ext w cont.
Proof. exact c09_edits_do_not_reach_results. Qed.
Print Assumptions C09_edits_do_not_reach_results.
Example C09_example : Forall is_edit [OpAddNode "B" 9 9 9; OpSetNodalLoad "P" "B" (9,9,9,9,9,9); OpSetRestraint "B" all_fixed]
  /\ Forall is_result [OpSolveStatic "C"; OpNodalDisp "B" "C"; OpBeamDeformation "b" 1 "C"].
Proof. split; repeat constructor. Qed.

(** C09. What follows an assemble is determined by the interface at that moment. *)
Theorem C09_assemble_is_snapshot :
  forall ext w1 w2 cont, w_core w1 = w_core w2 ->
  (forall c, read_disp w1 c = read_disp w2 c) -> read_asb w1 = read_asb w2 ->
  Forall is_result cont ->
  outs ext w1 (OpAssemble :: cont) = outs ext w2 (OpAssemble :: cont).
Proof. exact c09_assemble_is_snapshot. Qed.
Print Assumptions C09_assemble_is_snapshot.
Example C09_snapshot_example : forall ext,
  answer ext (final ext init demo) OpAssemble = RBool true /\ read_asb (final ext init demo) <> None.
Proof. intros ext. rewrite demo_final. split; [reflexivity|discriminate]. Qed.

(** C10. Displacement results of a case survive every call except assembling and solving
    that very case. *)
Theorem C10_results_kept :
  forall ext w o n b loc c,
  (forall c', o = OpSolveStatic c' -> c' <> c) -> o <> OpAssemble ->
  answer ext (after ext w o) (OpNodalDisp n c) = answer ext w (OpNodalDisp n c)
  /\ answer ext (after ext w o) (OpBeamDeformation b loc c) = answer ext w (OpBeamDeformation b loc c).
Proof. exact c10_results_kept. Qed.
Print Assumptions C10_results_kept.
Example C10_example : (forall c', OpSolveStatic "D" = OpSolveStatic c' -> c' <> "C"%string) /\ OpSolveStatic "D" <> OpAssemble.
Proof. split; [|discriminate]. intros c' H. injection H as <-. discriminate. Qed.

(** C10. Saved interfaces survive every call except saving under that name. *)
Theorem C10_saved_interfaces_kept :
  forall ext w o fn, o <> OpSave fn ->
  answer ext (after ext w o) (OpLoad fn) = answer ext w (OpLoad fn)
  /\ (answer ext w (OpLoad fn) = RBool true ->
      w_core (after ext (after ext w o) (OpLoad fn)) = w_core (after ext w (OpLoad fn))).
Proof. exact c10_saved_interfaces_kept. Qed.
Print Assumptions C10_saved_interfaces_kept.
Example C10_saved_example : forall ext, answer ext (after ext (final ext init demo) (OpSave "f")) (OpLoad "f") = RBool true
  /\ OpSolveStatic "f" <> OpSave "f".
Proof. intros ext. rewrite demo_final. split; [reflexivity|discriminate]. Qed.

(** C10. The stored assembly survives every call except assemble. *)
Theorem C10_assembly_kept :
  forall ext w o c, o <> OpAssemble ->
  answer ext (after ext w o) (OpSolveStatic c) = answer ext w (OpSolveStatic c).
Proof. exact c10_assembly_kept. Qed.
Print Assumptions C10_assembly_kept.
Example C10_assembly_example : forall ext, exists a, read_asb (final ext init demo) = Some a /\ OpSave ".asb" <> OpAssemble.
Proof. intros ext. rewrite demo_final. exists demo_asm. split; [reflexivity|discriminate]. Qed.

(** C11: set_beam_release answers False in every state, for every beam, and
    changes nothing. *)
Theorem C11_always_fails :
  forall ext w n ri rj, answer ext w (OpSetRelease n ri rj) = RBool false
    /\ indistinguishable ext (after ext w (OpSetRelease n ri rj)) w.
Proof. exact c11_releases_refuted. Qed.
Print Assumptions C11_always_fails.
Example C11_example : forall ext, let w := final ext init demo in
  answer ext w (OpBeamNodeNames "b") <> RNone
  /\ answer ext w (OpSetRelease "b" (false,false,false,false,false,true) (false,false,false,false,false,false)) = RBool false.
Proof. intros ext w. unfold w. rewrite demo_final. split; [discriminate|reflexivity]. Qed.

(** C11 is false: a beam of the model cannot be released. *)
Theorem C11_releases_refuted : forall ext, exists ops b ri rj,
  answer ext (final ext init ops) OpBeamNames = RNames [b]
  /\ ri <> (false, false, false, false, false, false)
  /\ answer ext (final ext init ops) (OpSetRelease b ri rj) = RBool false.
Proof. exact c11_exists. Qed.
Print Assumptions C11_releases_refuted.
(* existential: the witness is part of the statement *)

(** C11. Consequently no beam of any reachable state is released, and condensation is the
    identity on it. *)
Theorem C11_never_released :
  forall ext ops n b, dget n (f_beams (k_fem (w_core (final ext init ops)))) = Some b ->
  (forall d, nth d (b_rel b) false = false) /\ (forall k, condensate (b_rel b) k = k).
Proof. exact c11_never_released. Qed.
Print Assumptions C11_never_released.
Example C11_beam_example : forall ext, dget "b"%string (f_beams (k_fem (w_core (final ext init demo)))) = Some demo_beam.
Proof. intros ext. rewrite demo_final. reflexivity. Qed.

(** C12 is false in every case: the stored area is never that of a tube, whatever value
    above 3 is used for pi, and the two inertias differ unless t = d. *)
Theorem C12_pipe_always_wrong :
  forall ext w name mat d t, 0 < t -> t <= d / 2 ->
  answer ext w (OpAddPipe name mat d t) = RBool true ->
  exists sec, stored_section (after ext w (OpAddPipe name mat d t)) name = Some sec
    /\ (forall p, 3 < p -> s_A sec <> p / 4 * (d^2 - (d - 2*t)^2))
    /\ (t <> d -> s_I22 sec <> s_I33 sec).
Proof. exact c12_always_wrong. Qed.
Print Assumptions C12_pipe_always_wrong.
Example C12_example : forall ext,
  outs ext init [OpAddMaterial "steel" 7850 2 (3/10) 0; OpAddPipe "p" "steel" 2 (1/2)] = [RBool true; RBool true].
Proof. exact pipe_true. Qed.

(** C12 is false (witness). *)
Theorem C12_pipe_refuted :
  forall ext, exists ops n d t sec,
  outs ext init ops = repeat (RBool true) (List.length ops) /\ last ops OpClear = OpAddPipe n "steel" d t
  /\ 0 < t /\ t <= d / 2
  /\ stored_section (final ext init ops) n = Some sec
  /\ s_A sec <> PI / 4 * (d^2 - (d - 2*t)^2) /\ s_I22 sec <> s_I33 sec.
Proof. exact c12_refuted. Qed.
Print Assumptions C12_pipe_refuted.
(* existential: the witness is part of the statement *)

(** C13 is false (witness): four defined nodes and a defined section, answer False. *)
Theorem C13_shell_refuted :
  forall ext, exists ops l,
  outs ext init ops = repeat (RBool true) (List.length ops)
  /\ answer ext (final ext init ops) OpNodeNames = RNames l
  /\ In "n1" l /\ In "n2" l /\ In "n3" l /\ In "n4" l
  /\ In (OpAddShellSection "s" "steel" 1 "shell") ops
  /\ answer ext (final ext init ops) (OpAddShell "q" "n1" "n2" "n3" "n4" (Some "s")) = RBool false.
Proof. exact c13_refuted. Qed.
Print Assumptions C13_shell_refuted.
(* existential: the witness is part of the statement *)

(** C13, what the call does: it takes its second argument for the section and the other
    four for the nodes.  Missing: the documented meaning of the arguments. *)
Theorem C13_shell_partial :
  forall ext w n n1 n2 n3 n4 sec,
  answer ext w (OpAddShell n n1 n2 n3 n4 sec) = RBool true ->
  In n1 (dkeys (f_ssecs (k_fem (w_core w))))
  /\ (forall k, k = n2 \/ k = n3 \/ k = n4 \/ Some k = sec ->
        exists l, answer ext w OpNodeNames = RNames l /\ In k l)
  /\ (forall s, sec = Some s ->
        exists sh, dget n (f_shells (k_fem (w_core (after ext w (OpAddShell n n1 n2 n3 n4 sec))))) = Some sh
          /\ List.length (sh_nodes sh) = 4%nat
          /\ Some (sh_sec sh) = dget n1 (f_ssecs (k_fem (w_core w)))
          /\ mapM (fun k => dget k (f_nodes (k_fem (w_core w)))) [n2; n3; n4; s] = Some (sh_nodes sh)).
Proof. exact c13_needs_section_named_first. Qed.
Print Assumptions C13_shell_partial.
Example C13_example : forall ext, exists w, answer ext w (OpAddShell "q" "s" "n1" "n2" "n3" (Some "n4"%string)) = RBool true.
Proof. exact shell_accepted. Qed.

(** C14 is false: none of these calls succeeds in any reachable state. *)
Theorem C14_never_succeed_refuted :
  forall ext ops, let w := final ext init ops in
  (forall c k, answer ext w (OpSolveModal c k) = RBool false)
  /\ (forall n c, answer ext w (OpNodalReaction n c) = RNone)
  /\ (forall b c, answer ext w (OpBeamEndForce b c) = RNone)
  /\ (forall s, answer ext w (OpShellLocation s) = RNone)
  /\ answer ext w OpClear = RBool false.
Proof. exact c14_never. Qed.
Print Assumptions C14_never_succeed_refuted.
Example C14_example : forall ext, let w := final ext init demo in
  answer ext w (OpBeamNodeNames "b") <> RNone /\ answer ext w (OpBeamEndForce "b" "C") = RNone.
Proof. intros ext w. unfold w. rewrite demo_final. split; [discriminate|reflexivity]. Qed.

(** C58. load after save restores every answer (calls that look at the interface only). *)
Theorem C58_round_trip :
  forall ext w mids fn cont, Forall (fun o => o <> OpSave fn) mids -> Forall is_model_call cont ->
  let w2 := final ext (after ext w (OpSave fn)) mids in
  answer ext (after ext w (OpSave fn)) OpNodeNames = answer ext w OpNodeNames
  /\ answer ext w2 (OpLoad fn) = RBool true
  /\ outs ext (after ext w2 (OpLoad fn)) cont = outs ext w cont.
Proof. exact c58_round_trip. Qed.
Print Assumptions C58_round_trip.
Example C58_example : Forall (fun o => o <> OpSave "f"%string) [OpAddNode "A" 9 9 9; OpSave "g"; OpAssemble]
  /\ Forall is_model_call [OpNodeNames; OpNodeLocation "A"; OpGetNodalLoad "P" "B"; OpAddNode "Z" 1 2 3; OpAssemble].
Proof. split; repeat constructor; discriminate. Qed.

(** C58. Results recomputed after load are those of the saved interface. *)
Theorem C58_results :
  forall ext w mids fn c n b loc, Forall (fun o => o <> OpSave fn) mids ->
  outs ext w [OpAssemble; OpSolveStatic c] = [RBool true; RBool true] ->
  let w2 := final ext (after ext w (OpSave fn)) mids in
  outs ext w2 [OpLoad fn; OpAssemble; OpSolveStatic c; OpNodalDisp n c; OpBeamDeformation b loc c]
  = RBool true :: outs ext w [OpAssemble; OpSolveStatic c; OpNodalDisp n c; OpBeamDeformation b loc c].
Proof. exact c58_results. Qed.
Print Assumptions C58_results.
Example C58_results_example : forall ext, outs ext (final ext init demo) [OpAssemble] = [RBool true].
Proof. intros ext. rewrite demo_final. reflexivity. Qed.

(** C67. With fresh names the number of a beam is its position in the listing. *)
Theorem C67_beams_partial : forall ext ops, never_readds_elements ext ops ->
  forall names, answer ext (final ext init ops) OpBeamNames = RNames names ->
  NoDup names
  /\ (forall n i, model_beam_hid n (k_fem (w_core (final ext init ops))) = Some i <-> nth_error names i = Some n).
Proof. exact c67_beams. Qed.
Print Assumptions C67_beams_partial.
Example C67_beams_example : forall ext, never_readds_elements ext two_beams
  /\ answer ext (final ext init two_beams) OpBeamNames = RNames ["b"; "c"]%string.
Proof. intros ext. split; [apply two_beams_fresh|]. unfold final. rewrite two_beams_run. reflexivity. Qed.

(** C67. And so is the number of a shell. *)
Theorem C67_shells_partial : forall ext ops, never_readds_elements ext ops ->
  forall names, answer ext (final ext init ops) OpShellNames = RNames names ->
  NoDup names
  /\ (forall n i, model_shell_hid n (k_fem (w_core (final ext init ops))) = Some i <-> nth_error names i = Some n).
Proof. exact c67_shells. Qed.
Print Assumptions C67_shells_partial.
Example C67_shells_example : forall ext, never_readds_elements ext shelled
  /\ answer ext (final ext init shelled) OpShellNames = RNames ["q"]%string.
Proof. intros ext. split; [apply shelled_fresh|apply shelled_names]. Qed.

(** C67, for the model stored by the last assemble.  Missing in these three: names used again (see C67_refuted). *)
Theorem C67_assembled_partial : forall ext ops, never_readds_elements ext ops ->
  forall a, read_asb (final ext init ops) = Some a ->
  forall n i, (model_beam_hid n (a_model a) = Some i <-> nth_error (model_beam_names (a_model a)) i = Some n)
  /\ (model_shell_hid n (a_model a) = Some i <-> nth_error (model_shell_names (a_model a)) i = Some n).
Proof. exact c67_assembled. Qed.
Print Assumptions C67_assembled_partial.
Example C67_assembled_example : forall ext, never_readds_elements ext (two_beams ++ [OpAssemble])
  /\ exists a, read_asb (final ext init (two_beams ++ [OpAssemble])) = Some a /\ model_beam_names (a_model a) = ["b"; "c"]%string.
Proof. exact two_beams_assembled. Qed.

(** C67 fails as soon as a name is used again: every call answers True and two beams have one number. *)
Theorem C67_refuted : exists ops n1 n2 l i, forall ext,
  (forall x, In x (outs ext init ops) -> x = RBool true)
  /\ answer ext (final ext init ops) OpBeamNames = RNames l
  /\ In n1 l /\ In n2 l /\ n1 <> n2
  /\ model_beam_hid n1 (k_fem (w_core (final ext init ops))) = Some i
  /\ model_beam_hid n2 (k_fem (w_core (final ext init ops))) = Some i.
Proof. exact c67_refuted. Qed.
Print Assumptions C67_refuted.
(* existential: the witness is part of the statement *)
