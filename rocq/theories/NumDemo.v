(** Examples for the numbering of beams, and what happens when a name is used again (C67). *)
From Coq Require Import Reals Lra Lia List String Arith Bool ZArith.
From Verif Require Import Base BaseFacts Csys Sections Element Load FeModel Assembly Solver Post Api
  SpecApi ApiFacts WfFacts HidFacts SpecGeom CsysFacts SpecBeam SpecAsm AsmProofs Demo.
Import ListNotations.
Local Open Scope R_scope.
Local Open Scope string_scope.

Definition beam_named (n : string) : beam :=
  Beam n nodeA nodeB (b_csys demo_beam) no_releases (PSimple 1 0 1 1 1 1 1).
Lemma beam_named_eq n : mk_beam n nodeA nodeB (PSimple 1 0 1 1 1 1 1) = Some (beam_named n).
Proof.
  pose proof demo_beam_eq as H. unfold mk_beam, n_loc, nodeA, nodeB, node_at in *; cbn [n_csys cs_O] in *.
  destruct (line_csys (V3 0 0 0) (V3 1 0 0)) as [c|]; [|discriminate].
  cbn [bindO] in *. apply some_inj in H. unfold beam_named. rewrite <- H. reflexivity.
Qed.
Lemma step_beam_named ext fs ps hp cs files n bs hb :
  let m := Fem [("A", nodeA); ("B", nodeB)] fs [] [] [] bs [] [("A", 0%nat); ("B", 1%nat)] hb [] in
  step ext (World (Core m ps hp cs) files) (OpAddSimpleBeam n "A" "B" 1 0 1 1 1 1 1) =
  (World (Core (Fem [("A", nodeA); ("B", nodeB)] fs [] [] [] (dset n (beam_named n) bs) []
      [("A", 0%nat); ("B", 1%nat)] (dset n (List.length bs) hb) []) ps hp cs) files, RBool true).
Proof.
  intros m. cbn [step w_core k_fem]. unfold model_add_simple_beam, m.
  change (dget "A" _) with (Some nodeA). change (dget "B" _) with (Some nodeB).
  cbn [bindO]. unfold model_put_beam. rewrite beam_named_eq. reflexivity.
Qed.

Definition two_beams : list op :=
  (demo_nodes ++ [OpAddSimpleBeam "b" "A" "B" 1 0 1 1 1 1 1; OpAddSimpleBeam "c" "A" "B" 1 0 1 1 1 1 1])%list.
Definition beams_world (bs : dict beam) (hb : dict nat) : world :=
  World (Core (Fem [("A", nodeA); ("B", nodeB)] [] [] [] [] bs [] [("A", 0%nat); ("B", 1%nat)] hb []) [] [] []) [].

Lemma two_beams_run ext : run ext init two_beams =
  (beams_world [("b", beam_named "b"); ("c", beam_named "c")] [("b", 0%nat); ("c", 1%nat)], repeat (RBool true) 4).
Proof.
  unfold two_beams, demo_nodes. cbn [app run]. rewrite !step_add_node.
  cbn -[step dset]. match goal with |- context [step ext ?w (OpAddSimpleBeam _ _ _ _ _ _ _ _ _ _)] => change w with (beams_world [] []) end.
  unfold beams_world. repeat (rewrite step_beam_named; cbn -[step dset]). reflexivity.
Qed.
Lemma two_beams_fresh ext : never_readds_elements ext two_beams.
Proof.
  unfold never_readds_elements, two_beams, demo_nodes. cbn [app guarded fresh_element].
  split; [exact I|]. split; [exact I|].
  unfold after. rewrite !step_add_node. cbn -[step dset].
  split; [exists []; split; [reflexivity|simpl; tauto]|].
  split; [|exact I].
  match goal with |- context [step ext ?w (OpAddSimpleBeam _ _ _ _ _ _ _ _ _ _)] => change w with (beams_world [] []) end.
  unfold beams_world. rewrite step_beam_named. exists ["b"]. split; [reflexivity|].
  intros [H|[]]; discriminate.
Qed.

(** C67 fails as soon as a name is used again. *)
Lemma c67_refuted : exists ops n1 n2 l i, forall ext,
  (forall x, In x (outs ext init ops) -> x = RBool true)
  /\ answer ext (final ext init ops) OpBeamNames = RNames l
  /\ In n1 l /\ In n2 l /\ n1 <> n2
  /\ model_beam_hid n1 (k_fem (w_core (final ext init ops))) = Some i
  /\ model_beam_hid n2 (k_fem (w_core (final ext init ops))) = Some i.
Proof.
  exists (demo_nodes ++ [OpAddSimpleBeam "b" "A" "B" 1 0 1 1 1 1 1; OpAddSimpleBeam "b" "A" "B" 1 0 1 1 1 1 1;
          OpAddSimpleBeam "c" "A" "B" 1 0 1 1 1 1 1])%list, "b", "c", ["b"; "c"], 1%nat. intros ext.
  assert (run ext init (demo_nodes ++ [OpAddSimpleBeam "b" "A" "B" 1 0 1 1 1 1 1; OpAddSimpleBeam "b" "A" "B" 1 0 1 1 1 1 1;
          OpAddSimpleBeam "c" "A" "B" 1 0 1 1 1 1 1])%list =
   (beams_world [("b", beam_named "b"); ("c", beam_named "c")] [("b", 1%nat); ("c", 1%nat)], repeat (RBool true) 5)) as E.
  { unfold demo_nodes. cbn [app run]. rewrite !step_add_node.
    cbn -[step dset]. match goal with |- context [step ext ?w (OpAddSimpleBeam _ _ _ _ _ _ _ _ _ _)] => change w with (beams_world [] []) end.
    unfold beams_world. repeat (rewrite step_beam_named; cbn -[step dset]). reflexivity. }
  unfold outs, final. rewrite E. cbn -[beam_named]. repeat split; auto; try (intros; intuition; fail). intros; discriminate.
Qed.
Lemma two_beams_assembled : forall ext, never_readds_elements ext (two_beams ++ [OpAssemble])
  /\ exists a, read_asb (final ext init (two_beams ++ [OpAssemble])) = Some a /\ model_beam_names (a_model a) = ["b"; "c"].
Proof.
  intros ext. split.
  - unfold never_readds_elements. apply guarded_app. split; [apply two_beams_fresh|]. split; exact I.
  - rewrite final_app. unfold final at 2. rewrite two_beams_run. rewrite final_cons, final_nil.
    eexists. split; reflexivity.
Qed.
