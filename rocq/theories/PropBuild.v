(** Building on the model class with the duplicate check (C112).
    Only statements, each closed by a lemma proved elsewhere, with the assumptions it
    rests on and an instance of its hypotheses. *)
From Coq Require Import Reals Lra Lia List String Arith Bool ZArith Sorting.Permutation Sorting.Sorted.
From Verif Require Import Base Csys Sections Element FeModel SpecGeom SpecApi Build SpecBuild BuildProofs Demo.
Import ListNotations.
Local Open Scope string_scope.
Local Open Scope list_scope.
Local Open Scope R_scope.

(** C112. If every call asks for the duplicate check, no two nodes are ever at one place and no two beams join
    the same two places, either way round. *)
Theorem C112_apart cs : Forall (fun c => checks c = true) cs ->
  (forall k1 k2 n1 n2, k1 <> k2 -> dget k1 (f_nodes (mrun cs)) = Some n1 -> dget k2 (f_nodes (mrun cs)) = Some n2 -> ~ at_once (n_loc n1) (n_loc n2))
  /\ (forall k1 k2 b1 b2, k1 <> k2 -> dget k1 (f_beams (mrun cs)) = Some b1 -> dget k2 (f_beams (mrun cs)) = Some b2 ->
      ~ joins b1 (n_loc (b_ni b2)) (n_loc (b_nj b2))).
Proof. exact (c112_apart cs). Qed.
Print Assumptions C112_apart.
Example C112_apart_example : Forall (fun c => checks c = true)
  [MNode "A" 0 0 0 true; MNode "B" 1 0 0 true; MSimple "b" "A" "B" 1 0 1 1 1 1 1 true; MNode "A2" 0 0 0 true; MSimple "c" "B" "A" 1 0 1 1 1 1 1 true].
Proof. repeat constructor. Qed.

(** C112. The number that a call for a beam gives back is that of a beam between those places: of one that
    was there, and then nothing changes, or of a new one if there was none. *)
Theorem C112_beam cs c n s e h : Forall (fun c => checks c = true) cs -> beam_call c = Some (n, s, e) ->
  fst (mstep (mrun cs) c) = MNumber h -> let m := mrun cs in let m' := mrun (cs ++ [c]) in
  exists ni nj k b, dget s (f_nodes m) = Some ni /\ dget e (f_nodes m) = Some nj
  /\ dget k (f_hbeam m') = Some h /\ dget k (f_beams m') = Some b
  /\ ((m' = m /\ joins b (n_loc ni) (n_loc nj))
      \/ (k = n /\ b_ni b = ni /\ b_nj b = nj /\ h = List.length (f_beams m)
          /\ forall k' b', dget k' (f_beams m) = Some b' -> ~ joins b' (n_loc ni) (n_loc nj))).
Proof. exact (c112_beam cs c n s e h). Qed.
Print Assumptions C112_beam.
Example C112_beam_example : exists cs n s e h, Forall (fun c => checks c = true) cs /\
  beam_call (MSimple "c" "B" "A" 1 0 1 1 1 1 1 true) = Some (n, s, e) /\ fst (mstep (mrun cs) (MSimple "c" "B" "A" 1 0 1 1 1 1 1 true)) = MNumber h.
Proof. exact twice_told. Qed.

(** C112. The name told for a node that is already there stands for nothing afterwards. *)
Theorem C112_name_refuted : exists cs n, Forall (fun c => checks c = true) (cs ++ [n])
  /\ exists name x y z h, n = MNode name x y z true /\ fst (mstep (mrun cs) n) = MNumber h
  /\ fst (mstep (mrun (cs ++ [n])) (MRestraint name [true; true; true; true; true; true])) = MBool false
  /\ fst (mstep (mrun (cs ++ [n])) (MSimple "b" "B" name 1 0 1 1 1 1 1 true)) = MRaise
  /\ exists h', fst (mstep (mrun (cs ++ [n])) (MSimple "b" "B" "A" 1 0 1 1 1 1 1 true)) = MNumber h'.
Proof. exact c112_name_refuted. Qed.
Print Assumptions C112_name_refuted.
Example C112_name_refuted_example : model_set_restraint "A2" [true] (Fem [("A", node_at "A" 0 0 0)] [] [] [] [] [] [] [("A", O)] [] [])
  = (false, Fem [("A", node_at "A" 0 0 0)] [] [] [] [] [] [] [("A", O)] [] []).
Proof. reflexivity. Qed.
