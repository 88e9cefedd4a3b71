(** Properties C25-C27 and C38: the load vector, order and direction.
    Only statements, each closed by a lemma proved elsewhere, with the assumptions it
    rests on and an instance of its hypotheses. *)
From Coq Require Import Reals Lra Lia List String Arith Bool ZArith Sorting.Permutation Sorting.Sorted.
From Verif Require Import Base BaseFacts Csys Sections Element Load FeModel Assembly Solver Post Api SpecApi ApiFacts SpecGeom CsysFacts SpecBeam SpecAsm AsmProofs AsmProofs2 SpecLoad LoadProofs AsmProofs3 Demo Demo2.
Import ListNotations.
Local Open Scope string_scope.
Local Open Scope list_scope.
Local Open Scope R_scope.

(** C25. Adding the same beams (distinct names) in any order and assembling gives the same
    stiffness, load vectors and mass matrix: defined together and equal entry by entry. *)
Theorem C25_order ext ops adds adds' :
  Permutation adds adds' -> NoDup (map adds_beam adds) -> (forall o, In o adds -> adds_beam o <> None) ->
  let w1 := final ext init (ops ++ adds ++ [OpAssemble]) in
  let w2 := final ext init (ops ++ adds' ++ [OpAssemble]) in
  (forall K, stiffness ext w1 = Some K -> exists K', stiffness ext w2 = Some K' /\ forall p q, coo_get K' p q = coo_get K p q)
  /\ (forall case f, load_vector w1 case = Some f ->
        exists f', load_vector w2 case = Some f' /\ forall q, coo_get f' q 0 = coo_get f q 0)
  /\ (forall M, mass_matrix w1 = Some M -> exists M', mass_matrix w2 = Some M' /\ forall p q, coo_get M' p q = coo_get M p q).
Proof. exact (c25_order ext ops adds adds'). Qed.
Print Assumptions C25_order.
Example C25_example : let o1 := OpAddSimpleBeam "b1" "A" "B" 1 0 1 1 1 1 1 in let o2 := OpAddSimpleBeam "b2" "B" "A" 2 0 1 3 1 1 1 in
  Permutation [o1; o2] [o2; o1] /\ NoDup (map adds_beam [o1; o2]) /\ (forall o, In o [o1; o2] -> adds_beam o <> None)
  /\ forall ext, (exists K, stiffness ext (final ext init demo) = Some K) /\ exists f, load_vector (final ext init demo) "C" = Some f.
Proof.
  cbv zeta. split; [apply perm_swap|]. split.
  { constructor; [simpl; intros [H|[]]; discriminate H|]. constructor; [simpl; tauto|constructor]. }
  split; [intros o [<-|[<-|[]]]; discriminate|].
  intros ext. split.
  - apply (c21_defined ext demo _ demo_fem); [reflexivity|apply demo_fresh_nodes|rewrite demo_final; reflexivity|].
    intros k b [H|[]]. injection H as <- <-. cbn. lra.
  - apply (c26_defined ext demo _ demo_fem "C" eq_refl (demo_fresh_nodes ext)); [rewrite demo_final; reflexivity| |].
    + intros k b [H|[]]. injection H as <- <-. cbn. lra.
    + rewrite demo_final. exists demo_asm, demo_case. split; reflexivity.
Qed.

(** C26. The load vector of a case is, for a given model, a sum over the patterns of the
    case of factor times a contribution that depends on the pattern alone. *)
Theorem C26_linear m : exists g : pattern -> nat -> R, forall ext ops w case f, w = final ext init ops ->
  assembled_model w = Some m -> load_vector w case = Some f ->
  forall q, coo_get f q 0 = lsum (map (fun fp => fst fp * g (snd fp) q) (applied w case)).
Proof. exact (c26_linear m). Qed.
Print Assumptions C26_linear.
Example C26_example ext : load_vector (final ext init demo) "C" <> None
  /\ applied (final ext init demo) "C" = [(2, demo_pat)].
Proof.
  split; [|rewrite demo_final; reflexivity].
  destruct (proj2 (c26_defined ext demo _ demo_fem "C" eq_refl (demo_fresh_nodes ext) ltac:(rewrite demo_final; reflexivity)
     ltac:(intros k b [H|[]]; injection H as <- <-; cbn; lra))) as (f & ->); [|discriminate].
  rewrite demo_final. exists demo_asm, demo_case. split; reflexivity.
Qed.

(** C26. Scaling every factor of a case scales its load vector. *)
Theorem C26_scale ext1 ops1 ext2 ops2 w1 w2 m case1 case2 f1 f2 k : w1 = final ext1 init ops1 -> w2 = final ext2 init ops2 ->
  assembled_model w1 = Some m -> assembled_model w2 = Some m ->
  load_vector w1 case1 = Some f1 -> load_vector w2 case2 = Some f2 ->
  applied w2 case2 = map (fun fp => (k * fst fp, snd fp)) (applied w1 case1) ->
  forall q, coo_get f2 q 0 = k * coo_get f1 q 0.
Proof. exact (c26_scale ext1 ops1 ext2 ops2 w1 w2 m case1 case2 f1 f2 k). Qed.
Print Assumptions C26_scale.
Definition tripled : list op := demo ++ [OpAddStatic "D"; OpAddCasePattern "D" "P" 6; OpAssemble].
Example C26_scale_example ext : let w := final ext init tripled in assembled_model w <> None
  /\ applied w "C" <> [] /\ applied w "D" = map (fun fp => (3 * fst fp, snd fp)) (applied w "C").
Proof.
  cbv zeta. unfold tripled. set (l := [OpAddStatic "D"; _; _]).
  assert (E : exists w, final ext init (demo ++ l) = w /\ assembled_model w <> None /\ applied w "C" = [(2, demo_pat)] /\ applied w "D" = [(6, demo_pat)]).
  { eexists. split.
    - rewrite final_app, demo_final. unfold l, final. cbn. reflexivity.
    - split; [discriminate|split; reflexivity]. }
  destruct E as (w & -> & H1 & H2 & H3). split; [exact H1|]. rewrite H2, H3. split; [discriminate|]. cbn. replace (3 * 2) with 6 by ring. reflexivity.
Qed.

(** C26. A case that applies the patterns of two others has the sum of their load vectors. *)
Theorem C26_superpose ext ops exta opsa extb opsb w wa wb m case casea caseb f fa fb :
  w = final ext init ops -> wa = final exta init opsa -> wb = final extb init opsb ->
  assembled_model w = Some m -> assembled_model wa = Some m -> assembled_model wb = Some m ->
  load_vector w case = Some f -> load_vector wa casea = Some fa -> load_vector wb caseb = Some fb ->
  Permutation.Permutation (applied w case) (applied wa casea ++ applied wb caseb) ->
  forall q, coo_get f q 0 = coo_get fa q 0 + coo_get fb q 0.
Proof. exact (c26_superpose ext ops exta opsa extb opsb w wa wb m case casea caseb f fa fb). Qed.
Print Assumptions C26_superpose.
Definition two_cases : list op := demo ++ [OpAddPattern "Q"; OpSetNodalLoad "Q" "A" tip_load; OpAddStatic "D"; OpAddCasePattern "D" "Q" 3;
  OpAddStatic "E"; OpAddCasePattern "E" "P" 2; OpAddCasePattern "E" "Q" 3; OpAssemble].
Example C26_superpose_example ext : let w := final ext init two_cases in
  assembled_model w <> None /\ List.length (applied w "E") = 2%nat
  /\ Permutation (applied w "E") (applied w "C" ++ applied w "D").
Proof.
  cbv zeta. unfold two_cases. set (l := [OpAddPattern "Q"; _; _; _; _; _; _; _]).
  assert (E : exists w, final ext init (demo ++ l) = w /\ assembled_model w <> None /\ List.length (applied w "E") = 2%nat
     /\ applied w "E" = applied w "C" ++ applied w "D").
  { eexists. split.
    - rewrite final_app, demo_final. unfold l, final. cbn. reflexivity.
    - split; [discriminate|split; reflexivity]. }
  destruct E as (w & -> & H1 & H2 & H3). split; [exact H1|]. split; [exact H2|]. rewrite H3. apply Permutation_refl.
Qed.

(** C26. The load vector is defined exactly for the cases of the assembly. *)
Theorem C26_defined ext ops w m case : w = final ext init ops -> never_readds_nodes ext ops ->
  assembled_model w = Some m ->
  (forall k b, In (k, b) (f_beams m) -> 1 + poisson (b_prop b) <> 0) ->
  ((exists f, load_vector w case = Some f)
   <-> exists a c, read_asb w = Some a /\ dget case (a_cases a) = Some c).
Proof. exact (c26_defined ext ops w m case). Qed.
Print Assumptions C26_defined.
Example C26_defined_example ext : (exists f, load_vector (final ext init demo) "C" = Some f) /\ ~ (exists f, load_vector (final ext init demo) "X" = Some f).
Proof.
  assert (P : forall k b, In (k, b) (f_beams demo_fem) -> 1 + poisson (b_prop b) <> 0) by (intros k b [H|[]]; injection H as <- <-; cbn; lra).
  assert (M : assembled_model (final ext init demo) = Some demo_fem) by (rewrite demo_final; reflexivity).
  split.
  - apply (C26_defined ext demo _ demo_fem "C" eq_refl (demo_fresh_nodes ext) M P). rewrite demo_final. exists demo_asm, demo_case. split; reflexivity.
  - intros H. apply (C26_defined ext demo _ demo_fem "X" eq_refl (demo_fresh_nodes ext) M P) in H. destruct H as (a & c & E & F).
    rewrite demo_final in E. assert (E' : Some demo_asm = Some a) by exact E. injection E' as <-. discriminate F.
Qed.

(** C27. The force and the moment (about the origin) of the assembled load vector are those of
    the applied nodal loads, line loads and concentrated loads, times the factors. *)
Theorem C27_resultants ext ops w m case f : w = final ext init ops -> never_readds_nodes ext ops ->
  assembled_model w = Some m -> load_vector w case = Some f ->
  resultant_force m (fun q => coo_get f q 0) = vsum (map (fun fp => vscale (fst fp) (pattern_force m (snd fp))) (applied w case))
  /\ resultant_moment m (fun q => coo_get f q 0) = vsum (map (fun fp => vscale (fst fp) (pattern_moment m (snd fp))) (applied w case)).
Proof. exact (c27_resultants ext ops w m case f). Qed.
Print Assumptions C27_resultants.
Example C27_example : pattern_force demo_fem demo_pat = V3 1 0 0.
Proof.
  unfold pattern_force, demo_fem, demo_pat. cbn [f_nodes f_beams map vsum fold_right fst snd].
  unfold node_force, member_force, line_force, point_force, triple, load_entry, trapezium. cbn [p_nodal p_dist p_conc dget String.eqb Ascii.eqb Bool.eqb nth Nat.add].
  apply vec3_eq; cbn; unfold Rdiv; ring.
Qed.

(** C27. The closed forms used for the line loads are the integrals of the load and of its
    moment over the member. *)
Theorem C27_line a b l (pr : Riemann_integrable (ramp a b l) 0 l) (pr' : Riemann_integrable (fun x => x * ramp a b l x) 0 l) :
  0 < l -> RiemannInt pr = trapezium a b l /\ RiemannInt pr' = trapezium_moment a b l.
Proof. exact (c27_line a b l pr pr'). Qed.
Print Assumptions C27_line.
Example C27_line_example : inhabited (Riemann_integrable (ramp 1 2 3) 0 3).
Proof.
  constructor. apply continuity_implies_RiemannInt; [lra|]. intros x _.
  apply derivable_continuous_pt. unfold ramp. reg.
Qed.

(** C27. Finding: a load put on a name that is no node is accepted (every call answers True),
    can be read back, and is absent from the assembled load vector. *)
Theorem C27_stray_refuted : forall ext, outs ext init stray = repeat (RBool true) 6 /\
  exists f, load_vector (final ext init stray) "C" = Some f /\ (forall q, coo_get f q 0 = 0)
    /\ answer ext (final ext init stray) (OpGetNodalLoad "P" "Z") = RVec [1; 0; 0; 0; 0; 0].
Proof. exact c27_stray_refuted. Qed.
Print Assumptions C27_stray_refuted.
(* existential: the witness is part of the statement *)

(** C38. A member drawn in the other direction gives the same assembled stiffness. *)
Theorem C38_flip ext ops o K K' : adds_beam o <> None ->
  let w1 := final ext init (ops ++ [o; OpAssemble]) in
  let w2 := final ext init (ops ++ [flipped o; OpAssemble]) in
  stiffness ext w1 = Some K -> stiffness ext w2 = Some K' -> forall p q, coo_get K p q = coo_get K' p q.
Proof. exact (c38_flip ext ops o K K'). Qed.
Print Assumptions C38_flip.
Example C38_example : let o := OpAddSimpleBeam "b" "A" "B" 1 0 1 1 1 1 1 in adds_beam o <> None /\ flipped o <> o
  /\ forall ext, answer ext (final ext init demo_nodes) o = RBool true.
Proof.
  cbv zeta. split; [discriminate|]. split; [discriminate|]. intros ext.
  unfold answer. rewrite step_demo_beam; [reflexivity|]. unfold final. rewrite demo_nodes_run. reflexivity.
Qed.

(** C38. A member is accepted in one direction exactly when it is accepted in the other. *)
Theorem C38_accepted ext ops o : adds_beam o <> None ->
  let w := final ext init ops in answer ext w (flipped o) = answer ext w o.
Proof. exact (c38_accepted ext ops o). Qed.
Print Assumptions C38_accepted.
Example C38_accepted_example ext : answer ext (final ext init demo_nodes) (OpAddSimpleBeam "b" "B" "A" 1 0 1 1 1 1 1) = RBool true.
Proof.
  change (OpAddSimpleBeam "b" "B" "A" 1 0 1 1 1 1 1) with (flipped (OpAddSimpleBeam "b" "A" "B" 1 0 1 1 1 1 1)).
  rewrite (C38_accepted ext demo_nodes (OpAddSimpleBeam "b" "A" "B" 1 0 1 1 1 1 1) ltac:(discriminate)). apply C38_example.
Qed.
