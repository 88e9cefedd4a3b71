(** Static answers as a whole (C106-C111, C113): equilibrium, least energy, stability, reactions,
    monotony, and what the answers do not depend on.
    Only statements, each closed by a lemma proved elsewhere, with the assumptions it
    rests on and an instance of its hypotheses. *)
From Coq Require Import Reals Lra Lia List String Arith Bool ZArith Sorting.Permutation Sorting.Sorted.
From Verif Require Import Base BaseFacts Csys Sections Element Load FeModel Assembly Kernels Solver Post Api SpecApi ApiFacts SpecElim SpecGeom CsysFacts SpecBeam ShellProofs SpecAsm AsmProofs SpecLoad SpecSolve SpecKernel KernelProofs2 SpecTold SpecToldLoad Demo Demo2 SpecStatics StaticsProofs StaticsProofs2 SpecSame SameProofs SameProofs2 StifferProofs StaticsMain StaticsDemo StaticsDemo2 StaticsDemo3 StaticsDemo4 StaticsDemo5 SolvableProofs GaussDemo SolvableDemo KernelProofs5 SameCode SameTria SameLevel RoofDemo.
Import ListNotations.
Local Open Scope string_scope.
Local Open Scope list_scope.
Local Open Scope R_scope.

(** C106. The stored displacements of a solved case respect its supports and balance its loads at every
    free equation. *)
Theorem C106_balanced ext ops c : never_readds_nodes ext ops -> let w := final ext init (ops ++ [OpAssemble]) in
  solved ext w c -> symmetric_elements ext w -> permitted ext w c (solution ext w c) /\ balanced ext w c (solution ext w c).
Proof. exact (m106_balanced ext ops c). Qed.
Print Assumptions C106_balanced.
Example C106_balanced_example : let w := final bench init (bar_calls true p0 p1 slim ++ [OpAssemble]) in permitted bench w "C" (solution bench w "C") /\ balanced bench w "C" (solution bench w "C").
Proof. exact (C106_balanced bench (bar_calls true p0 p1 slim) "C" (bar_told bench true p0 p1 slim) (solved_slim "C" (or_introl eq_refl) true) (bars_symmetric bench true p0 p1 slim sep_p slim_nodup)). Qed.

(** C106. Of all displacements that the supports permit, the stored ones have the least potential energy. *)
Theorem C106_minimum ext ops c x : never_readds_nodes ext ops -> let w := final ext init (ops ++ [OpAssemble]) in
  solved ext w c -> symmetric_elements ext w -> elastic ext w -> permitted ext w c x ->
  permitted ext w c (solution ext w c) /\ potential ext w c (solution ext w c) <= potential ext w c x.
Proof. exact (m106_minimum ext ops c x). Qed.
Print Assumptions C106_minimum.
Example C106_minimum_example : let w := final bench init (bar_calls true p0 p1 slim ++ [OpAssemble]) in potential bench w "C" (solution bench w "C") <= 0.
Proof.
  intros w. destruct (C106_minimum bench (bar_calls true p0 p1 slim) "C" (fun _ => 0) (bar_told bench true p0 p1 slim) (solved_slim "C" (or_introl eq_refl) true) (bars_symmetric bench true p0 p1 slim sep_p slim_nodup) (bars_elastic bench true p0 p1 slim sep_p slim_nodup (fun k E H => Rlt_le _ _ (slim_pos k E H))) (fun q _ _ => eq_refl)) as [_ H].
  fold w in H. eapply Rle_trans; [exact H|]. unfold potential, energy, work_of.
  assert (Z : forall n f, rsum n (fun q => f q * 0) = 0) by (intros n f; induction n as [|n IH]; cbn [rsum]; [reflexivity|rewrite IH; ring]).
  rewrite !Z. lra.
Qed.

(** C106. A structure that its supports hold still has no other displacements that balance the loads. *)
Theorem C106_unique ext ops c x : never_readds_nodes ext ops -> let w := final ext init (ops ++ [OpAssemble]) in
  solved ext w c -> symmetric_elements ext w -> stable ext w c -> permitted ext w c x -> balanced ext w c x ->
  forall q, (q < equations w)%nat -> x q = solution ext w c q.
Proof. exact (m106_unique ext ops c x). Qed.
Print Assumptions C106_unique.
Example C106_unique_example : let w := final bench init (bar_calls true p0 p1 slim ++ [OpAssemble]) in forall q, (q < equations w)%nat ->
  spread (bar_fem true p0 p1 slim) (tip (tip_of p0 p1 slim "C")) q = solution bench w "C" q.
Proof.
  intros w. assert (SS : stiffness_sum p0 p1 slim <> 0) by (unfold stiffness_sum, slim; cbn [map lsum snd]; rewrite dist_p; lra).
  destruct (bar_solved [six_of (tip_of p0 p1 slim "C"); six_of (tip_of p0 p1 slim "D"); six_of (tip_of p0 p1 slim "E");
   (let v := tip_of p0 p1 slim "S" in [vx v; vz v; 0; 0; 0]);
   six_of (tip_of p0 p1 paired "C"); six_of (tip_of p0 p1 thick "C"); six_of (tip_of q0 q1 slim "C"); six_of (tip_of r0 r1 slim "C")]
    true p0 p1 slim "C" _ sep_p slim_nodup SS eq_refl (or_introl eq_refl) (or_introl eq_refl)) as (_ & P & B).
  exact (C106_unique bench (bar_calls true p0 p1 slim) "C" _ (bar_told bench true p0 p1 slim) (solved_slim "C" (or_introl eq_refl) true) (bars_symmetric bench true p0 p1 slim sep_p slim_nodup) (slim_stable true "C" _ eq_refl eq_refl) P B).
Qed.

(** C106. The displacements under a sum of loads are the sum of the displacements under each. *)
Theorem C106_superpose ext ops a b c ka kb : never_readds_nodes ext ops -> let w := final ext init (ops ++ [OpAssemble]) in
  solved ext w a -> solved ext w b -> solved ext w c -> symmetric_elements ext w ->
  same_supports ext w a c -> same_supports ext w b c -> stable ext w c ->
  Permutation (applied w c) (times ka (applied w a) ++ times kb (applied w b)) ->
  forall q, (q < equations w)%nat -> solution ext w c q = ka * solution ext w a q + kb * solution ext w b q.
Proof. exact (m106_superpose ext ops a b c ka kb). Qed.
Print Assumptions C106_superpose.
Example C106_superpose_example : let w := final bench init (bar_calls true p0 p1 slim ++ [OpAssemble]) in forall q, (q < equations w)%nat ->
  solution bench w "E" q = 1 * solution bench w "C" q + 2 * solution bench w "D" q.
Proof.
  apply (C106_superpose bench (bar_calls true p0 p1 slim) "C" "D" "E" 1 2 (bar_told bench true p0 p1 slim) (solved_slim "C" (or_introl eq_refl) true) (solved_slim "D" (or_intror (or_introl eq_refl)) true) (solved_slim "E" (or_intror (or_intror (or_introl eq_refl))) true) (bars_symmetric bench true p0 p1 slim sep_p slim_nodup)
    (bars_same bench true p0 p1 slim sep_p slim_nodup "C" "E" _ _ eq_refl eq_refl eq_refl eq_refl)
    (bars_same bench true p0 p1 slim sep_p slim_nodup "D" "E" _ _ eq_refl eq_refl eq_refl eq_refl) (slim_stable true "E" _ eq_refl eq_refl)).
  rewrite !(bars_applied bench true p0 p1 slim sep_p slim_nodup). cbn [bar_cases dget String.eqb Ascii.eqb Bool.eqb].
  unfold applied_in, times, one_case; cbn. rewrite Rmult_1_l. replace (2 * 3) with 6 by ring. reflexivity.
Qed.

(** C106. The loads of one case do the same work on the displacements of a second as those of the second
    on the displacements of the first. *)
Theorem C106_reciprocal ext ops a b : never_readds_nodes ext ops -> let w := final ext init (ops ++ [OpAssemble]) in
  solved ext w a -> solved ext w b -> symmetric_elements ext w -> same_supports ext w a b ->
  work_of w (load_at w a) (solution ext w b) = work_of w (load_at w b) (solution ext w a).
Proof. exact (m106_reciprocal ext ops a b). Qed.
Print Assumptions C106_reciprocal.
Example C106_reciprocal_example : let w := final bench init (bar_calls true p0 p1 slim ++ [OpAssemble]) in
  work_of w (load_at w "C") (solution bench w "D") = work_of w (load_at w "D") (solution bench w "C").
Proof.
  exact (C106_reciprocal bench (bar_calls true p0 p1 slim) "C" "D" (bar_told bench true p0 p1 slim) (solved_slim "C" (or_introl eq_refl) true) (solved_slim "D" (or_intror (or_introl eq_refl)) true) (bars_symmetric bench true p0 p1 slim sep_p slim_nodup)
    (bars_same bench true p0 p1 slim sep_p slim_nodup "C" "D" _ _ eq_refl eq_refl eq_refl eq_refl)).
Qed.

(** C106. The loads do twice the strain energy of work on their own displacements. *)
Theorem C106_clapeyron ext ops c : never_readds_nodes ext ops -> let w := final ext init (ops ++ [OpAssemble]) in
  solved ext w c -> symmetric_elements ext w ->
  work_of w (load_at w c) (solution ext w c) = energy ext w (solution ext w c) (solution ext w c).
Proof. exact (m106_clapeyron ext ops c). Qed.
Print Assumptions C106_clapeyron.
Example C106_clapeyron_example : let w := final bench init (bar_calls true p0 p1 slim ++ [OpAssemble]) in
  work_of w (load_at w "C") (solution bench w "C") = energy bench w (solution bench w "C") (solution bench w "C").
Proof. exact (C106_clapeyron bench (bar_calls true p0 p1 slim) "C" (bar_told bench true p0 p1 slim) (solved_slim "C" (or_introl eq_refl) true) (bars_symmetric bench true p0 p1 slim sep_p slim_nodup)). Qed.

(** C107. A structure all of whose nodes are connected through beams of positive constants with a clamped
    node is held still. *)
Theorem C107_clamped ext ops c m : never_readds_nodes ext ops -> let w := final ext init (ops ++ [OpAssemble]) in
  assembled_model w = Some m -> stiffness ext w <> None ->
  (forall k b, In (k, b) (f_beams m) -> props_pos (b_prop b)) ->
  f_shells m = [] \/ psd_kernels (x_ker ext) /\ (forall k s, In (k, s) (f_shells m) -> shell_admissible s) ->
  (forall k n, In (k, n) (f_nodes m) -> carried ext w c m k) -> stable ext w c.
Proof. exact (m107_clamped ext ops c m). Qed.
Print Assumptions C107_clamped.
Example C107_clamped_example : stable bench (final bench init (bar_calls true p0 p1 slim ++ [OpAssemble])) "C".
Proof.
  exact (C107_clamped bench (bar_calls true p0 p1 slim) "C" _ (bar_told bench true p0 p1 slim) (bars_model bench true p0 p1 slim sep_p slim_nodup)
    (bars_stiffness bench true p0 p1 slim sep_p slim_nodup) (bars_positive true p0 p1 slim slim_pos) (or_introl eq_refl)
    (fun k n => bars_carried bench true p0 p1 slim sep_p slim_nodup "C" _ k n eq_refl eq_refl ltac:(discriminate))).
Qed.

(** C108. The forces at the supports vanish where nothing is held, and together with the loads have no
    resultant force and no resultant moment. *)
Theorem C108_reactions ext ops c m : never_readds_nodes ext ops -> let w := final ext init (ops ++ [OpAssemble]) in
  solved ext w c -> assembled_model w = Some m -> f_shells m = [] ->
  (forall q, (q < equations w)%nat -> ~ restrained_for ext w c q -> reaction ext w c q = 0)
  /\ vadd (resultant_force m (reaction ext w c)) (vsum (map (fun fp => vscale (fst fp) (pattern_force m (snd fp))) (applied w c))) = zero3
  /\ vadd (resultant_moment m (reaction ext w c)) (vsum (map (fun fp => vscale (fst fp) (pattern_moment m (snd fp))) (applied w c))) = zero3.
Proof. exact (m108_reactions ext ops c m). Qed.
Print Assumptions C108_reactions.
Example C108_reactions_example : let w := final bench init (bar_calls true p0 p1 slim ++ [OpAssemble]) in let m := bar_fem true p0 p1 slim in
  vadd (resultant_force m (reaction bench w "C")) (vsum (map (fun fp => vscale (fst fp) (pattern_force m (snd fp))) (applied w "C"))) = zero3.
Proof.
  exact (proj1 (proj2 (C108_reactions bench (bar_calls true p0 p1 slim) "C" _ (bar_told bench true p0 p1 slim) (solved_slim "C" (or_introl eq_refl) true) (bars_model bench true p0 p1 slim sep_p slim_nodup) eq_refl))).
Qed.

(** C108. With proper shells too; of the moment, the part about any axis about which no shell would have
    to turn in its own plane. *)
Theorem C108_shells ext ops c m c2 t2 : never_readds_nodes ext ops -> let w := final ext init (ops ++ [OpAssemble]) in
  solved ext w c -> assembled_model w = Some m -> x_ker ext = code_kernels c2 t2 -> inside_square c2 ->
  (forall k s, In (k, s) (f_shells m) -> proper_shape s) ->
  (forall q, (q < equations w)%nat -> ~ restrained_for ext w c q -> reaction ext w c q = 0)
  /\ vadd (resultant_force m (reaction ext w c)) (vsum (map (fun fp => vscale (fst fp) (pattern_force m (snd fp))) (applied w c))) = zero3
  /\ forall r, (forall k s, In (k, s) (f_shells m) -> unturned r s) ->
     dot3 r (vadd (resultant_moment m (reaction ext w c)) (vsum (map (fun fp => vscale (fst fp) (pattern_moment m (snd fp))) (applied w c)))) = 0.
Proof. exact (m108_shells ext ops c m c2 t2). Qed.
Print Assumptions C108_shells.
Example C108_shells_example : exists m s, let w := final plate_ext init (plate_ops ++ [OpAssemble]) in f_shells m = [("q", s)] /\
  vadd (resultant_force m (reaction plate_ext w "C")) (vsum (map (fun fp => vscale (fst fp) (pattern_force m (snd fp))) (applied w "C"))) = zero3.
Proof.
  destruct plate_model as (m & s & Em & Es & Q). exists m, s. split; [exact Es|].
  refine (proj1 (proj2 (C108_shells plate_ext plate_ops "C" m gauss2 tri_mid (plate_fresh _) plate_solved Em eq_refl gauss2_inside _))).
  intros k s' H. rewrite Es in H. destruct H as [H|[]]. injection H as <- <-. exact (square_proper s Q).
Qed.

(** C109. Holding more never increases the work of the loads. *)
Theorem C109_supports ext ops a b : never_readds_nodes ext ops -> let w := final ext init (ops ++ [OpAssemble]) in
  solved ext w a -> solved ext w b -> symmetric_elements ext w -> elastic ext w ->
  (forall q, restrained_for ext w a q -> restrained_for ext w b q) -> Permutation (applied w a) (applied w b) ->
  work_of w (load_at w b) (solution ext w b) <= work_of w (load_at w a) (solution ext w a).
Proof. exact (m109_supports ext ops a b). Qed.
Print Assumptions C109_supports.
Example C109_supports_example : let w := final bench init (bar_calls true p0 p1 slim ++ [OpAssemble]) in
  work_of w (load_at w "S") (solution bench w "S") <= work_of w (load_at w "C") (solution bench w "C").
Proof.
  apply (C109_supports bench (bar_calls true p0 p1 slim) "C" "S" (bar_told bench true p0 p1 slim) (solved_slim "C" (or_introl eq_refl) true) (solved_slim "S" (or_intror (or_intror (or_intror (or_introl eq_refl)))) true) (bars_symmetric bench true p0 p1 slim sep_p slim_nodup) (bars_elastic bench true p0 p1 slim sep_p slim_nodup (fun k E H => Rlt_le _ _ (slim_pos k E H)))).
  - intros q (n & k & i & j & A & B & C & D & F). exists n, k, i, j. repeat split; auto. apply (bars_guided bench true p0 p1 slim sep_p slim_nodup). exact F.
  - rewrite !(bars_applied bench true p0 p1 slim sep_p slim_nodup). reflexivity.
Qed.

(** C109. Neither do more members, stiffer members or more supports told in another history of calls. *)
Theorem C109_told ext ops ops' t t' l l' case : never_readds_nodes ext ops -> never_readds_nodes ext ops' ->
  let w := final ext init (ops ++ [OpAssemble]) in let w' := final ext init (ops' ++ [OpAssemble]) in
  describes ext ops t l -> describes ext ops' t' l' ->
  stiffer t t' -> unloaded_extras t t' l case -> same_loads l l' case ->
  (forall k j, flag (governing ext w case) k j = true -> flag (governing ext w' case) k j = true) ->
  solved ext w case -> solved ext w' case -> symmetric_elements ext w -> elastic ext w ->
  work_of w' (load_at w' case) (solution ext w' case) <= work_of w (load_at w case) (solution ext w case).
Proof. exact (m109_told ext ops ops' t t' l l' case). Qed.
Print Assumptions C109_told.
Example C109_told_example : let w := final bench init (bar_calls true p0 p1 slim ++ [OpAssemble]) in let w' := final bench init (bar_calls true p0 p1 paired ++ [OpAssemble]) in
  work_of w' (load_at w' "C") (solution bench w' "C") <= work_of w (load_at w "C") (solution bench w "C").
Proof.
  destruct (bars_described bench true p0 p1 slim sep_p slim_nodup) as (t & l & D & H & HL).
  destruct (bars_described bench true p0 p1 paired sep_p paired_nodup) as (t' & l' & D' & H' & HL').
  apply (C109_told bench (bar_calls true p0 p1 slim) (bar_calls true p0 p1 paired) t t' l l' "C" (bar_told bench true p0 p1 slim) (bar_told bench true p0 p1 paired) D D'
    (bars_stiffer true true p0 p1 slim paired t t' H H' ltac:(intros k; cbn [slim paired dget]; destruct (String.eqb k "b"); [lra|destruct (String.eqb k "c"); [lra|exact I]]))
    (bars_unloaded t t' _ l HL) (same_same_loads _ _ _ (bars_same_case _ l l' HL HL'))); [|exact (solved_slim "C" (or_introl eq_refl) true)|exact (solved_paired true)|exact (bars_symmetric bench true p0 p1 slim sep_p slim_nodup)|exact (bars_elastic bench true p0 p1 slim sep_p slim_nodup (fun k E H => Rlt_le _ _ (slim_pos k E H)))].
  intros k j.
  rewrite (bars_flag bench true p0 p1 slim sep_p slim_nodup "C" _ k j eq_refl eq_refl), (bars_flag bench true p0 p1 paired sep_p paired_nodup "C" _ k j eq_refl eq_refl).
  exact (fun F => F).
Qed.

(** C110. Two histories that tell the same structure and the same case give the same displacements at every
    node. *)
Theorem C110_told ext ops ops' t t' l l' case : never_readds_nodes ext ops -> never_readds_nodes ext ops' ->
  let w := final ext init (ops ++ [OpAssemble]) in let w' := final ext init (ops' ++ [OpAssemble]) in
  describes ext ops t l -> describes ext ops' t' l' -> same_structure t t' -> same_case l l' case ->
  solved ext w case -> solved ext w' case -> stable ext w case -> symmetric_elements ext w ->
  forall k, answer ext w (OpNodeLocation k) <> RNone -> exists v, List.length v = 6%nat
  /\ answer ext (after ext w (OpSolveStatic case)) (OpNodalDisp k case) = RVec v
  /\ answer ext (after ext w' (OpSolveStatic case)) (OpNodalDisp k case) = RVec v.
Proof. exact (m110_told ext ops ops' t t' l l' case). Qed.
Print Assumptions C110_told.
Example C110_told_example : let w := final bench init (bar_calls true p0 p1 slim ++ [OpAssemble]) in let w' := final bench init (bar_calls false p0 p1 slim ++ [OpAssemble]) in exists v, List.length v = 6%nat
  /\ answer bench (after bench w (OpSolveStatic "C")) (OpNodalDisp "B" "C") = RVec v
  /\ answer bench (after bench w' (OpSolveStatic "C")) (OpNodalDisp "B" "C") = RVec v.
Proof.
  destruct (bars_described bench true p0 p1 slim sep_p slim_nodup) as (t & l & D & H & HL).
  destruct (bars_described bench false p0 p1 slim sep_p slim_nodup) as (t' & l' & D' & H' & HL').
  exact (C110_told bench (bar_calls true p0 p1 slim) (bar_calls false p0 p1 slim) t t' l l' "C" (bar_told bench true p0 p1 slim) (bar_told bench false p0 p1 slim) D D'
    (bars_same_structure true false p0 p1 slim t t' H H') (bars_same_case _ l l' HL HL') (solved_slim "C" (or_introl eq_refl) true) (solved_slim "C" (or_introl eq_refl) false)
    (slim_stable true "C" _ eq_refl eq_refl) (bars_symmetric bench true p0 p1 slim sep_p slim_nodup) "B" (bars_there bench true p0 p1 slim sep_p slim_nodup "B" (or_intror eq_refl))).
Qed.

(** C111. The same structure elsewhere, solved with the kernels of the code: the same displacements. *)
Theorem C111_shifted ext c2 t2 ops ops' t t' l l' case d : x_ker ext = code_kernels c2 t2 -> never_readds_nodes ext ops -> never_readds_nodes ext ops' ->
  let w := final ext init (ops ++ [OpAssemble]) in let w' := final ext init (ops' ++ [OpAssemble]) in
  describes ext ops t l -> describes ext ops' t' l' -> alike 1 0 d t t' -> same_case l l' case ->
  solved ext w case -> solved ext w' case -> stable ext w case ->
  forall k, answer ext w (OpNodeLocation k) <> RNone -> exists v, List.length v = 6%nat
  /\ answer ext (after ext w (OpSolveStatic case)) (OpNodalDisp k case) = RVec v
  /\ answer ext (after ext w' (OpSolveStatic case)) (OpNodalDisp k case) = RVec v.
Proof. exact (m111_shifted_code ext c2 t2 ops ops' t t' l l' case d). Qed.
Print Assumptions C111_shifted.
Example C111_shifted_example : let w := final roof_ext init (roof_at roof 1 0 zero3 ++ [OpAssemble]) in let w' := final roof_ext init (roof_at roof 1 0 far ++ [OpAssemble]) in
  exists v, List.length v = 6%nat
  /\ answer roof_ext (after roof_ext w (OpSolveStatic "L")) (OpNodalDisp "C" "L") = RVec v
  /\ answer roof_ext (after roof_ext w' (OpSolveStatic "L")) (OpNodalDisp "C" "L") = RVec v.
Proof.
  intros w w'. pose proof (proj1 (ribs_straight zero3)) as H0. pose proof (proj1 (ribs_straight far)) as H1.
  destruct (roof_at_told roof roof_flat 1 0 zero3 U10 H0) as (t & l & m & sh & D & RO & HO & HL). destruct (roof_at_told roof roof_flat 1 0 far U10 H1) as (t' & l' & m' & sh' & D' & RO' & HO' & HL').
  pose proof RO as RH. unfold roofed_at in RH. rewrite !place_none in RH.
  exact (C111_shifted roof_ext gauss2 tri_mid _ _ t t' l l' "L" far eq_refl (roof_fresh _ _ _ _ _ _) (roof_fresh _ _ _ _ _ _) D D'
    (roof_alike _ _ _ _ _ 1 0 far _ _ _ _ _ _ RH HO RO' HO') (roof_same_case _ l l' HL HL') (roof_at_solved roof roof_flat 1 0 zero3 U10 H0) (roof_at_solved roof roof_flat 1 0 far U10 H1)
    (roof_at_stable roof roof_flat 1 0 zero3 U10 H0) "C" (roof_at_there roof roof_flat 1 0 zero3 U10 H0 "C" (or_intror (or_intror (or_introl eq_refl))))).
Qed.

(** C111. The same structure elsewhere, for other kernels: if there are no shells, or if the triangle's kernel
    does not see where it is, the same displacements. *)
Theorem C111_shifted_kernels ext ops ops' t t' l l' case d : never_readds_nodes ext ops -> never_readds_nodes ext ops' ->
  let w := final ext init (ops ++ [OpAssemble]) in let w' := final ext init (ops' ++ [OpAssemble]) in
  describes ext ops t l -> describes ext ops' t' l' -> alike 1 0 d t t' -> same_case l l' case ->
  (forall k, t_shell t k = None) \/ place_blind (x_ker ext) -> symmetric_elements ext w ->
  solved ext w case -> solved ext w' case -> stable ext w case ->
  forall k, answer ext w (OpNodeLocation k) <> RNone -> exists v, List.length v = 6%nat
  /\ answer ext (after ext w (OpSolveStatic case)) (OpNodalDisp k case) = RVec v
  /\ answer ext (after ext w' (OpSolveStatic case)) (OpNodalDisp k case) = RVec v.
Proof. exact (m111_shifted ext ops ops' t t' l l' case d). Qed.
Print Assumptions C111_shifted_kernels.
Example C111_shifted_kernels_example : let w := final bench init (bar_calls true p0 p1 slim ++ [OpAssemble]) in let w' := final bench init (bar_calls false r0 r1 slim ++ [OpAssemble]) in exists v, List.length v = 6%nat
  /\ answer bench (after bench w (OpSolveStatic "C")) (OpNodalDisp "B" "C") = RVec v
  /\ answer bench (after bench w' (OpSolveStatic "C")) (OpNodalDisp "B" "C") = RVec v.
Proof.
  destruct (bars_described bench true p0 p1 slim sep_p slim_nodup) as (t & l & D & H & HL).
  destruct (bars_described bench false r0 r1 slim sep_r slim_nodup) as (t' & l' & D' & H' & HL').
  rewrite axis_r in HL'.
  exact (C111_shifted_kernels bench (bar_calls true p0 p1 slim) (bar_calls false r0 r1 slim) t t' l l' "C" far (bar_told bench true p0 p1 slim) (bar_told bench false r0 r1 slim) D D'
    (bars_alike true false 1 0 far p0 p1 slim t t' H H') (bars_same_case _ l l' HL HL') (or_introl (fun k => eq_trans (told_shell _ t k H) eq_refl)) (bars_symmetric bench true p0 p1 slim sep_p slim_nodup) (solved_slim "C" (or_introl eq_refl) true) (solved_r false)
    (slim_stable true "C" _ eq_refl eq_refl) "B" (bars_there bench true p0 p1 slim sep_p slim_nodup "B" (or_intror eq_refl))).
Qed.

(** C111. The same structure turned about the vertical, if it has no steep members, no triangles and no level
    shells but membranes, and its supports hold all horizontal directions or none: the displacements turn with it. *)
Theorem C111_turned_partial ext ops ops' t t' l l' case c s d : never_readds_nodes ext ops -> never_readds_nodes ext ops' ->
  let w := final ext init (ops ++ [OpAssemble]) in let w' := final ext init (ops' ++ [OpAssemble]) in
  describes ext ops t l -> describes ext ops' t' l' -> c * c + s * s = 1 -> alike c s d t t' -> alike_case c s l l' case ->
  shells_turn (x_ker ext) t -> symmetric_elements ext w ->
  beams_not_steep t -> beams_not_steep t' -> round_supports ext w case ->
  solved ext w case -> solved ext w' case -> stable ext w case ->
  forall k, answer ext w (OpNodeLocation k) <> RNone -> exists v, List.length v = 6%nat
  /\ answer ext (after ext w (OpSolveStatic case)) (OpNodalDisp k case) = RVec v
  /\ answer ext (after ext w' (OpSolveStatic case)) (OpNodalDisp k case) = RVec (turn_six c s v).
Proof. exact (m111_turned ext ops ops' t t' l l' case c s d). Qed.
Print Assumptions C111_turned_partial.
Example C111_turned_partial_example : let w := final roof_ext init (roof_at roof 1 0 zero3 ++ [OpAssemble]) in let w' := final roof_ext init (roof_at roof (3/5) (4/5) far ++ [OpAssemble]) in
  exists v, List.length v = 6%nat
  /\ answer roof_ext (after roof_ext w (OpSolveStatic "L")) (OpNodalDisp "C" "L") = RVec v
  /\ answer roof_ext (after roof_ext w' (OpSolveStatic "L")) (OpNodalDisp "C" "L") = RVec (turn_six (3/5) (4/5) v).
Proof.
  intros w w'. pose proof (proj1 (ribs_straight zero3)) as H0. pose proof (proj1 (ribs_turned far)) as H1.
  destruct (roof_at_told roof roof_flat 1 0 zero3 U10 H0) as (t & l & m & sh & D & RO & HO & HL). destruct (roof_at_told roof roof_flat (3/5) (4/5) far U35 H1) as (t' & l' & m' & sh' & D' & RO' & HO' & HL').
  pose proof RO as RH. unfold roofed_at in RH. rewrite !place_none in RH. rewrite turn_home in HL.
  exact (C111_turned_partial roof_ext _ _ t t' l l' "L" (3/5) (4/5) far (roof_fresh _ _ _ _ _ _) (roof_fresh _ _ _ _ _ _) D D' U35
    (roof_alike _ _ _ _ _ (3/5) (4/5) far _ _ _ _ _ _ RH HO RO' HO') (roof_alike_case (3/5) (4/5) _ l l' HL HL') (roof_quads _ _ _ _ _ _ _ _ RH HO (or_introl sloping)) (roof_at_symmetric roof 1 0 zero3)
    (roof_at_not_steep roof 1 0 zero3 H0 m sh t RO HO) (roof_at_not_steep roof (3/5) (4/5) far H1 m' sh' t' RO' HO')
    (roof_at_round roof roof_flat 1 0 zero3 U10 H0) (roof_at_solved roof roof_flat 1 0 zero3 U10 H0) (roof_at_solved roof roof_flat (3/5) (4/5) far U35 H1)
    (roof_at_stable roof roof_flat 1 0 zero3 U10 H0) "C" (roof_at_there roof roof_flat 1 0 zero3 U10 H0 "C" (or_intror (or_intror (or_introl eq_refl))))).
Qed.
Example C111_turned_partial_level_example : let w := final roof_ext init (roof_at floor_slab 1 0 zero3 ++ [OpAssemble]) in let w' := final roof_ext init (roof_at floor_slab (3/5) (4/5) far ++ [OpAssemble]) in
  exists v, List.length v = 6%nat
  /\ answer roof_ext (after roof_ext w (OpSolveStatic "L")) (OpNodalDisp "C" "L") = RVec v
  /\ answer roof_ext (after roof_ext w' (OpSolveStatic "L")) (OpNodalDisp "C" "L") = RVec (turn_six (3/5) (4/5) v).
Proof.
  intros w w'. pose proof (proj2 (ribs_straight zero3)) as H0. pose proof (proj2 (ribs_turned far)) as H1.
  destruct (roof_at_told floor_slab floor_flat 1 0 zero3 U10 H0) as (t & l & m & sh & D & RO & HO & HL). destruct (roof_at_told floor_slab floor_flat (3/5) (4/5) far U35 H1) as (t' & l' & m' & sh' & D' & RO' & HO' & HL').
  pose proof RO as RH. unfold roofed_at in RH. rewrite !place_none in RH. rewrite turn_home in HL.
  exact (C111_turned_partial roof_ext _ _ t t' l l' "L" (3/5) (4/5) far (roof_fresh _ _ _ _ _ _) (roof_fresh _ _ _ _ _ _) D D' U35
    (roof_alike _ _ _ _ _ (3/5) (4/5) far _ _ _ _ _ _ RH HO RO' HO') (roof_alike_case (3/5) (4/5) _ l l' HL HL') (roof_quads _ _ _ _ _ _ _ _ RH HO (or_intror eq_refl)) (roof_at_symmetric floor_slab 1 0 zero3)
    (roof_at_not_steep floor_slab 1 0 zero3 H0 m sh t RO HO) (roof_at_not_steep floor_slab (3/5) (4/5) far H1 m' sh' t' RO' HO')
    (roof_at_round floor_slab floor_flat 1 0 zero3 U10 H0) (roof_at_solved floor_slab floor_flat 1 0 zero3 U10 H0) (roof_at_solved floor_slab floor_flat (3/5) (4/5) far U35 H1)
    (roof_at_stable floor_slab floor_flat 1 0 zero3 U10 H0) "C" (roof_at_there floor_slab floor_flat 1 0 zero3 U10 H0 "C" (or_intror (or_intror (or_introl eq_refl))))).
Qed.

(** C111. A quarter turn about the vertical changes the stiffness of a level plate, whose axes stay the global
    ones. *)
Theorem C111_level_refuted : exists p q u v s s', convex4 [vx p; vy p; vx q; vy q; vx u; vy u; vx v; vy v]
  /\ mk_quad "q" slim_sec (node_at "A" (vx p) (vy p) 0) (node_at "B" (vx q) (vy q) 0) (node_at "C" (vx u) (vy u) 0) (node_at "D" (vx v) (vy v) 0) = Some s
  /\ mk_quad "q" slim_sec (node_at "A" (- vy p) (vx p) 0) (node_at "B" (- vy q) (vx q) 0) (node_at "C" (- vy u) (vx u) 0) (node_at "D" (- vy v) (vx v) 0) = Some s'
  /\ cs_x (sh_csys s) = V3 1 0 0 /\ cs_y (sh_csys s) = V3 0 1 0 /\ cs_z (sh_csys s) = V3 0 0 1
  /\ cs_x (sh_csys s') = V3 1 0 0 /\ cs_y (sh_csys s') = V3 0 1 0 /\ cs_z (sh_csys s') = V3 0 0 1
  /\ shell_K (code_kernels gauss2 tri_mid) s' 2%nat 2%nat <> shell_K (code_kernels gauss2 tri_mid) s 2%nat 2%nat.
Proof. exact m111_level_refuted. Qed.
Print Assumptions C111_level_refuted.
Example C111_level_refuted_example : convex4 [-1; -2; 1; -2; 1; 2; -1; 2] /\ ~ not_level (V3 (-1) (-2) 0) (V3 1 (-2) 0) (V3 1 2 0).
Proof.
  split; [unfold convex4, SpecKernel.turn, at_x, at_y; cbn; lra|]. intros [H _].
  assert (C : unit3 (cross (vsub (V3 (-1) (-2) 0) (V3 1 (-2) 0)) (vsub (V3 1 (-2) 0) (V3 1 2 0))) = V3 0 0 1).
  { unfold unit3, cross, vsub. cbn [vx vy vz]. match goal with |- context [sqrt ?x] => replace x with (8 * 8) by ring end. rewrite sqrt_square by lra. apply vec3_eq; cbn [vscale vx vy vz]; field. }
  cbv zeta in H. rewrite C in H. unfold norm, dot3, vsub in H. cbn [vx vy vz] in H.
  replace ((0 - 0) * (0 - 0) + (0 - 0) * (0 - 0) + (1 - 1) * (1 - 1)) with 0 in H by ring. rewrite sqrt_0 in H. lra.
Qed.

(** C111. Half a turn about the vertical changes the sign of the whole stiffness of a standing triangle, though
    its axes turn with it. *)
Theorem C111_triangle_refuted : exists p q r s s', not_level p q r
  /\ mk_tria "t" unit_sec (node_at "A" (vx p) (vy p) (vz p)) (node_at "B" (vx q) (vy q) (vz q)) (node_at "C" (vx r) (vy r) (vz r)) = Some s
  /\ mk_tria "t" unit_sec (node_at "A" (- vx p) (- vy p) (vz p)) (node_at "B" (- vx q) (- vy q) (vz q)) (node_at "C" (- vx r) (- vy r) (vz r)) = Some s'
  /\ cs_x (sh_csys s') = turn_z (-1) 0 (cs_x (sh_csys s)) /\ cs_y (sh_csys s') = turn_z (-1) 0 (cs_y (sh_csys s)) /\ cs_z (sh_csys s') = turn_z (-1) 0 (cs_z (sh_csys s))
  /\ forall ker, shell_K ker s 0%nat 0%nat <> 0 /\ forall i j, shell_K ker s' i j = - shell_K ker s i j.
Proof. exact m111_triangle_refuted. Qed.
Print Assumptions C111_triangle_refuted.
Example C111_triangle_refuted_example : tria_area (V3 0 0 0) (V3 1 0 0) (V3 0 0 1) = - (1 / 2).
Proof. unfold tria_area, det3, dot3, ones, cross, vsub. cbn [vx vy vz]. lra. Qed.

(** C111. A column turned by a quarter together with its load does not move with the load. *)
Theorem C111_column_refuted : exists ext ops ops' t t' l l' k v v', never_readds_nodes ext ops /\ never_readds_nodes ext ops' /\
  let w := final ext init (ops ++ [OpAssemble]) in let w' := final ext init (ops' ++ [OpAssemble]) in
  describes ext ops t l /\ describes ext ops' t' l' /\ alike 0 1 zero3 t t' /\ alike_case 0 1 l l' "C" /\ (forall k, t_shell t k = None)
  /\ round_supports ext w "C" /\ solved ext w "C" /\ solved ext w' "C" /\ stable ext w "C"
  /\ answer ext (after ext w (OpSolveStatic "C")) (OpNodalDisp k "C") = RVec v
  /\ answer ext (after ext w' (OpSolveStatic "C")) (OpNodalDisp k "C") = RVec v'
  /\ v' <> turn_six 0 1 v.
Proof. exact m111_column_refuted. Qed.
Print Assumptions C111_column_refuted.
Example C111_column_refuted_example : turn_six 0 1 (list6 (1, 0, 0, 0, 0, 0)) = list6 (0, 1, 0, 0, 0, 0).
Proof. unfold turn_six, turn_z. cbn. repeat f_equal; ring. Qed.

(** C113. Every case of a stable elastic structure whose own table of supports names nodes and is empty or has
    a True is solved by a linear solver that is exact and answers whatever has one solution. *)
Theorem C113_solved ext ops c d : never_readds_nodes ext ops -> let w := final ext init (ops ++ [OpAssemble]) in
  exact_solver ext -> able_solver ext -> symmetric_elements ext w -> elastic ext w -> stable ext w c ->
  answer ext w (OpNodeRestraints (Some c)) = RFlags d -> names_nodes ext w (RFlags d) -> usable (RFlags d) ->
  answer ext w (OpSolveStatic c) = RBool true.
Proof. exact (m113_solved ext ops c d). Qed.
Print Assumptions C113_solved.
Example C113_solved_example : answer (eliminate_ext zero_ker) (final (eliminate_ext zero_ker) init (bar_calls true p0 p1 slim ++ [OpAssemble])) (OpSolveStatic "E") = RBool true.
Proof.
  apply (C113_solved (eliminate_ext zero_ker) (bar_calls true p0 p1 slim) "E" [] (bar_told _ true p0 p1 slim) (eliminate_exact _) (eliminate_able _)
    (bars_symmetric _ true p0 p1 slim sep_p slim_nodup) (bars_elastic _ true p0 p1 slim sep_p slim_nodup (fun k E H => Rlt_le _ _ (slim_pos k E H)))
    (bars_stable _ true p0 p1 slim sep_p slim_nodup "E" _ eq_refl eq_refl ltac:(discriminate) slim_pos)).
  - exact (bar_table _ true p0 p1 _ slim sep_p slim_nodup "E").
  - intros d k E I. injection E as <-. destruct I.
  - left. reflexivity.
Qed.

(** C113. So is every case of a structure of beams with positive constants all of whose nodes are connected
    with a clamped one. *)
Theorem C113_clamped ext ops c m d : never_readds_nodes ext ops -> let w := final ext init (ops ++ [OpAssemble]) in
  exact_solver ext -> able_solver ext -> assembled_model w = Some m -> f_shells m = [] ->
  (forall k b, In (k, b) (f_beams m) -> props_pos (b_prop b)) ->
  (forall k n, In (k, n) (f_nodes m) -> carried ext w c m k) ->
  answer ext w (OpNodeRestraints (Some c)) = RFlags d -> names_nodes ext w (RFlags d) -> usable (RFlags d) ->
  answer ext w (OpSolveStatic c) = RBool true.
Proof. exact (m113_clamped ext ops c m d). Qed.
Print Assumptions C113_clamped.
Example C113_clamped_example : answer (eliminate_ext zero_ker) (final (eliminate_ext zero_ker) init (bar_calls false q0 q1 paired ++ [OpAssemble])) (OpSolveStatic "C") = RBool true.
Proof.
  assert (PP : forall k E, In (k, E) paired -> 0 < E) by (intros k E [H|[H|[]]]; injection H as <- <-; lra).
  apply (C113_clamped (eliminate_ext zero_ker) (bar_calls false q0 q1 paired) "C" _ [] (bar_told _ false q0 q1 paired) (eliminate_exact _) (eliminate_able _)
    (bars_model _ false q0 q1 paired sep_q paired_nodup) eq_refl (bars_positive false q0 q1 paired PP)
    (fun k n => bars_carried _ false q0 q1 paired sep_q paired_nodup "C" _ k n eq_refl eq_refl ltac:(discriminate))).
  - exact (bar_table _ false q0 q1 _ paired sep_q paired_nodup "C").
  - intros d k E I. injection E as <-. destruct I.
  - left. reflexivity.
Qed.

(** C113. Without stability the answer is one of many: every permitted displacement free of strain can be added. *)
Theorem C113_unstable ext ops c x : never_readds_nodes ext ops -> let w := final ext init (ops ++ [OpAssemble]) in
  solved ext w c -> symmetric_elements ext w -> elastic ext w -> permitted ext w c x -> energy ext w x x = 0 ->
  permitted ext w c (fun q => solution ext w c q + x q) /\ balanced ext w c (fun q => solution ext w c q + x q).
Proof. exact (m113_unstable ext ops c x). Qed.
Print Assumptions C113_unstable.
Example C113_unstable_example : let w := final loose_ext init (loose_ops ++ [OpAssemble]) in equations w = 6%nat /\
  balanced loose_ext w "C" (fun q => solution loose_ext w "C" q + 1).
Proof.
  intros w. split; [destruct loose_model as (m & _ & _ & _ & E); exact E|].
  exact (proj2 (C113_unstable loose_ext loose_ops "C" (fun _ => 1) (loose_fresh _) loose_solved loose_symmetric loose_elastic
    (fun q _ H => False_ind _ (loose_free q H)) (loose_energy _))).
Qed.
