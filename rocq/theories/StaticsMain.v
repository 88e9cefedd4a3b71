(** The statements about static answers as a whole, with all their conditions. *)
From Coq Require Import Reals Lra Lia List String Arith Bool ZArith Sorting.Permutation.
From Verif Require Import Base BaseFacts Csys Sections Element Load FeModel Assembly Kernels Solver Post Api
  SpecApi ApiFacts SpecElim SpecGeom CsysFacts SpecBeam SpecAsm AsmProofs SpecLoad SpecSolve SpecKernel SpecTold SpecToldLoad SpecStatics StaticsProofs StaticsProofs2
  SpecSame SameProofs SameProofs2 StifferProofs ToldProofs.
Import ListNotations.
Local Open Scope R_scope.

Lemma told_guard ext ops : never_readds_nodes ext ops -> never_readds_nodes ext (ops ++ [OpAssemble]).
Proof. intros H. apply guarded_app. split; [exact H|]. cbn. auto. Qed.

Lemma m106_minimum ext ops c x : never_readds_nodes ext ops -> let w := final ext init (ops ++ [OpAssemble]) in
  solved ext w c -> symmetric_elements ext w -> elastic ext w -> permitted ext w c x ->
  permitted ext w c (solution ext w c) /\ potential ext w c (solution ext w c) <= potential ext w c x.
Proof.
  intros NR w S SY EL P. split; [exact (proj1 (solved_facts ext ops (told_guard _ _ NR) c S SY))|].
  exact (c106_minimum ext ops (told_guard _ _ NR) c x S SY EL P).
Qed.
Lemma m106_balanced ext ops c : never_readds_nodes ext ops -> let w := final ext init (ops ++ [OpAssemble]) in
  solved ext w c -> symmetric_elements ext w -> permitted ext w c (solution ext w c) /\ balanced ext w c (solution ext w c).
Proof. intros NR w S SY. exact (solved_facts ext ops (told_guard _ _ NR) c S SY). Qed.
Lemma m106_unique ext ops c x : never_readds_nodes ext ops -> let w := final ext init (ops ++ [OpAssemble]) in
  solved ext w c -> symmetric_elements ext w -> stable ext w c -> permitted ext w c x -> balanced ext w c x ->
  forall q, (q < equations w)%nat -> x q = solution ext w c q.
Proof. intros NR. exact (c106_unique ext ops (told_guard _ _ NR) c x). Qed.
Lemma m106_superpose ext ops a b c ka kb : never_readds_nodes ext ops -> let w := final ext init (ops ++ [OpAssemble]) in
  solved ext w a -> solved ext w b -> solved ext w c -> symmetric_elements ext w ->
  same_supports ext w a c -> same_supports ext w b c -> stable ext w c ->
  Permutation (applied w c) (times ka (applied w a) ++ times kb (applied w b)) ->
  forall q, (q < equations w)%nat -> solution ext w c q = ka * solution ext w a q + kb * solution ext w b q.
Proof. intros NR. exact (c106_superpose ext ops (told_guard _ _ NR) a b c ka kb). Qed.
Lemma m106_reciprocal ext ops a b : never_readds_nodes ext ops -> let w := final ext init (ops ++ [OpAssemble]) in
  solved ext w a -> solved ext w b -> symmetric_elements ext w -> same_supports ext w a b ->
  work_of w (load_at w a) (solution ext w b) = work_of w (load_at w b) (solution ext w a).
Proof. intros NR. exact (c106_reciprocal ext ops (told_guard _ _ NR) a b). Qed.
Lemma m106_clapeyron ext ops c : never_readds_nodes ext ops -> let w := final ext init (ops ++ [OpAssemble]) in
  solved ext w c -> symmetric_elements ext w ->
  work_of w (load_at w c) (solution ext w c) = energy ext w (solution ext w c) (solution ext w c).
Proof. intros NR. exact (c106_clapeyron ext ops (told_guard _ _ NR) c). Qed.

Lemma m107_clamped ext ops c m : never_readds_nodes ext ops -> let w := final ext init (ops ++ [OpAssemble]) in
  assembled_model w = Some m -> stiffness ext w <> None ->
  (forall k b, In (k, b) (f_beams m) -> props_pos (b_prop b)) ->
  f_shells m = [] \/ psd_kernels (x_ker ext) /\ (forall k s, In (k, s) (f_shells m) -> shell_admissible s) ->
  (forall k n, In (k, n) (f_nodes m) -> carried ext w c m k) -> stable ext w c.
Proof. intros NR. exact (c107_clamped ext ops (told_guard _ _ NR) c m). Qed.

Lemma m108_reactions ext ops c m : never_readds_nodes ext ops -> let w := final ext init (ops ++ [OpAssemble]) in
  solved ext w c -> assembled_model w = Some m -> f_shells m = [] ->
  (forall q, (q < equations w)%nat -> ~ restrained_for ext w c q -> reaction ext w c q = 0)
  /\ vadd (resultant_force m (reaction ext w c)) (vsum (map (fun fp => vscale (fst fp) (pattern_force m (snd fp))) (applied w c))) = zero3
  /\ vadd (resultant_moment m (reaction ext w c)) (vsum (map (fun fp => vscale (fst fp) (pattern_moment m (snd fp))) (applied w c))) = zero3.
Proof. intros NR. exact (c108_reactions ext ops (told_guard _ _ NR) c m). Qed.
Lemma m108_shells ext ops c m c2 t2 : never_readds_nodes ext ops -> let w := final ext init (ops ++ [OpAssemble]) in
  solved ext w c -> assembled_model w = Some m -> x_ker ext = code_kernels c2 t2 -> inside_square c2 ->
  (forall k s, In (k, s) (f_shells m) -> proper_shape s) ->
  (forall q, (q < equations w)%nat -> ~ restrained_for ext w c q -> reaction ext w c q = 0)
  /\ vadd (resultant_force m (reaction ext w c)) (vsum (map (fun fp => vscale (fst fp) (pattern_force m (snd fp))) (applied w c))) = zero3
  /\ forall r, (forall k s, In (k, s) (f_shells m) -> unturned r s) ->
     dot3 r (vadd (resultant_moment m (reaction ext w c)) (vsum (map (fun fp => vscale (fst fp) (pattern_moment m (snd fp))) (applied w c)))) = 0.
Proof. intros NR. exact (c108_shells ext ops (told_guard _ _ NR) c m c2 t2). Qed.

Lemma m109_supports ext ops a b : never_readds_nodes ext ops -> let w := final ext init (ops ++ [OpAssemble]) in
  solved ext w a -> solved ext w b -> symmetric_elements ext w -> elastic ext w ->
  (forall q, restrained_for ext w a q -> restrained_for ext w b q) -> Permutation (applied w a) (applied w b) ->
  work_of w (load_at w b) (solution ext w b) <= work_of w (load_at w a) (solution ext w a).
Proof. intros NR. exact (c109_supports ext ops (told_guard _ _ NR) a b). Qed.

Lemma m109_told ext ops ops' t t' l l' case : never_readds_nodes ext ops -> never_readds_nodes ext ops' ->
  let w := final ext init (ops ++ [OpAssemble]) in let w' := final ext init (ops' ++ [OpAssemble]) in
  describes ext ops t l -> describes ext ops' t' l' ->
  stiffer t t' -> unloaded_extras t t' l case -> same_loads l l' case ->
  (forall k j, flag (governing ext w case) k j = true -> flag (governing ext w' case) k j = true) ->
  solved ext w case -> solved ext w' case -> symmetric_elements ext w -> elastic ext w ->
  work_of w' (load_at w' case) (solution ext w' case) <= work_of w (load_at w case) (solution ext w case).
Proof.
  intros NR NR' w w' [T L] [T' L'] ST UL SL FL SV SV' SY EL.
  exact (stiffer_work ext ops ops' case (told_guard _ _ NR) (told_guard _ _ NR') t t' l l' T T' L L' ST UL SL FL SV SV' SY EL).
Qed.

Lemma told_no_shells ext ops t : built (notes (trace ext init (ops ++ [OpAssemble]))) = Some t ->
  (forall k, t_shell t k = None) -> symmetric_elements ext (final ext init (ops ++ [OpAssemble])).
Proof.
  intros T N m Hm. left. destruct (c78_built ext _ m Hm) as (t0 & T0 & HO). rewrite T in T0. apply some_inj in T0. subst t0.
  apply nil_dget. intros k. destruct HO as (_ & _ & _ & _ & _ & _ & S). specialize (S k). rewrite N in S. destruct (dget k (f_shells m)); [discriminate|reflexivity].
Qed.

(** Where the structure is, and when and in which order its parts were told. *)
Lemma same_alike t t' : same_structure t t' -> alike 1 0 zero3 t t'.
Proof.
  intros [N R0 B S]. constructor; auto. intros k. rewrite N. destruct (t_node t k) as [[v m]|]; [|reflexivity]. cbn [option_map fst]. f_equal.
  apply vec3_eq; cbn; ring.
Qed.
Lemma turn_none v : List.length v = 6%nat -> turn_six 1 0 v = v.
Proof.
  intros H. do 6 (destruct v as [|? v]; [discriminate|]). destruct v; [|discriminate]. unfold turn_six, turn_z. cbn [nth vx vy vz].
  repeat f_equal; ring.
Qed.
Lemma same_alike_case l l' case : same_case l l' case -> alike_case 1 0 l l' case.
Proof.
  unfold same_case, alike_case. destruct (l_case l case) as [o|], (l_case l' case) as [o'|]; try tauto. intros [H R0]. split; [|exact R0].
  intros p. specialize (H p). destruct (o_uses o p) as [[i f]|], (o_uses o' p) as [[i' f']|]; try tauto. destruct H as [-> [A B C]].
  split; [reflexivity|]. constructor; auto. intros k. rewrite A. destruct (s_node (l_sheet l i) k) as [[[[[[a1 a2] a3] a4] a5] a6]|]; [|reflexivity].
  cbn [option_map]. f_equal. symmetry. apply turn_none. reflexivity.
Qed.

Lemma m110_told ext ops ops' t t' l l' case : never_readds_nodes ext ops -> never_readds_nodes ext ops' ->
  let w := final ext init (ops ++ [OpAssemble]) in let w' := final ext init (ops' ++ [OpAssemble]) in
  describes ext ops t l -> describes ext ops' t' l' -> same_structure t t' -> same_case l l' case ->
  solved ext w case -> solved ext w' case -> stable ext w case -> symmetric_elements ext w ->
  forall k, answer ext w (OpNodeLocation k) <> RNone -> exists v, List.length v = 6%nat
  /\ answer ext (after ext w (OpSolveStatic case)) (OpNodalDisp k case) = RVec v
  /\ answer ext (after ext w' (OpSolveStatic case)) (OpNodalDisp k case) = RVec v.
Proof.
  intros NR NR' w w' [T L] [T' L'] SS SC SV SV' ST SY k HK.
  destruct (same_answers ext ops ops' 1 0 zero3 case ltac:(ring) (told_guard _ _ NR) (told_guard _ _ NR') t t' l l' T T' L L'
    (same_alike _ _ SS) (same_alike_case _ _ _ SC) SV SV' ST SY (or_introl (conj eq_refl (conj eq_refl (or_introl eq_refl)))) (or_introl (conj eq_refl eq_refl)) k HK)
    as (v & Lv & A & A').
  exists v. split; [exact Lv|]. split; [exact A|]. rewrite turn_none in A' by exact Lv. exact A'.
Qed.

Lemma no_told_shell t : (forall k, t_shell t k = None) -> forall k ns sec, t_shell t k = Some (ns, sec) -> False.
Proof. intros H k ns sec E. rewrite H in E. discriminate. Qed.
Lemma m111_shifted ext ops ops' t t' l l' case d : never_readds_nodes ext ops -> never_readds_nodes ext ops' ->
  let w := final ext init (ops ++ [OpAssemble]) in let w' := final ext init (ops' ++ [OpAssemble]) in
  describes ext ops t l -> describes ext ops' t' l' -> alike 1 0 d t t' -> same_case l l' case ->
  (forall k, t_shell t k = None) \/ place_blind (x_ker ext) -> symmetric_elements ext w ->
  solved ext w case -> solved ext w' case -> stable ext w case ->
  forall k, answer ext w (OpNodeLocation k) <> RNone -> exists v, List.length v = 6%nat
  /\ answer ext (after ext w (OpSolveStatic case)) (OpNodalDisp k case) = RVec v
  /\ answer ext (after ext w' (OpSolveStatic case)) (OpNodalDisp k case) = RVec v.
Proof.
  intros NR NR' w w' [T L] [T' L'] SS SC NS SY SV SV' ST k HK.
  destruct (same_answers ext ops ops' 1 0 d case ltac:(ring) (told_guard _ _ NR) (told_guard _ _ NR') t t' l l' T T' L L'
    SS (same_alike_case _ _ _ SC) SV SV' ST SY (match NS with or_introl n => or_intror (fun k0 ns sec H => False_ind _ (no_told_shell t n k0 ns sec H)) | or_intror n => or_introl (conj eq_refl (conj eq_refl (or_intror n))) end) (or_introl (conj eq_refl eq_refl)) k HK)
    as (v & Lv & A & A').
  exists v. split; [exact Lv|]. split; [exact A|]. rewrite turn_none in A' by exact Lv. exact A'.
Qed.
Lemma m111_turned ext ops ops' t t' l l' case c s d : never_readds_nodes ext ops -> never_readds_nodes ext ops' ->
  let w := final ext init (ops ++ [OpAssemble]) in let w' := final ext init (ops' ++ [OpAssemble]) in
  describes ext ops t l -> describes ext ops' t' l' -> c * c + s * s = 1 -> alike c s d t t' -> alike_case c s l l' case ->
  shells_turn (x_ker ext) t -> symmetric_elements ext w ->
  beams_not_steep t -> beams_not_steep t' -> round_supports ext w case ->
  solved ext w case -> solved ext w' case -> stable ext w case ->
  forall k, answer ext w (OpNodeLocation k) <> RNone -> exists v, List.length v = 6%nat
  /\ answer ext (after ext w (OpSolveStatic case)) (OpNodalDisp k case) = RVec v
  /\ answer ext (after ext w' (OpSolveStatic case)) (OpNodalDisp k case) = RVec (turn_six c s v).
Proof.
  intros NR NR' w w' [T L] [T' L'] U SS SC NL SY B B' RS SV SV' ST k HK.
  exact (same_answers ext ops ops' c s d case U (told_guard _ _ NR) (told_guard _ _ NR') t t' l l' T T' L L'
    SS SC SV SV' ST SY (or_intror NL) (or_intror (conj B (conj B' RS))) k HK).
Qed.
