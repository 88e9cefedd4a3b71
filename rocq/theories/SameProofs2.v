(** Two histories that describe the same structure give the same answers (C110, C111): the theorem. *)
From Coq Require Import Reals Lra Lia List String Arith Bool ZArith Sorting.Permutation.
From Verif Require Import Base BaseFacts Csys Sections Element Load FeModel Assembly Solver Post Api
  SpecApi ApiFacts WfFacts HidFacts ApiProofs1 ApiProofs2 LoadFacts SpecElim ElimFacts SpecGeom CsysFacts SpecBeam BeamFacts AsmFacts SpecAsm AsmProofs
  AsmTotal AsmProofs2 SpecLoad LoadProofs AsmProofs3 SpecSolve AsmSolve SpecMass MassProofs ShellFacts SpecStatics StaticsProofs StaticsProofs2
  SpecTold ToldProofs SpecToldLoad ToldLoadProofs SpecPost PostProofs SpecSame SameProofs.
Import ListNotations.
Local Open Scope R_scope.

Lemma energy_named ext ops w m K x y : w = final ext init ops -> assembled_model w = Some m -> stiffness ext w = Some K ->
  energy ext w x y = lsum (map (beam_work m x y) (dvals (f_beams m))) + lsum (map (shell_work (x_ker ext) m x y) (dvals (f_shells m))).
Proof. intros Hw Hm HK. rewrite (energy_form ext w m K x y Hm HK). apply (c21_energy ext ops w m K x y Hw Hm HK). Qed.

Lemma work_named ext ops w m f c x : w = final ext init ops -> assembled_model w = Some m -> load_vector w c = Some f ->
  work_of w (load_at w c) x = lsum (map (fun fp => fst fp * pattern_power m (snd fp) x) (applied w c)).
Proof.
  intros Hw Hm HF. destruct (load_inv ext ops w m c f Hw Hm HF) as (_ & R & E). rewrite <- E, <- (bil_quad (size m) 1 f x one0 R).
  unfold work_of, equations, load_at. rewrite Hm, HF. apply rsum_ext. intros q _. cbn [rsum]. unfold one0, delta. cbn. ring.
Qed.

(** ** The loads of a case *)
Lemma like_applied m m' heap heap' lc lc' k l l' X X' : case_ok heap k lc -> case_ok heap' k lc' -> holds_order lc l -> holds_order lc' l' ->
  (forall p, match o_uses l p, o_uses l' p with
                 | Some (i, f), Some (i', f') => f = f' /\ forall P P', nth_error heap i = Some P -> nth_error heap' i' = Some P' ->
                     pattern_power m' P' X' = pattern_power m P X
                 | None, None => True
                 | _, _ => False end) ->
  lsum (map (fun fp => fst fp * pattern_power m' (snd fp) X') (applied_in heap' lc'))
  = lsum (map (fun fp => fst fp * pattern_power m (snd fp) X) (applied_in heap lc)).
Proof.
  intros CO CO' (_ & HP & HF & _) (_ & HP' & HF' & _) AL.
  assert (DE : forall h0 (l0 : order) (c0 : lcase), case_ok h0 k c0 -> (forall k, dget k (c_pats c0) = option_map fst (o_uses l0 k)) ->
     forall q i f, o_uses l0 q = Some (i, f) -> exists p, deref h0 c0 q = Some p /\ nth_error h0 i = Some p).
  { intros h0 l0 c0 C0 E q i f Q. specialize (E q). rewrite Q in E. cbn in E.
    destruct (co_pat _ _ _ C0 q i (dget_some_in _ _ _ E)) as (p & Hp & _). exists p. split; [|exact Hp]. unfold deref. rewrite E. exact Hp. }
  set (g := fun q => match deref heap lc q with Some p => pattern_power m p X | None => 0 end).
  set (g' := fun q => match deref heap' lc' q with Some p => pattern_power m' p X' | None => 0 end).
  rewrite <- (lsum_applied heap lc g (fun p => pattern_power m p X)).
  2:{ intros q Hq. apply dget_in_keys in Hq as [v Hq]. rewrite HF in Hq. destruct (o_uses l q) as [[i f]|] eqn:Q; [|discriminate].
      destruct (DE heap l lc CO HP q i f Q) as (p & D & _). exists p. split; [exact D|]. unfold g. rewrite D. reflexivity. }
  rewrite <- (lsum_applied heap' lc' g' (fun p => pattern_power m' p X')).
  2:{ intros q Hq. apply dget_in_keys in Hq as [v Hq]. rewrite HF' in Hq. destruct (o_uses l' q) as [[i f]|] eqn:Q; [|discriminate].
      destruct (DE heap' l' lc' CO' HP' q i f Q) as (p & D & _). exists p. split; [exact D|]. unfold g'. rewrite D. reflexivity. }
  symmetry. apply lsum_keyed; [apply (co_nodup _ _ _ CO)|apply (co_nodup _ _ _ CO')|].
  intros q. rewrite HF, HF'. specialize (AL q). destruct (o_uses l q) as [[i f]|] eqn:Q, (o_uses l' q) as [[i' f']|] eqn:Q'; try contradiction; [|exact I].
  destruct AL as [<- AL]. cbn [option_map snd fst]. f_equal. unfold g, g'.
  destruct (DE heap l lc CO HP q i f Q) as (p & -> & Np). destruct (DE heap' l' lc' CO' HP' q i' f Q') as (p' & -> & Np').
  symmetry. apply (AL _ _ Np Np').
Qed.
Lemma twin_applied c s d m m' heap heap' lc lc' k l l' x : c * c + s * s = 1 -> good m -> good m' -> twin c s d m m' -> tilted c s d m ->
  case_ok heap k lc -> case_ok heap' k lc' ->
  holds_order lc l -> holds_order lc' l' -> (forall i p, nth_error heap i = Some p -> holds_sheet p (fst x i)) -> 
  (forall i p, nth_error heap' i = Some p -> holds_sheet p (snd x i)) ->
  (forall p, match o_uses l p, o_uses l' p with
                 | Some (i, f), Some (i', f') => f = f' /\ alike_sheet c s (fst x i) (snd x i')
                 | None, None => True
                 | _, _ => False end) ->
  forall z, lsum (map (fun fp => fst fp * pattern_power m' (snd fp) (spread m' (turned_by c s z))) (applied_in heap' lc'))
  = lsum (map (fun fp => fst fp * pattern_power m (snd fp) (spread m z)) (applied_in heap lc)).
Proof.
  intros U G G' TW TI CO CO' HO HO' HS HS' AL z. apply (like_applied m m' heap heap' lc lc' k l l' _ _ CO CO' HO HO').
  intros q. specialize (AL q). destruct (o_uses l q) as [[i f]|] eqn:Q, (o_uses l' q) as [[i' f']|] eqn:Q'; try contradiction; [|exact I].
  destruct AL as [<- [A1 A2 A3]]. split; [reflexivity|]. intros p p' Np Np'.
  destruct (HS _ _ Np) as (S1 & S2 & S3). destruct (HS' _ _ Np') as (S1' & S2' & S3').
  apply (twin_power c s d m m' U G G' TW TI).
  - intros k0. rewrite S1, S1', A1. destruct (s_node _ k0); reflexivity.
  - intros k0. rewrite S2, S2', A2. reflexivity.
  - intros k0. rewrite S3, S3', A3. reflexivity.
Qed.

(** ** Supports *)
Lemma permitted_named ext ops c m x : never_readds_nodes ext (ops ++ [OpAssemble]) -> let w := final ext init (ops ++ [OpAssemble]) in
  assembled_model w = Some m ->
  permitted ext w c (spread m x) <-> forall k j, In k (dkeys (f_nodes m)) -> (j < 6)%nat -> flag (governing ext w c) k j = true -> x k j = 0.
Proof.
  intros NR w Hm. destruct (assembled_now ext ops NR) as (_ & a & Ha & Em & _ & _ & _ & _ & G & _). fold w in Ha, Em, G.
  assert (E : m = a_model a) by (unfold assembled_model in Hm; rewrite Ha in Hm; apply some_inj in Hm; auto). rewrite <- Em in G. rewrite <- E in *.
  assert (NN : answer ext w OpNodeNames = RNames (dkeys (f_nodes m))) by (rewrite Em; reflexivity).
  unfold permitted, equations. rewrite Hm. split.
  - intros P k j Hk Hj F. rewrite <- (spread_at m x k j G Hk Hj). apply P.
    + pose proof (key_num _ _ G Hk) as N. assert (NB : (num m k < List.length (dkeys (f_nodes m)))%nat) by (apply nth_error_Some; congruence).
      unfold dkeys in NB. rewrite map_length in NB. unfold size. lia.
    + unfold restrained_for. rewrite NN. exists (dkeys (f_nodes m)), k, (num m k), j. repeat split; auto. apply key_num; assumption.
  - intros P q Hq (l & k & i & j & El & Hi & Hj & Eq & F). rewrite NN in El. injection El as <-. subst q.
    pose proof (num_key _ _ _ G Hi) as N. rewrite <- N. apply nth_error_In in Hi. rewrite (spread_at m x k j G Hi Hj). apply P; auto.
Qed.

Lemma nil_dget {A} (d : dict A) : (forall k, dget k d = None) -> d = [].
Proof. intros H. destruct d as [|[k v] d]; [reflexivity|]. specialize (H k). cbn in H. rewrite String.eqb_refl in H. discriminate. Qed.

Lemma governing_told ext ops w a lc m c : never_readds_nodes ext (ops ++ [OpAssemble]) -> w = final ext init (ops ++ [OpAssemble]) ->
  read_asb w = Some a -> assembled_model w = Some m -> dget c (a_cases a) = Some lc ->
  governing ext w c = match c_rest lc with [] => RFlags (f_rest m) | _ => RFlags (c_rest lc) end.
Proof.
  intros NR Hw Ha Hm HC. destruct (assembled_now ext ops NR) as (_ & a' & Ha' & Em & _ & Ec & _). rewrite <- Hw in Ha', Em, Ec.
  rewrite Ha in Ha'. apply some_inj in Ha'. subst a'.
  assert (E : m = a_model a) by (unfold assembled_model in Hm; rewrite Ha in Hm; apply some_inj in Hm; auto).
  unfold governing, answer. cbn [step snd]. rewrite Ec in HC. rewrite HC. cbn [bindO ret snd]. rewrite <- Em, <- E.
  destruct (c_rest lc); reflexivity.
Qed.
Lemma flags_told rest rest' g g' k j : (forall k, dget k rest' = dget k rest) -> (forall k, dget k g' = dget k g) ->
  flag (match rest' with [] => RFlags g' | _ => RFlags rest' end) k j = flag (match rest with [] => RFlags g | _ => RFlags rest end) k j.
Proof.
  intros HR HG. destruct rest as [|kv rest].
  - rewrite (nil_dget rest') by (intros; rewrite HR; reflexivity). unfold flag, entry. rewrite !lookup_dget, HG. reflexivity.
  - destruct rest' as [|kv' rest'].
    + exfalso. enough (kv :: rest = []) by discriminate. apply nil_dget. intros k0. rewrite <- HR. reflexivity.
    + unfold flag, entry. rewrite !lookup_dget, HR. reflexivity.
Qed.

Lemma expand_length : forall n i l x d, expand i n l x = Some d -> List.length d = n.
Proof.
  induction n as [|n IH]; intros i l x d H; cbn [expand] in H; [apply some_inj in H; subst d; reflexivity|].
  assert (K : forall i l x v, bindO (expand i n l x) (fun d => Some (v :: d)) = Some d -> List.length d = S n).
  { intros i0 l0 x0 v E. apply bindO_some in E as (d0 & E & F). apply some_inj in F. subst d. cbn. f_equal. eapply IH, E. }
  destruct l as [|r l]; [destruct x; [discriminate|eauto]|]. destruct (Nat.eqb i r); [eauto|]. destruct x; [discriminate|eauto].
Qed.
Lemma solved_length ext a c d : solve_linear ext a c = Some d -> List.length d = size (a_model a).
Proof.
  unfold solve_linear. intros H. apply bindO_some in H as ([[N A] b] & _ & H). apply bindO_some in H as (dl & _ & H). apply bindO_some in H as (rs & _ & H).
  apply expand_length in H. rewrite H. unfold size, node_count. lia.
Qed.

(** The stored displacements of a node, as answered. *)
Lemma answered ext ops c m k : never_readds_nodes ext (ops ++ [OpAssemble]) -> let w := final ext init (ops ++ [OpAssemble]) in
  answer ext w (OpSolveStatic c) = RBool true -> assembled_model w = Some m -> In k (dkeys (f_nodes m)) ->
  answer ext (after ext w (OpSolveStatic c)) (OpNodalDisp k c)
  = RVec (map (fun j => named m (solution ext w c) k j) (seq 0 6)).
Proof.
  intros NR w HA Hm Hk. destruct (solve_inv ext ops c NR HA) as (a & d & Ha & HS & HD & G). fold w in Ha, HD.
  assert (E : m = a_model a) by (unfold assembled_model in Hm; rewrite Ha in Hm; apply some_inj in Hm; auto). subst m.
  pose proof (solved_length _ _ _ _ HS) as LD. pose proof (key_num _ _ G Hk) as KN.
  assert (N2 : never_readds_nodes ext ((ops ++ [OpAssemble]) ++ [OpSolveStatic c])).
  { unfold never_readds_nodes in *. apply guarded_app. split; [exact NR|]. cbn. split; exact I. }
  pose proof (c42_block ext _ k (num (a_model a) k) c a d N2) as B. cbn zeta in B.
  rewrite final_app, final_cons, final_nil in B. fold w in B.
  rewrite (read_asb_step ext w (OpSolveStatic c)) in B by discriminate.
  destruct (B Ha HD KN) as (v & -> & LV & NV). f_equal.
  assert (NB : (num (a_model a) k < List.length (f_nodes (a_model a)))%nat).
  { rewrite <- (map_length fst). apply nth_error_Some. unfold dkeys in KN. congruence. }
  assert (LV6 : List.length v = 6%nat).
  { apply Nat.le_antisymm; [exact LV|]. apply Nat.nlt_ge. intros L. specialize (NV 5%nat ltac:(lia)).
    assert (nth_error v 5 = None) by (apply nth_error_None; lia). rewrite H in NV. symmetry in NV. apply nth_error_None in NV. unfold size in LD. lia. }
  unfold named, solution, stored. rewrite HD. apply (nth_ext _ _ 0 0); [rewrite LV6; reflexivity|].
  intros j Hj. rewrite LV6 in Hj. specialize (NV j Hj).
  assert (nth j v 0 = nth (6 * num (a_model a) k + j) d 0) as ->.
  { rewrite <- (nth_default_eq j v 0), <- (nth_default_eq _ d 0). unfold nth_default. rewrite NV. reflexivity. }
  destruct j as [|[|[|[|[|[|]]]]]]; [reflexivity..|lia].
Qed.

(** ** The theorem *)
Section Same.
Variables (ext : externals) (ops ops' : list op) (c s : R) (d : vec3) (case : string).
Hypothesis U : c * c + s * s = 1.
Hypothesis NR : never_readds_nodes ext (ops ++ [OpAssemble]).
Hypothesis NR' : never_readds_nodes ext (ops' ++ [OpAssemble]).
Let w := final ext init (ops ++ [OpAssemble]).
Let w' := final ext init (ops' ++ [OpAssemble]).
Variables (t t' : told) (l l' : loads).
Hypothesis HT : built (notes (trace ext init (ops ++ [OpAssemble]))) = Some t.
Hypothesis HT' : built (notes (trace ext init (ops' ++ [OpAssemble]))) = Some t'.
Hypothesis HL : l_built (load_notes (trace ext init (ops ++ [OpAssemble]))) = Some l.
Hypothesis HL' : l_built (load_notes (trace ext init (ops' ++ [OpAssemble]))) = Some l'.
Hypothesis AT : alike c s d t t'.
Hypothesis AC : alike_case c s l l' case.
Hypothesis SV : solved ext w case.
Hypothesis SV' : solved ext w' case.
Hypothesis ST : stable ext w case.
Hypothesis SY : symmetric_elements ext w.
Hypothesis SH : (c = 1 /\ s = 0 /\ (d = zero3 \/ place_blind (x_ker ext))) \/ shells_turn (x_ker ext) t.
Hypothesis TU : (c = 1 /\ s = 0) \/ (beams_not_steep t /\ beams_not_steep t' /\ round_supports ext w case).

Lemma same_answers k : answer ext w (OpNodeLocation k) <> RNone -> exists v, List.length v = 6%nat
  /\ answer ext (after ext w (OpSolveStatic case)) (OpNodalDisp k case) = RVec v
  /\ answer ext (after ext w' (OpSolveStatic case)) (OpNodalDisp k case) = RVec (turn_six c s v).
Proof.
  intros HK. 
  destruct (assembled_now ext ops NR) as (_ & a & Ha & Em & Eh & Ec & Wc & _ & G & _). fold w in Ha, Em, Eh, Ec, G, Wc.
  destruct (assembled_now ext ops' NR') as (_ & a' & Ha' & Em' & Eh' & Ec' & Wc' & _ & G' & _). fold w' in Ha', Em', Eh', Ec', G', Wc'.
  rewrite <- Em in G. rewrite <- Em' in G'. set (m := a_model a) in *. set (m' := a_model a') in *.
  assert (Hm : assembled_model w = Some m) by (unfold assembled_model; rewrite Ha; reflexivity).
  assert (Hm' : assembled_model w' = Some m') by (unfold assembled_model; rewrite Ha'; reflexivity).
  destruct (c78_built ext _ m Hm) as (t0 & T0 & HO). rewrite HT in T0. apply some_inj in T0. subst t0.
  destruct (c78_built ext _ m' Hm') as (t0 & T0 & HO'). rewrite HT' in T0. apply some_inj in T0. subst t0.
  destruct (c79_built ext _ a Ha) as (l0 & T0 & _ & HSH & HCS). rewrite HL in T0. apply some_inj in T0. subst l0.
  destruct (c79_built ext _ a' Ha') as (l0 & T0 & _ & HSH' & HCS'). rewrite HL' in T0. apply some_inj in T0. subst l0.
  pose proof (twin_told c s d m m' t t' HO HO' AT) as TW.
  assert (TI : tilted c s d m).
  { intros k0 b Hb. destruct TU as [Z|(N1 & N2 & _)]; [left; exact Z|right].
    destruct G as (FW & _ & EC & _). destruct (EC _ _ Hb) as [(n1 & D1 & L1) (n2 & D2 & L2)].
    destruct HO as (ON & _ & _ & _ & _ & OB & _). destruct HO' as (ON' & _ & _ & _ & _ & OB' & _).
    pose proof (in_dget_nodup _ _ _ (wf_beam_nodup _ FW) Hb) as GB.
    pose proof (OB k0) as B1. rewrite GB in B1. cbn in B1. symmetry in B1.
    pose proof B1 as B2. rewrite <- (al_beam _ _ _ _ _ AT) in B2.
    pose proof (ON (n_name (b_ni b))) as P1. rewrite D1 in P1. pose proof (ON (n_name (b_nj b))) as P2. rewrite D2 in P2. cbn in P1, P2.
    split.
    - apply (N1 _ _ _ _ B1); [rewrite <- P1|rewrite <- P2]; cbn; congruence.
    - apply (N2 _ _ _ _ B2); rewrite (al_node _ _ _ _ _ AT); [rewrite <- P1|rewrite <- P2]; cbn; congruence. }
  assert (SE : shells_follow c s d m (x_ker ext)).
  { destruct HO as (ON & _ & _ & _ & _ & _ & OS). intros k0 sh Hk. destruct SH as [CS|ST0]; [left; left; exact CS|].
      pose proof (in_dget_nodup _ _ _ (wf_shell_nodup _ (proj1 G)) Hk) as GS. pose proof (OS k0) as B1. rewrite GS in B1. cbn in B1. symmetry in B1.
      destruct (ST0 _ _ _ B1) as (LN & [NL|[TY DB]]); rewrite map_length in LN; [left; right|right; split; [exact LN|split; [exact TY|exact DB]]].
      assert (CU : forall n, In n (sh_nodes sh) -> option_map fst (t_node t (n_name n)) = Some (n_loc n)).
      { intros n In0. destruct (proj2 (proj2 (proj2 G)) _ _ _ Hk In0) as (n0 & D0 & L0). pose proof (ON (n_name n)) as P0. rewrite D0 in P0. cbn in P0.
        rewrite <- P0. cbn. congruence. }
      destruct (sh_nodes sh) as [|n1 [|n2 [|n3 [|n4 [|]]]]] eqn:EN; try discriminate. exists n1, n2, n3, n4. split; [reflexivity|].
      apply (NL (n_loc n1) (n_loc n2) (n_loc n3) [Some (n_loc n4)]). cbn [map]. rewrite !CU by (cbn; tauto). reflexivity. }
  destruct (solved_all ext ops NR case SV) as (m1 & K & f & Hm1 & HKK & HF). fold w in Hm1, HKK, HF. rewrite Hm in Hm1. apply some_inj in Hm1. subst m1.
  destruct (solved_all ext ops' NR' case SV') as (m1 & K' & f' & Hm1 & HKK' & HF'). fold w' in Hm1, HKK', HF'. rewrite Hm' in Hm1. apply some_inj in Hm1. subst m1.
  assert (SY' : symmetric_elements ext w').
  { intros m1 E. rewrite Hm' in E. apply some_inj in E. subst m1. destruct (SY m Hm) as [Z|Z]; [left|right; exact Z].
    apply nil_dget. intros k0. pose proof (bt_shell _ _ _ _ _ (tw_base _ _ _ _ _ TW) k0) as X. rewrite Z in X. destruct (dget k0 (f_shells m')); [discriminate|reflexivity]. }
  (* energy and work by names *)
  assert (EN : forall x y, energy ext w' (spread m' (turned_by c s x)) (spread m' (turned_by c s y)) = energy ext w (spread m x) (spread m y)).
  { intros x y. rewrite (energy_named ext _ w m K _ _ eq_refl Hm HKK), (energy_named ext _ w' m' K' _ _ eq_refl Hm' HKK').
    rewrite (twin_beams c s d m m' U G G' TW TI), (twin_shells c s d m m' U G G' TW (x_ker ext) x y SE). reflexivity. }
  unfold alike_case in AC. pose proof (HCS case) as C1. pose proof (HCS' case) as C1'.
  destruct (l_case l case) as [o|]; [|contradiction]. destruct (l_case l' case) as [o'|]; [|contradiction]. destruct AC as [AU AR].
  destruct (dget case (a_cases a)) as [lc|] eqn:Elc; [|contradiction]. destruct (dget case (a_cases a')) as [lc'|] eqn:Elc'; [|contradiction].
  assert (CO : case_ok (a_heap a) case lc) by (rewrite Eh; apply (cw_cases _ Wc); apply dget_some_in; rewrite <- Ec; exact Elc).
  assert (CO' : case_ok (a_heap a') case lc') by (rewrite Eh'; apply (cw_cases _ Wc'); apply dget_some_in; rewrite <- Ec'; exact Elc').
  assert (WK : forall x, work_of w' (load_at w' case) (spread m' (turned_by c s x)) = work_of w (load_at w case) (spread m x)).
  { intros x. rewrite (work_named ext _ w m f case _ eq_refl Hm HF), (work_named ext _ w' m' f' case _ eq_refl Hm' HF').
    unfold applied. rewrite Ha, Ha', Elc, Elc'.
    apply (twin_applied c s d m m' (a_heap a) (a_heap a') lc lc' case o o' (l_sheet l, l_sheet l') U G G' TW TI CO CO' C1 C1'); cbn [fst snd]; assumption. }
  (* supports *)
  assert (FL : forall k j, flag (governing ext w' case) k j = flag (governing ext w case) k j).
  { intros k0 j. rewrite (governing_told ext ops w a lc m case NR eq_refl Ha Hm Elc), (governing_told ext ops' w' a' lc' m' case NR' eq_refl Ha' Hm' Elc').
    apply flags_told.
    - intros k1. destruct C1 as (_ & _ & _ & ->). destruct C1' as (_ & _ & _ & ->). rewrite AR. reflexivity.
    - intros k1. destruct HO as (_ & -> & _). destruct HO' as (_ & -> & _). apply (al_rest _ _ _ _ _ AT). }
  set (NP := fun x : string -> nat -> R => forall k j, In k (dkeys (f_nodes m)) -> (j < 6)%nat -> flag (governing ext w case) k j = true -> x k j = 0).
  assert (TN : forall s0 x, (s = 0 -> s0 = 0) -> NP x -> NP (turned_by c s0 x)).
  { intros s0 x Hs P1 k0 j Hk Hj F. unfold turned_by, turn_six, turn_z. cbn [nth vx vy vz].
    destruct TU as [[-> Z]|(_ & _ & RS)].
    - rewrite (Hs Z). pose proof (P1 k0 j Hk Hj F) as X. destruct j as [|[|[|[|[|[|]]]]]]; cbn [nth]; try lra; lia.
    - destruct (RS k0) as [R1 R2]. fold w in R1, R2.
      destruct j as [|[|[|[|[|[|]]]]]]; cbn [nth]; [..|lia].
      + rewrite (P1 k0 0%nat), (P1 k0 1%nat) by (auto; try lia; congruence). ring.
      + rewrite (P1 k0 0%nat), (P1 k0 1%nat) by (auto; try lia; congruence). ring.
      + apply (P1 k0 2%nat); auto.
      + rewrite (P1 k0 3%nat), (P1 k0 4%nat) by (auto; try lia; congruence). ring.
      + rewrite (P1 k0 3%nat), (P1 k0 4%nat) by (auto; try lia; congruence). ring.
      + apply (P1 k0 5%nat); auto. }
  assert (PN : forall x, permitted ext w case (spread m x) <-> NP x) by (intros x; apply (permitted_named ext ops case m x NR Hm)).
  assert (PN' : forall x, permitted ext w' case (spread m' x) <-> NP x).
  { intros x. unfold w'. rewrite (permitted_named ext ops' case m' x NR' Hm'). fold w'. unfold NP.
    split; intros P k0 j Hk; [rewrite <- FL|rewrite FL]; apply P; apply (twin_keys c s d m m' TW); exact Hk. }
  destruct (solved_facts ext ops NR case SV SY) as [PU BU]. fold w in PU, BU.
  destruct (solved_facts ext ops' NR' case SV' SY') as [PU' BU']. fold w' in PU', BU'.
  set (u := solution ext w case) in *. set (u' := solution ext w' case) in *.
  set (x' := named m' u'). set (y := turned_by c (- s) x').
  assert (RG : forall q, (q < equations w)%nat -> spread m (named m u) q = u q).
  { intros q Hq. apply spread_named; [exact G|]. unfold equations in Hq. rewrite Hm in Hq. exact Hq. }
  assert (RG' : forall q, (q < equations w')%nat -> spread m' (turned_by c s y) q = u' q).
  { intros q Hq. unfold equations in Hq. rewrite Hm' in Hq. rewrite <- (spread_named m' u' q G' Hq). unfold spread.
    destruct (nth_error _ _) as [k0|]; [|reflexivity]. apply turn_back; [exact U|]. apply Nat.mod_upper_bound. discriminate. }
  assert (NU : NP (named m u)).
  { apply PN. intros q Hq Rq. rewrite (RG q Hq). apply PU; assumption. }
  assert (NY : NP y).
  { apply TN; [intros ->; ring|]. apply PN'. intros q Hq Rq. unfold x'. rewrite spread_named; [apply PU'; assumption|exact G'|].
    unfold equations in Hq. rewrite Hm' in Hq. exact Hq. }
  set (e := fun k j => named m u k j - y k j).
  assert (NE : NP e) by (intros k0 j Hk Hj F; unfold e; rewrite (NU k0 j Hk Hj F), (NY k0 j Hk Hj F); ring).
  assert (SE0 : forall q, spread m e q = spread m (named m u) q - spread m y q).
  { intros q. unfold spread, e. destruct (nth_error _ _); ring. }
  assert (W1 : energy ext w (spread m e) (spread m (named m u)) = work_of w (load_at w case) (spread m e)).
  { pose proof (balanced_work ext ops NR case u (spread m e) (proj2 (PN e) NE) BU) as BW. fold w in BW. rewrite <- BW.
    unfold energy. apply work_ext. intros q Hq. f_equal. unfold holding. apply rsum_ext. intros p Hp. rewrite (RG p Hp). reflexivity. }
  assert (W2 : energy ext w (spread m e) (spread m y) = work_of w (load_at w case) (spread m e)).
  { rewrite <- EN, <- WK.
    pose proof (balanced_work ext ops' NR' case u' _ (proj2 (PN' _) (TN s e (fun z => z) NE)) BU') as BW. fold w' in BW. rewrite <- BW.
    unfold energy. apply work_ext. intros q Hq. f_equal. unfold holding. apply rsum_ext. intros p Hp. rewrite (RG' p Hp). reflexivity. }
  assert (Z : energy ext w (spread m e) (spread m e) = 0).
  { transitivity (energy ext w (spread m e) (fun q => spread m (named m u) q - spread m y q)).
    - unfold energy. apply work_ext. intros q Hq. f_equal. unfold holding. apply rsum_ext. intros p Hp. rewrite SE0. reflexivity.
    - rewrite energy_sub_r, W1, W2. ring. }
  pose proof (ST (spread m e) (proj2 (PN e) NE) Z) as ZE.
  assert (KIN : In k (dkeys (f_nodes m))).
  { apply dget_in_keys. unfold answer in HK. cbn [step snd] in HK. unfold model_node_location in HK. fold w in Em. rewrite <- Em in HK.
    fold m in HK. destruct (dget k (f_nodes m)) as [n|]; [eauto|]. exfalso. apply HK. reflexivity. }
  assert (QE : forall j, (j < 6)%nat -> named m u k j = y k j).
  { intros j Hj. pose proof (ZE (6 * num m k + j)%nat) as X. rewrite (spread_at m e k j G KIN Hj) in X. unfold e in X. 
    enough (named m u k j - y k j = 0) by lra. apply X. unfold equations. rewrite Hm.
    pose proof (key_num _ _ G KIN) as N. assert (NB : (num m k < List.length (dkeys (f_nodes m)))%nat) by (apply nth_error_Some; congruence).
    unfold dkeys in NB. rewrite map_length in NB. unfold size. lia. }
  exists (map (fun j => named m u k j) (seq 0 6)). split; [reflexivity|]. split; [apply (answered ext ops case m k NR (sv_true _ _ _ SV) Hm KIN)|].
  unfold w'. rewrite (answered ext ops' case m' k NR' (sv_true _ _ _ SV') Hm') by (apply (twin_keys c s d m m' TW), KIN).
  fold w'. fold u'. f_equal.
  assert (XE : forall j, (j < 6)%nat -> x' k j = turned_by c s (named m u) k j).
  { intros j Hj. rewrite <- (turn_back c s x' k j U Hj). fold y. unfold turned_by. rewrite !QE by lia. reflexivity. }
  unfold x' in XE. cbn [seq map]. rewrite !XE by lia. reflexivity.
Qed.
End Same.
