(** Parts of a structure that are not connected do not affect each other (C130): the theorems. *)
From Coq Require Import Reals Lra Lia List String Arith Bool ZArith Sorting.Permutation FunctionalExtensionality.
From Verif Require Import Base BaseFacts Csys Sections Element Load FeModel Assembly Solver Post Api
  SpecApi ApiFacts WfFacts HidFacts ApiProofs1 ApiProofs2 LoadFacts SpecElim ElimFacts SpecGeom CsysFacts SpecBeam BeamFacts MemberLoads AsmFacts SpecAsm AsmProofs
  AsmTotal AsmProofs2 SpecLoad LoadProofs AsmProofs3 SpecSolve AsmSolve SpecMass MassProofs ShellFacts SpecStatics StaticsProofs StaticsProofs2
  SpecTold ToldProofs SpecToldLoad ToldLoadProofs SpecPost PostProofs SpecSame SameProofs SameProofs2 StifferProofs StaticsMain SpecCut CutFacts CutProofs CutProofs2 SpecPart PartProofs.
Import ListNotations.
Local Open Scope R_scope.

Lemma part_applied m m' heap heap' lc lc' k l l' X X' : case_ok heap k lc -> case_ok heap' k lc' -> holds_order lc l -> holds_order lc' l' ->
  (forall p, match o_uses l p, o_uses l' p with
                 | Some (i, f), Some (i', f') => forall P P', nth_error heap i = Some P -> nth_error heap' i' = Some P' ->
                     f' * pattern_power m' P' X' = f * pattern_power m P X
                 | Some (i, f), None => forall P, nth_error heap i = Some P -> pattern_power m P X = 0
                 | None, Some (i', f') => forall P', nth_error heap' i' = Some P' -> pattern_power m' P' X' = 0
                 | None, None => True end) ->
  lsum (map (fun fp => fst fp * pattern_power m' (snd fp) X') (applied_in heap' lc'))
  = lsum (map (fun fp => fst fp * pattern_power m (snd fp) X) (applied_in heap lc)).
Proof.
  intros CO CO' (_ & HP & HF & _) (_ & HP' & HF' & _) AL.
  assert (DE : forall h0 (l0 : order) (c0 : lcase), case_ok h0 k c0 -> (forall k, dget k (c_pats c0) = option_map fst (o_uses l0 k)) ->
     forall q i f, o_uses l0 q = Some (i, f) -> exists p, deref h0 c0 q = Some p /\ nth_error h0 i = Some p).
  { intros h0 l0 c0 C0 E q i f Q. specialize (E q). rewrite Q in E. cbn in E.
    destruct (co_pat _ _ _ C0 q i (dget_some_in _ _ _ E)) as (p & Hp & _). exists p. split; [|exact Hp]. unfold deref. rewrite E. exact Hp. }
  set (g := fun q => match deref heap lc q with Some p => pattern_power m p X | None => 0 end).
  set (g' := fun q => match deref heap' lc' q with Some p => pattern_power m' p X' | None => 0 end).
  rewrite <- (lsum_applied heap lc g (fun p => pattern_power m p X)).
  2:{ intros q Hq. apply dget_in_keys in Hq as [v Hq]. rewrite HF in Hq. destruct (o_uses l q) as [[i f]|] eqn:Q; [|discriminate].
      destruct (DE heap l lc CO HP q i f Q) as (p & D & _). exists p. split; [exact D|]. unfold g. rewrite D. reflexivity. }
  rewrite <- (lsum_applied heap' lc' g' (fun p => pattern_power m' p X')).
  2:{ intros q Hq. apply dget_in_keys in Hq as [v Hq]. rewrite HF' in Hq. destruct (o_uses l' q) as [[i f]|] eqn:Q; [|discriminate].
      destruct (DE heap' l' lc' CO' HP' q i f Q) as (p & D & _). exists p. split; [exact D|]. unfold g'. rewrite D. reflexivity. }
  symmetry. apply lsum_keyed_part; [apply (co_nodup _ _ _ CO)|apply (co_nodup _ _ _ CO')|].
  intros q. rewrite HF, HF'. specialize (AL q). destruct (o_uses l q) as [[i f]|] eqn:Q, (o_uses l' q) as [[i' f']|] eqn:Q'; cbn [option_map snd fst]; [| | |reflexivity].
  - unfold g, g'. destruct (DE heap l lc CO HP q i f Q) as (p & -> & Np). destruct (DE heap' l' lc' CO' HP' q i' f' Q') as (p' & -> & Np').
    symmetry. apply (AL _ _ Np Np').
  - unfold g. destruct (DE heap l lc CO HP q i f Q) as (p & -> & Np). rewrite (AL _ Np). ring.
  - unfold g'. destruct (DE heap' l' lc' CO' HP' q i' f' Q') as (p' & -> & Np'). rewrite (AL _ Np'). ring.
Qed.

Definition only (part : string -> bool) (x : string -> nat -> R) (k : string) (j : nat) : R := if part k then x k j else 0.
Lemma only_within part x : within part (only part x).
Proof. intros k j E. unfold only. rewrite E. reflexivity. Qed.

Section Part.
Variables (ext : externals) (ops : list op) (case : string) (part : string -> bool).
Hypothesis NR : never_readds_nodes ext (ops ++ [OpAssemble]).
Let w := final ext init (ops ++ [OpAssemble]).
Variables (t : told) (l : loads).
Hypothesis D : describes ext ops t l.
Hypothesis AP : apart part t.

(** A displacement field of the part that is balanced against the fields of the part is the answer. *)
Lemma part_unique m y : assembled_model w = Some m -> solved ext w case -> stable ext w case -> symmetric_elements ext w ->
  (forall k j, In k (dkeys (f_nodes m)) -> (j < 6)%nat -> part k = true -> flag (governing ext w case) k j = true -> y k j = 0) ->
  (forall x, within part x -> permitted ext w case (spread m x) -> energy ext w (spread m x) (spread m y) = work_of w (load_at w case) (spread m x)) ->
  forall i, In i (dkeys (f_nodes m)) -> part i = true ->
  answer ext (after ext w (OpSolveStatic case)) (OpNodalDisp i case) = RVec (map (fun j => y i j) (seq 0 6)).
Proof.
  intros Hm SV ST SY PY BY i KIN PI.
  destruct (assembled_now ext ops NR) as (_ & A & Ha & Em & _ & _ & _ & _ & G & _). fold w in Ha, Em, G.
  assert (EA0 : m = a_model A) by (unfold assembled_model in Hm; rewrite Ha in Hm; apply some_inj in Hm; auto). rewrite <- Em, <- EA0 in G.
  destruct (solved_all ext ops NR case SV) as (m1 & K & f & Hm1 & HK & HF). fold w in Hm1, HK, HF. clear m1 Hm1.
  destruct D as [HT _]. destruct (c78_built ext _ m Hm) as (t0 & T0 & HO). rewrite HT in T0. apply some_inj in T0. subst t0.
  pose proof (share_self part m t HO AP) as SS.
  assert (PN : forall x, permitted ext w case (spread m x) <-> forall k j, In k (dkeys (f_nodes m)) -> (j < 6)%nat -> flag (governing ext w case) k j = true -> x k j = 0)
    by (intros x; apply (permitted_named ext ops case m x NR Hm)).
  destruct (solved_facts ext ops NR case SV SY) as [PU BU]. fold w in PU, BU. set (u := solution ext w case) in *.
  assert (RG : forall q, (q < equations w)%nat -> spread m (named m u) q = u q).
  { intros q Hq. apply spread_named; [exact G|]. unfold equations in Hq. rewrite Hm in Hq. exact Hq. }
  assert (NU : forall k j, In k (dkeys (f_nodes m)) -> (j < 6)%nat -> flag (governing ext w case) k j = true -> named m u k j = 0).
  { apply PN. intros q Hq Rq. rewrite (RG q Hq). apply PU; assumption. }
  set (e0 := fun i j => named m u i j - y i j). set (e := only part e0).
  assert (WE : within part e) by apply only_within.
  assert (NE : permitted ext w case (spread m e)).
  { apply PN. intros k j Hk Hj F. unfold e, only. destruct (part k) eqn:P; [|reflexivity]. unfold e0. rewrite (NU k j Hk Hj F), (PY k j Hk Hj P F). ring. }
  assert (W1 : energy ext w (spread m e) (spread m (named m u)) = work_of w (load_at w case) (spread m e)).
  { pose proof (balanced_work ext ops NR case u (spread m e) NE BU) as BW. fold w in BW. rewrite <- BW. apply energy_ext; auto. }
  pose proof (BY e WE NE) as W2.
  assert (Z : energy ext w (spread m e) (spread m e) = 0).
  { transitivity (energy ext w (spread m e) (spread m e0)).
    - rewrite !(energy_named ext _ w m K _ _ eq_refl Hm HK). f_equal.
      + apply (share_beams part m m G G SS SS); [exact WE|]. intros k j P. unfold e, only. rewrite P. reflexivity.
      + apply (share_shells part m m G G SS SS); [exact WE|]. intros k j P. unfold e, only. rewrite P. reflexivity.
    - transitivity (energy ext w (spread m e) (fun q => spread m (named m u) q - spread m y q)).
      + apply energy_ext; [auto|]. intros q _. unfold spread, e0. destruct (nth_error _ _); ring.
      + rewrite energy_sub_r, W1, W2. ring. }
  pose proof (ST (spread m e) NE Z) as ZE.
  unfold w. rewrite (answered ext ops case m i NR (sv_true _ _ _ SV) Hm KIN). fold w. fold u. f_equal.
  apply map_ext_in. intros j Hj. apply in_seq in Hj.
  pose proof (ZE (6 * num m i + j)%nat) as X. rewrite (spread_at m e i j G KIN) in X by lia. unfold e, only in X. rewrite PI in X. unfold e0 in X.
  enough (named m u i j - y i j = 0) by lra. apply X. unfold equations. rewrite Hm.
  pose proof (key_num _ _ G KIN) as N. assert (NB : (num m i < List.length (dkeys (f_nodes m)))%nat) by (apply nth_error_Some; congruence).
  unfold dkeys in NB. rewrite map_length in NB. unfold size. lia.
Qed.

Lemma node_there m i : assembled_model w = Some m -> answer ext w (OpNodeLocation i) <> RNone -> In i (dkeys (f_nodes m)).
Proof.
  intros Hm HI. destruct (assembled_now ext ops NR) as (_ & A & Ha & Em & _). fold w in Ha, Em.
  assert (EA0 : m = a_model A) by (unfold assembled_model in Hm; rewrite Ha in Hm; apply some_inj in Hm; auto).
  apply dget_in_keys. unfold answer in HI. cbn [step snd] in HI. unfold model_node_location in HI. rewrite <- Em, <- EA0 in HI.
  destruct (dget i (f_nodes m)) as [n0|]; [eauto|]. exfalso. apply HI. reflexivity.
Qed.

(** ** A part without load stays where it is *)
Lemma c130_idle : idle_case part t l case -> solved ext w case -> stable ext w case -> symmetric_elements ext w ->
  forall i, answer ext w (OpNodeLocation i) <> RNone -> part i = true ->
  answer ext (after ext w (OpSolveStatic case)) (OpNodalDisp i case) = RVec [0; 0; 0; 0; 0; 0].
Proof.
  intros ID SV ST SY i HI PI.
  destruct (assembled_now ext ops NR) as (_ & A & Ha & Em & Eh & Ec & Wc & _ & G & _). fold w in Ha, Em, Eh, Ec, G, Wc.
  rewrite <- Em in G. set (m := a_model A) in *.
  assert (Hm : assembled_model w = Some m) by (unfold assembled_model; rewrite Ha; reflexivity).
  destruct (solved_all ext ops NR case SV) as (m1 & K & f & Hm1 & HK & HF). fold w in Hm1, HK, HF. clear m1 Hm1.
  destruct D as [HT HL]. destruct (c78_built ext _ m Hm) as (t0 & T0 & HO). rewrite HT in T0. apply some_inj in T0. subst t0.
  destruct (c79_built ext _ A Ha) as (l0 & T0 & _ & HSH & HCS). rewrite HL in T0. apply some_inj in T0. subst l0.
  apply (part_unique m (fun _ _ => 0) Hm SV ST SY); [auto| |apply (node_there m i Hm HI)|exact PI].
  intros x W PX. transitivity 0.
  - transitivity (energy ext w (spread m x) (fun q => spread m x q - spread m x q)).
    + apply energy_ext; [auto|]. intros q _. unfold spread. destruct (nth_error _ _); ring.
    + rewrite energy_sub_r. ring.
  - symmetry. rewrite (work_named ext _ w m f case _ eq_refl Hm HF). unfold applied. rewrite Ha.
    pose proof (HCS case) as C1. destruct (dget case (a_cases A)) as [lc|] eqn:Elc; [|reflexivity].
    destruct (l_case l case) as [o|] eqn:Lc; [|contradiction].
    assert (CO : case_ok (a_heap A) case lc) by (rewrite Eh; apply (cw_cases _ Wc); apply dget_some_in; rewrite <- Ec; exact Elc).
    pose proof (part_applied m m (a_heap A) (a_heap A) lc lc case o o (spread m (fun _ _ => 0)) (spread m x) CO CO C1 C1) as Q.
    assert (Z : forall p, lsum (map (fun fp : R * pattern => fst fp * pattern_power m (snd fp) (spread m (fun _ _ => 0))) p) = 0).
    { assert (IP : forall p, pattern_power m p (spread m (fun _ _ => 0)) = 0).
      { intros p. unfold pattern_power. transitivity (0 + 0); [f_equal|ring].
        - transitivity (lsum (map (fun _ : string => 0) (dkeys (f_nodes m)))).
          + apply lsum_map_ext. intros k Hk. apply (node_still (fun _ => false) m p (fun _ _ => 0) k G); [intros ? ? _; reflexivity|reflexivity|exact Hk].
          + induction (dkeys (f_nodes m)) as [|k d IH]; [reflexivity|]. cbn. rewrite IH. ring.
        - transitivity (lsum (map (fun _ : string * beam => 0) (f_beams m))).
          + apply lsum_map_ext. intros [k b] Hb. apply (load_still (fun _ => false) m p k b (fun _ _ => 0) G Hb); [intros ? ? _; reflexivity|reflexivity|reflexivity].
          + induction (f_beams m) as [|k d IH]; [reflexivity|]. cbn. rewrite IH. ring. }
      intros p. induction p as [|fp p IH]; [reflexivity|]. cbn [map lsum]. rewrite IH, IP. ring. }
    rewrite Z in Q. apply Q. intros p. destruct (o_uses o p) as [[n fa]|] eqn:U; [|exact I]. intros P P' NP NP'.
    rewrite NP in NP'. apply some_inj in NP'. subst P'.
    rewrite (idle_power part m t P _ x G HO AP (HSH _ _ NP) W (ID o p n fa Lc U)).
    rewrite (idle_power part m t P _ (fun _ _ => 0) G HO AP (HSH _ _ NP) (fun _ _ _ => eq_refl) (ID o p n fa Lc U)). ring.
Qed.

(** ** Two structures that agree about the part *)
Variable ops' : list op.
Hypothesis NR' : never_readds_nodes ext (ops' ++ [OpAssemble]).
Let w' := final ext init (ops' ++ [OpAssemble]).
Variables (t' : told) (l' : loads).
Hypothesis D' : describes ext ops' t' l'.
Hypothesis AP' : apart part t'.
Hypothesis SP : same_part part t t'.
Hypothesis PC : part_case part t l l' case.
Hypothesis SH : same_held part ext w w' case.

Lemma c130_same : solved ext w case -> solved ext w' case -> stable ext w case -> symmetric_elements ext w -> symmetric_elements ext w' ->
  forall i, answer ext w (OpNodeLocation i) <> RNone -> part i = true -> exists v, List.length v = 6%nat
  /\ answer ext (after ext w (OpSolveStatic case)) (OpNodalDisp i case) = RVec v
  /\ answer ext (after ext w' (OpSolveStatic case)) (OpNodalDisp i case) = RVec v.
Proof.
  intros SV SV' ST SY SY' i HI PI.
  destruct (assembled_now ext ops NR) as (_ & A & Ha & Em & Eh & Ec & Wc & _ & G & _). fold w in Ha, Em, Eh, Ec, G, Wc.
  destruct (assembled_now ext ops' NR') as (_ & A' & Ha' & Em' & Eh' & Ec' & Wc' & _ & G' & _). fold w' in Ha', Em', Eh', Ec', G', Wc'.
  rewrite <- Em in G. rewrite <- Em' in G'. set (m := a_model A) in *. set (m' := a_model A') in *.
  assert (Hm : assembled_model w = Some m) by (unfold assembled_model; rewrite Ha; reflexivity).
  assert (Hm' : assembled_model w' = Some m') by (unfold assembled_model; rewrite Ha'; reflexivity).
  destruct D as [HT HL]. destruct D' as [HT' HL'].
  destruct (c78_built ext _ m Hm) as (t0 & T0 & HO). rewrite HT in T0. apply some_inj in T0. subst t0.
  destruct (c78_built ext _ m' Hm') as (t0 & T0 & HO'). rewrite HT' in T0. apply some_inj in T0. subst t0.
  destruct (c79_built ext _ A Ha) as (l0 & T0 & _ & HSH & HCS). rewrite HL in T0. apply some_inj in T0. subst l0.
  destruct (c79_built ext _ A' Ha') as (l0 & T0 & _ & HSH' & HCS'). rewrite HL' in T0. apply some_inj in T0. subst l0.
  destruct (solved_all ext ops NR case SV) as (m1 & K & f & Hm1 & HK & HF). fold w in Hm1, HK, HF. clear m1 Hm1.
  destruct (solved_all ext ops' NR' case SV') as (m1 & K' & f' & Hm1 & HK' & HF'). fold w' in Hm1, HK', HF'. clear m1 Hm1.
  assert (SP' : same_part part t' t).
  { destruct SP as [S1 S2 S3]. split; intros; symmetry; auto. }
  pose proof (share_told part m m' t t' HO HO' AP SP) as SS. pose proof (share_told part m' m t' t HO' HO AP' SP') as SS'.
  assert (KIN : In i (dkeys (f_nodes m))) by (apply node_there; assumption).
  assert (KEY : forall k, part k = true -> In k (dkeys (f_nodes m)) -> In k (dkeys (f_nodes m'))).
  { intros k P. rewrite !dget_in_keys. intros [v E]. pose proof (sh_place _ _ _ SS k P) as L. rewrite E in L. destruct (dget k (f_nodes m')); [eauto|discriminate]. }
  assert (KEY' : forall k, part k = true -> In k (dkeys (f_nodes m')) -> In k (dkeys (f_nodes m))).
  { intros k P. rewrite !dget_in_keys. intros [v E]. pose proof (sh_place _ _ _ SS k P) as L. rewrite E in L. destruct (dget k (f_nodes m)); [eauto|discriminate]. }
  destruct (solved_facts ext ops' NR' case SV' SY') as [PU' BU']. fold w' in PU', BU'. set (u' := solution ext w' case) in *.
  set (y := named m' u').
  assert (RG' : forall q, (q < equations w')%nat -> spread m' y q = u' q).
  { intros q Hq. apply spread_named; [exact G'|]. unfold equations in Hq. rewrite Hm' in Hq. exact Hq. }
  assert (PN : forall x, permitted ext w case (spread m x) <-> forall k j, In k (dkeys (f_nodes m)) -> (j < 6)%nat -> flag (governing ext w case) k j = true -> x k j = 0)
    by (intros x; apply (permitted_named ext ops case m x NR Hm)).
  assert (PN' : forall x, permitted ext w' case (spread m' x) <-> forall k j, In k (dkeys (f_nodes m')) -> (j < 6)%nat -> flag (governing ext w' case) k j = true -> x k j = 0)
    by (intros x; apply (permitted_named ext ops' case m' x NR' Hm')).
  assert (NY : forall k j, In k (dkeys (f_nodes m')) -> (j < 6)%nat -> flag (governing ext w' case) k j = true -> y k j = 0).
  { apply PN'. intros q Hq Rq. rewrite (RG' q Hq). apply PU'; assumption. }
  exists (map (fun j => y i j) (seq 0 6)). split; [reflexivity|]. split.
  - apply (part_unique m y Hm SV ST SY); [| |exact KIN|exact PI].
    + intros k j Hk Hj P F. apply (NY k j (KEY k P Hk) Hj). rewrite SH by exact P. exact F.
    + intros x W PX.
      assert (PX' : permitted ext w' case (spread m' x)).
      { apply PN'. intros k j Hk Hj F. destruct (part k) eqn:P; [|apply W, P]. rewrite SH in F by exact P. apply (proj1 (PN x) PX k j (KEY' k P Hk) Hj F). }
      transitivity (energy ext w' (spread m' x) (spread m' y)).
      { rewrite (energy_named ext _ w m K _ _ eq_refl Hm HK), (energy_named ext _ w' m' K' _ _ eq_refl Hm' HK'). symmetry. f_equal.
        - apply (share_beams part m m' G G' SS SS'); [exact W|intros ? ? _; reflexivity].
        - apply (share_shells part m m' G G' SS SS'); [exact W|intros ? ? _; reflexivity]. }
      transitivity (work_of w' (load_at w' case) (spread m' x)).
      { pose proof (balanced_work ext ops' NR' case u' _ PX' BU') as BW. fold w' in BW. rewrite <- BW. apply energy_ext; auto. }
      rewrite (work_named ext _ w m f case _ eq_refl Hm HF), (work_named ext _ w' m' f' case _ eq_refl Hm' HF').
      unfold applied. rewrite Ha, Ha'. pose proof PC as CC. unfold part_case in CC.
      pose proof (HCS case) as C1. pose proof (HCS' case) as C1'.
      destruct (l_case l case) as [o|] eqn:Lc; [|contradiction]. destruct (l_case l' case) as [o'|] eqn:Lc'; [|contradiction].
      destruct (dget case (a_cases A)) as [lc|] eqn:Elc; [|contradiction]. destruct (dget case (a_cases A')) as [lc'|] eqn:Elc'; [|contradiction].
      assert (CO : case_ok (a_heap A) case lc) by (rewrite Eh; apply (cw_cases _ Wc); apply dget_some_in; rewrite <- Ec; exact Elc).
      assert (CO' : case_ok (a_heap A') case lc') by (rewrite Eh'; apply (cw_cases _ Wc'); apply dget_some_in; rewrite <- Ec'; exact Elc').
      assert (ID' : forall s, idle part t s -> idle part t' s).
      { intros s [I1 I2]. split; [exact I1|]. intros k Hk. apply I2. rewrite <- (sp_beam _ _ _ SP k). exact Hk. }
      apply (part_applied m m' (a_heap A) (a_heap A') lc lc' case o o' _ _ CO CO' C1 C1').
      intros q. specialize (CC q). destruct (o_uses o q) as [[n fa]|] eqn:U1, (o_uses o' q) as [[n' fa']|] eqn:U2; [| | |exact I].
      * intros p p' Np Np'. destruct CC as [[<- [N1 N2]]|[I1 I2]].
        -- f_equal. destruct (HSH _ _ Np) as (S1 & S2 & S3). destruct (HSH' _ _ Np') as (S1' & S2' & S3').
           apply (share_power part m m' G G' SS SS' p p' x W).
           ++ intros k P. rewrite S1, S1', (N1 k P). reflexivity.
           ++ intros k b E P. destruct (N2 k) as [Q1 Q2].
              { unfold beam_of. destruct HO as (_ & _ & _ & _ & _ & B & _). rewrite <- B, E. cbn [option_map]. rewrite P. discriminate. }
              rewrite S2, S2', S3, S3', Q1, Q2. auto.
        -- rewrite (idle_power part m t p _ x G HO AP (HSH _ _ Np) W I1), (idle_power part m' t' p' _ x G' HO' AP' (HSH' _ _ Np') W (ID' _ I2)). ring.
      * intros p Np. apply (idle_power part m t p _ x G HO AP (HSH _ _ Np) W CC).
      * intros p' Np'. apply (idle_power part m' t' p' _ x G' HO' AP' (HSH' _ _ Np') W (ID' _ CC)).
  - unfold w'. rewrite (answered ext ops' case m' i NR' (sv_true _ _ _ SV') Hm' (KEY i PI KIN)). reflexivity.
Qed.
End Part.

Lemma m130_idle ext ops t l case part : never_readds_nodes ext ops -> let w := final ext init (ops ++ [OpAssemble]) in
  describes ext ops t l -> apart part t -> idle_case part t l case ->
  solved ext w case -> stable ext w case -> symmetric_elements ext w ->
  forall i, answer ext w (OpNodeLocation i) <> RNone -> part i = true ->
  answer ext (after ext w (OpSolveStatic case)) (OpNodalDisp i case) = RVec [0; 0; 0; 0; 0; 0].
Proof. intros NR w D AP. exact (c130_idle ext ops case part (told_guard _ _ NR) t l D AP). Qed.
Lemma m130_same ext ops ops' t t' l l' case part : never_readds_nodes ext ops -> never_readds_nodes ext ops' ->
  let w := final ext init (ops ++ [OpAssemble]) in let w' := final ext init (ops' ++ [OpAssemble]) in
  describes ext ops t l -> describes ext ops' t' l' -> apart part t -> apart part t' -> same_part part t t' ->
  part_case part t l l' case -> same_held part ext w w' case ->
  solved ext w case -> solved ext w' case -> stable ext w case -> symmetric_elements ext w -> symmetric_elements ext w' ->
  forall i, answer ext w (OpNodeLocation i) <> RNone -> part i = true -> exists v, List.length v = 6%nat
  /\ answer ext (after ext w (OpSolveStatic case)) (OpNodalDisp i case) = RVec v
  /\ answer ext (after ext w' (OpSolveStatic case)) (OpNodalDisp i case) = RVec v.
Proof.
  intros NR NR' w w' D D' AP AP' SP PC SH.
  exact (c130_same ext ops case part (told_guard _ _ NR) t l D AP ops' (told_guard _ _ NR') t' l' D' AP' SP PC SH).
Qed.
