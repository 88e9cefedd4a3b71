(** Modes of structures that differ only in the stiffness of their members (C140). *)
From Coq Require Import Reals Lra Lia List String Arith Bool ZArith Sorting.Permutation.
From Verif Require Import Base BaseFacts Csys Sections Element Load FeModel Assembly Solver Post Api
  SpecApi ApiFacts WfFacts HidFacts ApiProofs1 ApiProofs2 LoadFacts SpecElim ElimFacts SpecGeom CsysFacts SpecBeam BeamFacts MemberLoads AsmFacts SpecAsm AsmProofs
  AsmTotal AsmProofs2 SpecLoad LoadProofs AsmProofs3 SpecSolve AsmSolve SpecMass MassProofs ShellFacts SpecStatics StaticsProofs StaticsProofs2
  Dynamic SpecDyn DynProofs SpecModal ModalProofs SpecModal2 ModalProofs2 SpecTold ToldProofs SpecToldLoad ToldLoadProofs SpecPost PostProofs
  SpecSame SameProofs SameProofs2 StifferProofs StaticsMain SpecFreq FreqProofs FreqProofs2 SpecCut CutFacts CutProofs CutProofs2 SpecPartModal PartModal SpecScale ScaleProofs.
Import ListNotations.
Local Open Scope R_scope.

Lemma scaled_forms ext ops ops' t t' l l' case c m m' : never_readds_nodes ext ops -> never_readds_nodes ext ops' ->
  let w := final ext init (ops ++ [OpAssemble]) in let w' := final ext init (ops' ++ [OpAssemble]) in
  describes ext ops t l -> describes ext ops' t' l' -> rescaled c t t' -> same_mass t t' ->
  (forall k j, flag (governing ext w' case) k j = flag (governing ext w case) k j) ->
  stiffness ext w <> None -> stiffness ext w' <> None -> assembled_model w = Some m -> assembled_model w' = Some m' ->
  good m /\ good m' /\ (forall k, In k (dkeys (f_nodes m')) -> In k (dkeys (f_nodes m)))
  /\ (forall x y, energy ext w' (spread m' x) (spread m' y) = c * energy ext w (spread m x) (spread m y))
  /\ (forall x y, inertia w' (spread m' x) (spread m' y) = inertia w (spread m x) (spread m y))
  /\ (forall x, permitted ext w case (spread m x) <-> permitted ext w' case (spread m' x)).
Proof.
  intros NR0 NR0' w w' D D' RS [SN SB] FL SK SK' Hm Hm'. pose proof (told_guard _ _ NR0) as NR. pose proof (told_guard _ _ NR0') as NR'.
  destruct (c40_defined ext (ops ++ [OpAssemble]) w m eq_refl NR Hm) as (M & HM). destruct (c40_defined ext (ops' ++ [OpAssemble]) w' m' eq_refl NR' Hm') as (M' & HM').
  destruct (stiffness ext w) as [K|] eqn:HK; [|contradiction]. destruct (stiffness ext w') as [K'|] eqn:HK'; [|contradiction].
  pose proof (assembled_good _ _ _ _ eq_refl NR Hm) as G. pose proof (assembled_good _ _ _ _ eq_refl NR' Hm') as G'.
  pose proof D as [HT HL]. pose proof D' as [HT' HL'].
  destruct (c78_built ext _ m Hm) as (t0 & T0 & HO). rewrite HT in T0. apply some_inj in T0. subst t0.
  destruct (c78_built ext _ m' Hm') as (t0 & T0 & HO'). rewrite HT' in T0. apply some_inj in T0. subst t0.
  assert (BT : based 1 0 zero3 m m').
  { apply (based_told 1 0 zero3 m m' t t' HO HO').
    - intros k0 n E. rewrite (rs_node _ _ _ RS), E. cbn [option_map fst]. f_equal. apply vec3_eq; cbn; ring.
    - intros k0. destruct (rs_shell _ _ _ RS k0) as [-> ->]. reflexivity. }
  assert (U1 : 1 * 1 + 0 * 0 = 1) by ring.
  assert (Z : f_shells m = []).
  { apply nil_dget. intros k0. destruct HO as (_ & _ & _ & _ & _ & _ & OS). specialize (OS k0). rewrite (proj1 (rs_shell _ _ _ RS k0)) in OS.
    destruct (dget k0 (f_shells m)); [discriminate|reflexivity]. }
  assert (Z' : f_shells m' = []).
  { apply nil_dget. intros k0. destruct HO' as (_ & _ & _ & _ & _ & _ & OS). specialize (OS k0). rewrite (proj2 (rs_shell _ _ _ RS k0)) in OS.
    destruct (dget k0 (f_shells m')); [discriminate|reflexivity]. }
  assert (ND : forall k, match dget k (f_nodes m), dget k (f_nodes m') with Some n, Some n' => n_mass n' = n_mass n | None, None => True | _, _ => False end).
  { intros k. destruct HO as (ON & _). destruct HO' as (ON' & _). pose proof (SN k) as S. rewrite <- ON, <- ON' in S.
    destruct (dget k (f_nodes m)), (dget k (f_nodes m')); cbn [option_map] in S; try discriminate; auto.
    apply some_inj in S. exact (f_equal snd S). }
  assert (ME : forall k, match dget k (f_beams m), dget k (f_beams m') with
     | Some b, Some b' => n_name (b_ni b') = n_name (b_ni b) /\ n_name (b_nj b') = n_name (b_nj b) /\ times_stiffer c (b_prop b) (b_prop b')
       /\ density (b_prop b') * area (b_prop b') = density (b_prop b) * area (b_prop b)
     | None, None => True | _, _ => False end).
  { intros k. pose proof (rs_beam _ _ _ RS k) as S. pose proof (SB k) as T. destruct HO as (_ & _ & _ & _ & _ & OB & _). destruct HO' as (_ & _ & _ & _ & _ & OB' & _).
    rewrite <- OB, <- OB' in S. rewrite <- OB, <- OB' in T. destruct (dget k (f_beams m)), (dget k (f_beams m')); cbn [option_map] in S, T; auto.
    destruct S as (N1 & N2 & NS). repeat split; auto; try apply NS. apply (T _ _ _ _ _ _ eq_refl eq_refl). }
  assert (EN : forall x y, energy ext w' (spread m' (turned_by 1 0 x)) (spread m' (turned_by 1 0 y)) = c * energy ext w (spread m x) (spread m y)).
  { intros x y. rewrite (energy_named ext _ w m K _ _ eq_refl Hm HK), (energy_named ext _ w' m' K' _ _ eq_refl Hm' HK'), Z, Z'.
    unfold dvals. cbn [map lsum]. rewrite !Rplus_0_r, !map_map, <- lsum_times.
    apply lsum_keyed; [apply G'|apply G|]. intros k0. specialize (ME k0).
    destruct (dget k0 (f_beams m)) as [b|] eqn:E, (dget k0 (f_beams m')) as [b'|] eqn:E'; auto; cbn [snd].
    destruct ME as (N1 & N2 & (H1 & H2 & H3 & H4) & _). apply dget_some_in in E, E'.
    destruct (based_member 1 0 zero3 m m' U1 G G' BT k0 b b' E E' N1 N2) as (Dd & W); [left; auto|].
    unfold beam_work. rewrite (W x), (W y), Dd. apply member_times; assumption. }
  assert (IN : forall x y, inertia w' (spread m' x) (spread m' y) = inertia w (spread m x) (spread m y)).
  { intros x y. rewrite (inertia_named ext _ w m M _ _ eq_refl Hm HM), (inertia_named ext _ w' m' M' _ _ eq_refl Hm' HM'). apply f_equal2.
    - apply lsum_keyed; [apply G'|apply G|]. intros k. specialize (ND k).
      destruct (dget k (f_nodes m)) as [n|] eqn:E, (dget k (f_nodes m')) as [n'|] eqn:E'; auto.
      assert (I : In k (dkeys (f_nodes m))) by (apply dget_in_keys; eauto). assert (I' : In k (dkeys (f_nodes m'))) by (apply dget_in_keys; eauto).
      unfold node_inertia. cbn [fst snd]. apply rsum_ext. intros i Hi.
      rewrite (spread_at m x k i G I Hi), (spread_at m' x k i G' I' Hi), (spread_at m y k i G I Hi), (spread_at m' y k i G' I' Hi), ND. reflexivity.
    - unfold dvals. rewrite !map_map. apply lsum_keyed; [apply G'|apply G|]. intros k. specialize (ME k).
      destruct (dget k (f_beams m)) as [b|] eqn:E, (dget k (f_beams m')) as [b'|] eqn:E'; auto; cbn [snd].
      destruct ME as (N1 & N2 & _ & DA). apply dget_some_in in E, E'.
      destruct (based_member 1 0 zero3 m m' U1 G G' BT k b b' E E' N1 N2) as (Dd & _); [left; auto|].
      unfold member_inertia. rewrite (member_ends_named k b x m G E), (member_ends_named k b' x m' G' E'), (member_ends_named k b y m G E), (member_ends_named k b' y m' G' E'), N1, N2. cbn [d_i d_j r_i r_j].
      unfold member_mass. rewrite Dd, DA. reflexivity. }
  pose proof (based_keys 1 0 zero3 m m' BT) as KEYS.
  assert (BACK : forall k0, In k0 (dkeys (f_nodes m')) -> In k0 (dkeys (f_nodes m))).
  { intros k0 Hk. specialize (ND k0). apply dget_in_keys in Hk as [v Hk]. rewrite Hk in ND. apply dget_in_keys. destruct (dget k0 (f_nodes m)); [eauto|contradiction]. }
  assert (PN : forall x, permitted ext w case (spread m x) <-> permitted ext w' case (spread m' x)).
  { intros x. split; intros P.
    - apply (permitted_named ext ops' case m' x NR' Hm'). fold w'. intros k j Hk Hj F. rewrite FL in F. exact (proj1 (permitted_named ext ops case m x NR Hm) P k j (BACK k Hk) Hj F).
    - apply (permitted_named ext ops case m x NR Hm). fold w. intros k j Hk Hj F. rewrite <- FL in F. exact (proj1 (permitted_named ext ops' case m' x NR' Hm') P k j (KEYS k Hk) Hj F). }
  split; [exact G|]. split; [exact G'|]. split; [exact BACK|]. split; [|split; [exact IN|exact PN]].
  intros x y. rewrite <- EN. apply energy_ext; intros q _; symmetry; apply spread_turned.
Qed.

Lemma scaled_swings ext ops ops' t t' l l' case c lambda U V m m' : never_readds_nodes ext ops -> never_readds_nodes ext ops' ->
  let w := final ext init (ops ++ [OpAssemble]) in let w' := final ext init (ops' ++ [OpAssemble]) in
  describes ext ops t l -> describes ext ops' t' l' -> rescaled c t t' -> same_mass t t' ->
  (forall k j, flag (governing ext w' case) k j = flag (governing ext w case) k j) ->
  stiffness ext w <> None -> stiffness ext w' <> None -> assembled_model w = Some m -> assembled_model w' = Some m' ->
  seen_in (fun _ => true) m m' U V -> swings ext w case lambda U -> swings ext w' case (c * lambda) V.
Proof.
  intros NR0 NR0' w w' D D' RS SM FL SK SK' Hm Hm' SE [PU EQ].
  destruct (scaled_forms ext ops ops' t t' l l' case c m m' NR0 NR0' D D' RS SM FL SK SK' Hm Hm') as (G & G' & _ & EN & IN & PN). fold w w' in EN, IN, PN.
  set (u := named m U).
  assert (RU : forall q, (q < equations w)%nat -> spread m u q = U q).
  { intros q Hq. unfold equations in Hq. rewrite Hm in Hq. apply spread_named; [exact G|exact Hq]. }
  assert (RV : forall q, (q < equations w')%nat -> V q = spread m' u q).
  { intros q Hq. unfold equations in Hq. rewrite Hm' in Hq. exact (seen_spread (fun _ => true) m m' U V q G' SE Hq). }
  split.
  - assert (P1 : permitted ext w case (spread m u)) by (intros q Hq Rq; rewrite (RU q Hq); apply PU; assumption).
    intros q Hq Rq. rewrite (RV q Hq). apply (proj1 (PN u) P1); assumption.
  - intros v PV. set (y := named m' v).
    assert (RY : forall q, (q < equations w')%nat -> v q = spread m' y q).
    { intros q Hq. symmetry. unfold equations in Hq. rewrite Hm' in Hq. apply spread_named; [exact G'|exact Hq]. }
    assert (PY : permitted ext w case (spread m y)) by (apply PN; intros q Hq Rq; rewrite <- (RY q Hq); apply PV; assumption).
    specialize (EQ _ PY).
    rewrite (energy_ext ext w (spread m y) U (spread m y) (spread m u) (fun _ _ => eq_refl) (fun q Hq => eq_sym (RU q Hq))) in EQ.
    rewrite (inertia_ext w _ (spread m y) U (spread m u) (fun _ _ => eq_refl) (fun q Hq => eq_sym (RU q Hq))) in EQ.
    rewrite (energy_ext ext w' v V (spread m' y) (spread m' u) RY RV).
    rewrite (inertia_ext w' v (spread m' y) V (spread m' u) RY RV), EN, IN, EQ. ring.
Qed.

Lemma m140_modes ext ops ops' t t' l l' eigsh a case st modes o c m m' : never_readds_nodes ext ops -> never_readds_nodes ext ops' ->
  let w := final ext init (ops ++ [OpAssemble]) in let w' := final ext init (ops' ++ [OpAssemble]) in
  describes ext ops t l -> describes ext ops' t' l' -> rescaled c t t' -> same_mass t t' ->
  (forall k j, flag (governing ext w' case) k j = flag (governing ext w case) k j) ->
  stiffness ext w' <> None -> assembled_model w = Some m -> assembled_model w' = Some m' ->
  exact_eigen eigsh -> read_asb w = Some a -> solve_eigen (x_ker ext) eigsh a case st = Some (modes, o) ->
  forall i lambda x U V, nth_error o i = Some lambda -> nth_error modes i = Some x -> shape_of ext w case x U -> seen_in (fun _ => true) m m' U V ->
  swings ext w' case (c * lambda) V /\ exists q, (q < equations w')%nat /\ V q <> 0.
Proof.
  intros NR NR' w w' D D' RS SM FL SK' Hm Hm' EX Ha HS i lambda x U V HO HX SU SE.
  destruct (solved_parts ext ops eigsh a case st modes o NR EX Ha HS) as (K & M & _ & HK & HM). fold w in HK, HM.
  assert (SK : stiffness ext w <> None) by (rewrite HK; discriminate).
  destruct (m116_modes ext ops eigsh a case st modes o NR EX Ha HS i lambda x HO HX) as (_ & MW). fold w in MW. destruct (MW U SU) as ((q & Hq & NZ) & EQ). split.
  - apply (scaled_swings ext ops ops' t t' l l' case c lambda U V m m' NR NR' D D' RS SM FL SK SK' Hm Hm' SE). split; [apply SU|exact EQ].
  - pose proof (assembled_good _ _ _ _ eq_refl (told_guard _ _ NR) Hm) as G. pose proof (assembled_good _ _ _ _ eq_refl (told_guard _ _ NR') Hm') as G'.
    assert (Hs : (q < size m)%nat) by (unfold equations in Hq; rewrite Hm in Hq; exact Hq).
    pose proof (spread_named m U q G Hs) as R. unfold spread in R. destruct (nth_error (dkeys (f_nodes m)) (q / 6)) as [k|] eqn:E; [|symmetry in R; contradiction].
    assert (I : In k (dkeys (f_nodes m))) by (apply nth_error_In with (1 := E)).
    assert (I' : In k (dkeys (f_nodes m'))).
    { destruct (c78_built ext _ m Hm) as (t0 & T0 & HO1). rewrite (proj1 D) in T0. apply some_inj in T0. subst t0.
      destruct (c78_built ext _ m' Hm') as (t0 & T0 & HO2). rewrite (proj1 D') in T0. apply some_inj in T0. subst t0.
      destruct HO1 as (N1 & _), HO2 as (N2 & _). pose proof (proj1 SM k) as S. rewrite <- N1, <- N2 in S. apply dget_in_keys in I as [n E1]. rewrite E1 in S.
      apply dget_in_keys. destruct (dget k (f_nodes m')); [eauto|discriminate]. }
    assert (Hj : (q mod 6 < 6)%nat) by (apply Nat.mod_upper_bound; discriminate).
    exists (6 * num m' k + q mod 6)%nat. split.
    + pose proof (key_num _ _ G' I') as N. assert (NB : (num m' k < List.length (dkeys (f_nodes m')))%nat) by (apply nth_error_Some; congruence).
      unfold dkeys in NB. rewrite map_length in NB. unfold equations. rewrite Hm'. unfold size. lia.
    + rewrite (SE k _ I' Hj). unfold named in R. rewrite R. exact NZ.
Qed.
