(** The modes of a part that nothing connects with the rest (C131). *)
From Coq Require Import Reals Lra Lia List String Arith Bool ZArith Sorting.Permutation FunctionalExtensionality.
From Verif Require Import Base BaseFacts Csys Sections Element Load FeModel Assembly Solver Post Api
  SpecApi ApiFacts WfFacts HidFacts ApiProofs1 ApiProofs2 LoadFacts SpecElim ElimFacts SpecGeom CsysFacts SpecBeam BeamFacts MemberLoads AsmFacts SpecAsm AsmProofs
  AsmTotal AsmProofs2 SpecLoad LoadProofs AsmProofs3 SpecSolve AsmSolve SpecMass MassProofs ShellFacts SpecStatics StaticsProofs StaticsProofs2
  Dynamic SpecDyn DynProofs SpecModal ModalProofs SpecModal2 ModalProofs2 SpecTold ToldProofs SpecToldLoad ToldLoadProofs SpecPost PostProofs
  SpecSame SameProofs SameProofs2 StifferProofs StaticsMain SpecFreq FreqProofs FreqProofs2 SpecCut CutFacts CutProofs CutProofs2
  SpecPart PartProofs PartProofs2 PartProofs3 SpecPartModal.
Import ListNotations.
Local Open Scope R_scope.

Lemma member_still part m i b x y : good m -> In (i, b) (f_beams m) -> within part x -> part (n_name (b_ni b)) = false -> part (n_name (b_nj b)) = false ->
  member_inertia m (spread m x) y b = 0.
Proof.
  intros G I W F1 F2. unfold member_inertia. rewrite (ends_named m i b x G I).
  destruct (within_vec _ _ _ W F1) as [-> ->]. destruct (within_vec _ _ _ W F2) as [-> ->]. unfold dot3, zero3. cbn [d_i d_j r_i r_j vx vy vz]. ring.
Qed.
Lemma node_rest part m k n x y : good m -> In k (dkeys (f_nodes m)) -> within part x -> part k = false -> node_inertia m (spread m x) y (k, n) = 0.
Proof.
  intros G I W P. unfold node_inertia. cbn [fst snd]. apply rsum_0. intros j Hj. rewrite (spread_at m x k j G I Hj), (W k j P). ring.
Qed.
Lemma share_inertia part m m' x y y' : good m -> good m' -> share part m m' -> share part m' m ->
  (forall k, part k = true -> option_map n_mass (dget k (f_nodes m')) = option_map n_mass (dget k (f_nodes m))) -> within part x -> agree part y y' ->
  lsum (map (node_inertia m' (spread m' x) (spread m' y')) (f_nodes m')) + lsum (map (member_inertia m' (spread m' x) (spread m' y')) (dvals (f_beams m')))
  = lsum (map (node_inertia m (spread m x) (spread m y)) (f_nodes m)) + lsum (map (member_inertia m (spread m x) (spread m y)) (dvals (f_beams m))).
Proof.
  intros G G' HS HS' MS W AG. f_equal.
  - symmetry. apply lsum_keyed_part; [apply G|apply G'|]. intros k. destruct (part k) eqn:P.
    + pose proof (MS k P) as L. destruct (dget k (f_nodes m)) as [n|] eqn:E, (dget k (f_nodes m')) as [n'|] eqn:E'; try discriminate; [|reflexivity].
      cbn [option_map] in L. apply some_inj in L.
      assert (I : In k (dkeys (f_nodes m))) by (apply dget_in_keys; eauto). assert (I' : In k (dkeys (f_nodes m'))) by (apply dget_in_keys; eauto).
      unfold node_inertia. cbn [fst snd]. apply rsum_ext. intros j Hj. rewrite !(spread_at m _ k j G I Hj), !(spread_at m' _ k j G' I' Hj), L, (AG k j P). reflexivity.
    + transitivity 0; [|symmetry].
      * destruct (dget k (f_nodes m)) as [n|] eqn:E; [|reflexivity]. apply (node_rest part); auto. apply dget_in_keys; eauto.
      * destruct (dget k (f_nodes m')) as [n|] eqn:E; [|reflexivity]. apply (node_rest part); auto. apply dget_in_keys; eauto.
  - unfold dvals. rewrite !map_map. symmetry. apply lsum_keyed_part; [apply G|apply G'|]. intros k. cbn [snd].
    destruct (dget k (f_beams m)) as [b|] eqn:E.
    + pose proof (dget_some_in _ _ _ E) as I. destruct (sh_beams _ _ _ HS k b E) as [[F1 F2]|(F1 & F2 & b' & E' & N1 & N2 & PR)].
      * rewrite (member_still part m k b x _ G I W F1 F2). destruct (dget k (f_beams m')) as [b'|] eqn:E'; [|reflexivity].
        pose proof (dget_some_in _ _ _ E') as I'. destruct (sh_beams _ _ _ HS' k b' E') as [[F1' F2']|(F1' & _ & b0 & E0 & N1 & _)].
        -- symmetry. apply (member_still part m' k b' x _ G' I' W F1' F2').
        -- exfalso. rewrite E in E0. apply some_inj in E0. subst b0. congruence.
      * rewrite E'. pose proof (dget_some_in _ _ _ E') as I'.
        destruct (share_member part m m' G G' HS k b b' x x I I' N1 N2 F1 F2 (fun _ _ _ => eq_refl)) as (L1 & L2 & EX).
        destruct (share_member part m m' G G' HS k b b' y y' I I' N1 N2 F1 F2 AG) as (_ & _ & EY).
        unfold member_inertia, member_mass. rewrite L1, L2, EX, EY, PR. reflexivity.
    + destruct (dget k (f_beams m')) as [b'|] eqn:E'; [|reflexivity]. pose proof (dget_some_in _ _ _ E') as I'.
      destruct (sh_beams _ _ _ HS' k b' E') as [[F1' F2']|(F1' & _ & b0 & E0 & _)]; [|congruence].
      symmetry. apply (member_still part m' k b' x _ G' I' W F1' F2').
Qed.

(** Fields of the part have the same energies in both structures. *)
Lemma part_inertia ext ops ops' t t' l l' case part m m' x : never_readds_nodes ext (ops ++ [OpAssemble]) -> never_readds_nodes ext (ops' ++ [OpAssemble]) ->
  let w := final ext init (ops ++ [OpAssemble]) in let w' := final ext init (ops' ++ [OpAssemble]) in
  describes ext ops t l -> describes ext ops' t' l' -> apart part t -> apart part t' -> same_part part t t' -> same_masses part t t' -> same_held part ext w w' case ->
  stiffness ext w <> None -> stiffness ext w' <> None -> mass_matrix w <> None -> mass_matrix w' <> None ->
  assembled_model w = Some m -> assembled_model w' = Some m' -> within part x ->
  forall y y', agree part y y' -> inertia w' (spread m' x) (spread m' y') = inertia w (spread m x) (spread m y).
Proof.
  intros NR NR' w w' D D' AP AP' SP SM SH SK SK' MK MK' Hm Hm' W y y' AG.
  destruct (part_strain ext ops ops' t t' l l' case part m m' x NR NR' D D' AP AP' SP SH SK SK' Hm Hm' W) as (G & G' & SS & SS' & _).
  destruct (c78_built ext _ m Hm) as (t0 & T0 & HO). rewrite (proj1 D) in T0. apply some_inj in T0. subst t0.
  destruct (c78_built ext _ m' Hm') as (t0 & T0 & HO'). rewrite (proj1 D') in T0. apply some_inj in T0. subst t0.
  destruct (mass_matrix w) as [M|] eqn:HM; [|contradiction]. destruct (mass_matrix w') as [M'|] eqn:HM'; [|contradiction].
  rewrite (inertia_named ext _ w m M _ _ eq_refl Hm HM), (inertia_named ext _ w' m' M' _ _ eq_refl Hm' HM').
  apply (share_inertia part m m' x y y' G G' SS SS'); [|exact W|exact AG].
  intros k P. specialize (SM k P). destruct HO as (N & _), HO' as (N' & _). rewrite <- N, <- N' in SM.
  destruct (dget k (f_nodes m)), (dget k (f_nodes m')); cbn [option_map snd] in SM |- *; exact SM.
Qed.

Lemma only_agree part y : agree part (only part y) y.
Proof. intros k j P. unfold only. rewrite P. reflexivity. Qed.
Lemma seen_spread part m' m U V q : good m -> seen_in part m' m U V -> (q < size m)%nat -> V q = spread m (only part (named m' U)) q.
Proof.
  intros G SE Hq. rewrite <- (spread_named m V q G Hq). unfold spread. destruct (nth_error (dkeys (f_nodes m)) (q / 6)) as [k|] eqn:E; [|reflexivity].
  apply nth_error_In in E. unfold named at 1, only. rewrite (SE k _ E); [|apply Nat.mod_upper_bound; discriminate]. reflexivity.
Qed.

(** A structure that swings: its part swings alike in the other structure. *)
Lemma c131_swings ext ops ops' t t' l l' case part lambda U V m m' : never_readds_nodes ext ops -> never_readds_nodes ext ops' ->
  let w := final ext init (ops ++ [OpAssemble]) in let w' := final ext init (ops' ++ [OpAssemble]) in
  describes ext ops t l -> describes ext ops' t' l' -> apart part t -> apart part t' -> same_part part t t' -> same_masses part t t' -> same_held part ext w w' case ->
  stiffness ext w <> None -> stiffness ext w' <> None -> symmetric_elements ext w' ->
  assembled_model w = Some m -> assembled_model w' = Some m' -> seen_in part m m' U V ->
  swings ext w case lambda U -> swings ext w' case lambda V.
Proof.
  intros NR0 NR0' w w' D D' AP AP' SP SM SH SK SK' SY' Hm Hm' SE [PU EQ]. pose proof (told_guard _ _ NR0) as NR. pose proof (told_guard _ _ NR0') as NR'.
  assert (MK : mass_matrix w <> None) by (destruct (c40_defined ext (ops ++ [OpAssemble]) w m eq_refl NR Hm) as (M & ->); discriminate).
  assert (MK' : mass_matrix w' <> None) by (destruct (c40_defined ext (ops' ++ [OpAssemble]) w' m' eq_refl NR' Hm') as (M & ->); discriminate).
  set (u := named m U).
  destruct (part_strain ext ops ops' t t' l l' case part m m' (only part u) NR NR' D D' AP AP' SP SH SK SK' Hm Hm' (only_within part u)) as (G & G' & SS & SS' & PM & _).
  fold w w' in PM.
  assert (RU : forall q, (q < equations w)%nat -> spread m u q = U q).
  { intros q Hq. unfold equations in Hq. rewrite Hm in Hq. apply spread_named; [exact G|exact Hq]. }
  assert (RV : forall q, (q < equations w')%nat -> V q = spread m' (only part u) q).
  { intros q Hq. unfold equations in Hq. rewrite Hm' in Hq. apply (seen_spread part m m' U V q G' SE Hq). }
  assert (PO : permitted ext w case (spread m (only part u))).
  { apply (permitted_named ext ops case m (only part u) NR Hm). intros k j Hk Hj F. unfold only. destruct (part k); [|reflexivity].
    assert (PU' : permitted ext w case (spread m u)) by (intros q Hq Rq; rewrite (RU q Hq); apply PU; assumption).
    exact (proj1 (permitted_named ext ops case m u NR Hm) PU' k j Hk Hj F). }
  split; [intros q Hq Rq; rewrite (RV q Hq); apply PM; assumption|].
  intros v PV. set (y := named m' v).
  assert (RY : forall q, (q < equations w')%nat -> v q = spread m' y q).
  { intros q Hq. symmetry. unfold equations in Hq. rewrite Hm' in Hq. apply spread_named; [exact G'|exact Hq]. }
  rewrite (energy_ext ext w' v V (spread m' y) (spread m' (only part u)) RY RV), (inertia_ext w' v (spread m' y) V (spread m' (only part u)) RY RV).
  (* only the part of v matters *)
  destruct (part_strain ext ops' ops' t' t' l' l' case part m' m' (only part u) NR' NR' D' D' AP' AP' ltac:(split; auto) ltac:(intros k j _; reflexivity) SK' SK' Hm' Hm' (only_within part u)) as (_ & _ & _ & _ & _ & E1).
  fold w' in E1. pose proof (E1 y) as Q1.
  rewrite (energy_sym ext w' _ _ (stiff_sym ext ops' SY')), Q1, <- (energy_sym ext w' _ _ (stiff_sym ext ops' SY')).
  assert (PY : permitted ext w' case (spread m' (only part y))).
  { apply (permitted_named ext ops' case m' (only part y) NR' Hm'). intros k j Hk Hj F. unfold only. destruct (part k); [|reflexivity].
    assert (PV' : permitted ext w' case (spread m' y)) by (intros q Hq Rq; rewrite <- (RY q Hq); apply PV; assumption).
    exact (proj1 (permitted_named ext ops' case m' y NR' Hm') PV' k j Hk Hj F). }
  destruct (part_strain ext ops' ops t' t l' l case part m' m (only part y) NR' NR D' D AP' AP (part_sym _ _ _ SP) (held_sym _ _ _ _ _ SH) SK' SK Hm' Hm (only_within part y)) as (_ & _ & _ & _ & PN & E2).
  fold w w' in PN, E2. pose proof (E2 u) as Q2. rewrite <- Q2.
  specialize (EQ (spread m (only part y)) (PN PY)).
  rewrite (energy_ext ext w (spread m (only part y)) U (spread m (only part y)) (spread m u) (fun _ _ => eq_refl) (fun q Hq => eq_sym (RU q Hq))) in EQ. rewrite EQ. f_equal.
  rewrite (inertia_ext w _ (spread m (only part y)) U (spread m u) (fun _ _ => eq_refl) (fun q Hq => eq_sym (RU q Hq))).
  pose proof (part_inertia ext ops' ops t' t l' l case part m' m (only part y) NR' NR D' D AP' AP (part_sym _ _ _ SP)
    ltac:(intros k P; symmetry; apply SM, P) (held_sym _ _ _ _ _ SH) SK' SK MK' MK Hm' Hm (only_within part y) (only part u) u (only_agree part u)) as Q3.
  fold w w' in Q3. rewrite Q3.
  destruct (assembled_now ext ops' NR') as (_ & a' & Ha' & _). fold w' in Ha'.
  pose proof (inertia_sym ext ops' a' Ha') as IS. fold w' in IS. rewrite (IS (spread m' y)), (IS (spread m' (only part y))). symmetry.
  pose proof (part_inertia ext ops' ops' t' t' l' l' case part m' m' (only part u) NR' NR' D' D' AP' AP' ltac:(split; auto) ltac:(intros k P; reflexivity)
    ltac:(intros k j _; reflexivity) SK' SK' MK' MK' Hm' Hm' (only_within part u) (only part y) y (only_agree part y)) as Q4. fold w' in Q4. exact Q4.
Qed.
