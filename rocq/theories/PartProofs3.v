(** Stability of a structure and of its parts (C130). *)
From Coq Require Import Reals Lra Lia List String Arith Bool ZArith Sorting.Permutation FunctionalExtensionality.
From Verif Require Import Base BaseFacts Csys Sections Element Load FeModel Assembly Solver Post Api
  SpecApi ApiFacts WfFacts HidFacts ApiProofs1 ApiProofs2 LoadFacts SpecElim ElimFacts SpecGeom CsysFacts SpecBeam BeamFacts MemberLoads AsmFacts SpecAsm AsmProofs
  AsmTotal AsmProofs2 SpecLoad LoadProofs AsmProofs3 SpecSolve AsmSolve SpecMass MassProofs ShellFacts SpecStatics StaticsProofs StaticsProofs2
  SpecTold ToldProofs SpecToldLoad ToldLoadProofs SpecPost PostProofs SpecSame SameProofs SameProofs2 StifferProofs StaticsMain SpecCut CutFacts CutProofs CutProofs2 SpecPart PartProofs PartProofs2.
Import ListNotations.
Local Open Scope R_scope.

(** A field of the part that one structure permits without strain, the other one permits without strain. *)
Lemma part_strain ext ops ops' t t' l l' case part m m' x : never_readds_nodes ext (ops ++ [OpAssemble]) -> never_readds_nodes ext (ops' ++ [OpAssemble]) ->
  let w := final ext init (ops ++ [OpAssemble]) in let w' := final ext init (ops' ++ [OpAssemble]) in
  describes ext ops t l -> describes ext ops' t' l' -> apart part t -> apart part t' -> same_part part t t' -> same_held part ext w w' case ->
  stiffness ext w <> None -> stiffness ext w' <> None -> assembled_model w = Some m -> assembled_model w' = Some m' -> within part x ->
  good m /\ good m' /\ share part m m' /\ share part m' m
  /\ (permitted ext w case (spread m x) -> permitted ext w' case (spread m' x))
  /\ forall y, energy ext w' (spread m' x) (spread m' y) = energy ext w (spread m x) (spread m (only part y)).
Proof.
  intros NR NR' w w' [HT _] [HT' _] AP AP' SP SH SK SK' Hm Hm' W.
  destruct (assembled_now ext ops NR) as (_ & A & Ha & Em & _ & _ & _ & _ & G & _). fold w in Ha, Em, G.
  destruct (assembled_now ext ops' NR') as (_ & A' & Ha' & Em' & _ & _ & _ & _ & G' & _). fold w' in Ha', Em', G'.
  assert (EA : m = a_model A) by (unfold assembled_model in Hm; rewrite Ha in Hm; apply some_inj in Hm; auto). rewrite <- Em, <- EA in G.
  assert (EA' : m' = a_model A') by (unfold assembled_model in Hm'; rewrite Ha' in Hm'; apply some_inj in Hm'; auto). rewrite <- Em', <- EA' in G'.
  destruct (c78_built ext _ m Hm) as (t0 & T0 & HO). rewrite HT in T0. apply some_inj in T0. subst t0.
  destruct (c78_built ext _ m' Hm') as (t0 & T0 & HO'). rewrite HT' in T0. apply some_inj in T0. subst t0.
  assert (SP' : same_part part t' t).
  { destruct SP as [S1 S2 S3]. split; intros; symmetry; auto. }
  pose proof (share_told part m m' t t' HO HO' AP SP) as SS. pose proof (share_told part m' m t' t HO' HO AP' SP') as SS'.
  split; [exact G|]. split; [exact G'|]. split; [exact SS|]. split; [exact SS'|].
  destruct (stiffness ext w) as [K|] eqn:HK; [|contradiction]. destruct (stiffness ext w') as [K'|] eqn:HK'; [|contradiction]. split.
  - intros PX. apply (permitted_named ext ops' case m' x NR' Hm'). intros k j Hk Hj F. destruct (part k) eqn:P; [|apply W, P].
    apply (proj1 (permitted_named ext ops case m x NR Hm) PX k j); [|exact Hj|fold w; fold w' in F; rewrite SH in F by exact P; exact F].
    rewrite dget_in_keys in Hk |- *. destruct Hk as [v E]. pose proof (sh_place _ _ _ SS k P) as L. rewrite E in L. destruct (dget k (f_nodes m)); [eauto|discriminate].
  - intros y. rewrite (energy_named ext _ w m K _ _ eq_refl Hm HK), (energy_named ext _ w' m' K' _ _ eq_refl Hm' HK').
    assert (AG : agree part (only part y) y) by (intros k j P; unfold only; rewrite P; reflexivity).
    f_equal; [apply (share_beams part m m' G G' SS SS' x _ _ W AG)|apply (share_shells part m m' G G' SS SS' _ x _ _ W AG)].
Qed.
Lemma held_sym part ext w w' case : same_held part ext w w' case -> same_held part ext w' w case.
Proof. intros H k j P. symmetry. apply H, P. Qed.
Lemma part_sym part t t' : same_part part t t' -> same_part part t' t.
Proof. intros [A B C]. split; intros; symmetry; auto. Qed.
Lemma only_twice part x : only part (only part x) = only part x.
Proof. apply functional_extensionality. intros k. apply functional_extensionality. intros j. unfold only. destruct (part k); reflexivity. Qed.

(** If the structure is stable, the fields of the part are zero when they have no strain in the other one. *)
Lemma part_zero ext ops ops' t t' l l' case part m m' x : never_readds_nodes ext (ops ++ [OpAssemble]) -> never_readds_nodes ext (ops' ++ [OpAssemble]) ->
  let w := final ext init (ops ++ [OpAssemble]) in let w' := final ext init (ops' ++ [OpAssemble]) in
  describes ext ops t l -> describes ext ops' t' l' -> apart part t -> apart part t' -> same_part part t t' -> same_held part ext w w' case ->
  stiffness ext w <> None -> stiffness ext w' <> None -> assembled_model w = Some m -> assembled_model w' = Some m' ->
  stable ext w case -> permitted ext w' case (spread m' (only part x)) -> energy ext w' (spread m' (only part x)) (spread m' (only part x)) = 0 ->
  forall i j, In i (dkeys (f_nodes m')) -> (j < 6)%nat -> part i = true -> x i j = 0.
Proof.
  intros NR NR' w w' D D' AP AP' SP SH SK SK' Hm Hm' ST PX Z i j Hi Hj Pi.
  destruct (part_strain ext ops' ops t' t l' l case part m' m (only part x) NR' NR D' D AP' AP (part_sym _ _ _ SP) (held_sym _ _ _ _ _ SH) SK' SK Hm' Hm (only_within part x))
    as (G' & G & SS' & SS & PM & EN). fold w w' in PM, EN.
  assert (KI : In i (dkeys (f_nodes m))).
  { rewrite dget_in_keys in Hi |- *. destruct Hi as [v E]. pose proof (sh_place _ _ _ SS i Pi) as L. rewrite E in L. destruct (dget i (f_nodes m)); [eauto|discriminate]. }
  specialize (EN (only part x)). rewrite only_twice, Z in EN.
  pose proof (ST (spread m (only part x)) (PM PX) EN (6 * num m i + j)%nat) as X. rewrite (spread_at m _ i j G KI Hj) in X. unfold only in X. rewrite Pi in X. apply X.
  unfold equations. rewrite Hm. pose proof (key_num _ _ G KI) as N. assert (NB : (num m i < List.length (dkeys (f_nodes m)))%nat) by (apply nth_error_Some; congruence).
  unfold dkeys in NB. rewrite map_length in NB. unfold size. lia.
Qed.

Lemma m130_stable_part ext ops ops' t t' l l' case part : never_readds_nodes ext ops -> never_readds_nodes ext ops' ->
  let w := final ext init (ops ++ [OpAssemble]) in let w' := final ext init (ops' ++ [OpAssemble]) in
  describes ext ops t l -> describes ext ops' t' l' -> apart part t -> same_part part t t' -> same_held part ext w w' case ->
  stiffness ext w <> None -> stiffness ext w' <> None -> (forall k, t_node t' k <> None -> part k = true) ->
  stable ext w case -> stable ext w' case.
Proof.
  intros NR NR' w w' D D' AP SP SH SK SK' ALL ST u PU Z q Hq. apply told_guard in NR. apply told_guard in NR'.
  destruct (assembled_now ext ops NR) as (_ & A & Ha & Em & _ & _ & _ & _ & G & _). fold w in Ha, Em, G.
  destruct (assembled_now ext ops' NR') as (_ & A' & Ha' & Em' & _ & _ & _ & _ & G' & _). fold w' in Ha', Em', G'.
  rewrite <- Em in G. rewrite <- Em' in G'. set (m := a_model A) in *. set (m' := a_model A') in *.
  assert (Hm : assembled_model w = Some m) by (unfold assembled_model; rewrite Ha; reflexivity).
  assert (Hm' : assembled_model w' = Some m') by (unfold assembled_model; rewrite Ha'; reflexivity).
  destruct (c78_built ext _ m' Hm') as (t0 & T0 & HO'). rewrite (proj1 D') in T0. apply some_inj in T0. subst t0.
  assert (IN : forall k, In k (dkeys (f_nodes m')) -> part k = true).
  { intros k Hk. apply ALL. apply dget_in_keys in Hk as [v E]. destruct HO' as (N & _). rewrite <- N, E. discriminate. }
  assert (AP' : apart part t').
  { destruct HO' as (_ & _ & _ & _ & _ & B & S). split.
    - intros k a b p E. rewrite <- B in E. destruct (dget k (f_beams m')) as [e|] eqn:F; [|discriminate]. cbn in E. apply some_inj in E.
      apply dget_some_in in F. destruct (good_ends m' k e G' F) as [I1 I2]. pose proof (f_equal (fun z => fst (fst z)) E) as Q1. pose proof (f_equal (fun z => snd (fst z)) E) as Q2. cbn in Q1, Q2.
      rewrite <- Q1, <- Q2, (IN _ I1), (IN _ I2). reflexivity.
    - intros k ns s E a b I1 I2. rewrite <- S in E. destruct (dget k (f_shells m')) as [e|] eqn:F; [|discriminate]. cbn in E. apply some_inj in E.
      apply dget_some_in in F. pose proof (f_equal fst E) as Q1. cbn in Q1. rewrite <- Q1 in I1, I2.
      apply in_map_iff in I1 as (n1 & <- & J1). apply in_map_iff in I2 as (n2 & <- & J2).
      rewrite (IN _ (cur_key _ _ (proj2 (proj2 (proj2 G')) _ _ _ F J1))), (IN _ (cur_key _ _ (proj2 (proj2 (proj2 G')) _ _ _ F J2))). reflexivity. }
  assert (RG : forall q, (q < equations w')%nat -> spread m' (only part (named m' u)) q = u q).
  { intros p Hp. rewrite (spread_ext m' (only part (named m' u)) (named m' u)) by (intros i j Hi _; unfold only; rewrite (IN i Hi); reflexivity).
    apply spread_named; [exact G'|]. unfold equations in Hp. rewrite Hm' in Hp. exact Hp. }
  rewrite <- (RG q Hq). unfold spread. destruct (nth_error (dkeys (f_nodes m')) (q / 6)) as [i|] eqn:E; [|reflexivity].
  apply nth_error_In in E. unfold only. rewrite (IN i E).
  apply (part_zero ext ops ops' t t' l l' case part m m' (named m' u) NR NR' D D' AP AP' SP SH SK SK' Hm Hm' ST).
  - intros p Hp Rp. fold w' in Hp, Rp. rewrite (RG p Hp). apply PU; assumption.
  - fold w'. rewrite <- Z. apply energy_ext; apply RG.
  - exact E.
  - apply Nat.mod_upper_bound. discriminate.
  - apply IN, E.
Qed.

(** ** The whole is stable if the parts are *)
Lemma m130_stable_whole ext ops ops1 ops2 t t1 t2 l l1 l2 case part : never_readds_nodes ext ops -> never_readds_nodes ext ops1 -> never_readds_nodes ext ops2 ->
  let w := final ext init (ops ++ [OpAssemble]) in let w1 := final ext init (ops1 ++ [OpAssemble]) in let w2 := final ext init (ops2 ++ [OpAssemble]) in
  let rest := fun k => negb (part k) in
  describes ext ops t l -> describes ext ops1 t1 l1 -> describes ext ops2 t2 l2 ->
  apart part t -> apart part t1 -> apart rest t2 -> same_part part t1 t -> same_part rest t2 t ->
  same_held part ext w1 w case -> same_held rest ext w2 w case ->
  stiffness ext w <> None -> stiffness ext w1 <> None -> stiffness ext w2 <> None -> elastic ext w ->
  stable ext w1 case -> stable ext w2 case -> stable ext w case.
Proof.
  intros NR NR1 NR2 w w1 w2 rest D D1 D2 AP AP1 AP2 SP1 SP2 SH1 SH2 SK SK1 SK2 EL ST1 ST2 u PU Z q Hq.
  apply told_guard in NR. apply told_guard in NR1. apply told_guard in NR2.
  destruct (assembled_now ext ops NR) as (_ & A & Ha & Em & _ & _ & _ & _ & G & _). fold w in Ha, Em, G.
  destruct (assembled_now ext ops1 NR1) as (_ & A1 & Ha1 & Em1 & _ & _ & _ & _ & G1 & _). fold w1 in Ha1, Em1, G1.
  destruct (assembled_now ext ops2 NR2) as (_ & A2 & Ha2 & Em2 & _ & _ & _ & _ & G2 & _). fold w2 in Ha2, Em2, G2.
  rewrite <- Em in G. set (m := a_model A) in *. set (m1 := a_model A1) in *. set (m2 := a_model A2) in *.
  assert (Hm : assembled_model w = Some m) by (unfold assembled_model; rewrite Ha; reflexivity).
  assert (Hm1 : assembled_model w1 = Some m1) by (unfold assembled_model; rewrite Ha1; reflexivity).
  assert (Hm2 : assembled_model w2 = Some m2) by (unfold assembled_model; rewrite Ha2; reflexivity).
  destruct (c78_built ext _ m Hm) as (t0 & T0 & HO). rewrite (proj1 D) in T0. apply some_inj in T0. subst t0.
  assert (APR : apart rest t).
  { destruct AP as [B S]. split; [intros k a b p E; unfold rest; rewrite (B k a b p E); reflexivity|intros k ns s E a b I1 I2; unfold rest; rewrite (S k ns s E a b I1 I2); reflexivity]. }
  pose proof (share_self part m t HO AP) as SS. pose proof (share_self rest m t HO APR) as SR.
  destruct (stiffness ext w) as [K|] eqn:HK; [|contradiction]. assert (NK : stiffness ext w <> None) by (rewrite HK; discriminate).
  assert (RG : forall q, (q < equations w)%nat -> spread m (named m u) q = u q).
  { intros p Hp. apply spread_named; [exact G|]. unfold equations in Hp. rewrite Hm in Hp. exact Hp. }
  set (y := named m u).
  assert (NU : forall k j, In k (dkeys (f_nodes m)) -> (j < 6)%nat -> flag (governing ext w case) k j = true -> y k j = 0).
  { apply (permitted_named ext ops case m y NR Hm). intros p Hp Rp. unfold y. rewrite (RG p Hp). apply PU; assumption. }
  assert (PO : forall pt, permitted ext w case (spread m (only pt y))).
  { intros pt. apply (permitted_named ext ops case m _ NR Hm). intros k j Hk Hj F. unfold only. destruct (pt k); [apply (NU k j Hk Hj F)|reflexivity]. }
  assert (EP : energy ext w (spread m (only part y)) (spread m y) = energy ext w (spread m (only part y)) (spread m (only part y))).
  { rewrite !(energy_named ext _ w m K _ _ eq_refl Hm HK).
    f_equal; [apply (share_beams part m m G G SS SS)|apply (share_shells part m m G G SS SS)]; try apply only_within; intros k j P; unfold only; rewrite P; reflexivity. }
  assert (ER : energy ext w (spread m (only rest y)) (spread m y) = energy ext w (spread m (only rest y)) (spread m (only rest y))).
  { rewrite !(energy_named ext _ w m K _ _ eq_refl Hm HK).
    f_equal; [apply (share_beams rest m m G G SR SR)|apply (share_shells rest m m G G SR SR)]; try apply only_within; intros k j P; unfold only; rewrite P; reflexivity. }
  assert (SUM : energy ext w (spread m (only part y)) (spread m (only part y)) + energy ext w (spread m (only rest y)) (spread m (only rest y)) = 0).
  { rewrite <- EP, <- ER, <- Z. transitivity (energy ext w (spread m y) (spread m y)).
    - unfold energy, work_of. rewrite <- rsum_plus. apply rsum_ext. intros p Hp. rewrite <- Rmult_plus_distr_l. f_equal.
      unfold spread, only, rest. destruct (nth_error _ _) as [k|]; [|ring]. destruct (part k); cbn [negb]; ring.
    - apply energy_ext; apply RG. }
  pose proof (energy_nonneg ext ops EL (spread m (only part y))) as E1. pose proof (energy_nonneg ext ops EL (spread m (only rest y))) as E2. fold w in E1, E2.
  rewrite <- (RG q Hq). fold y. unfold spread. destruct (nth_error (dkeys (f_nodes m)) (q / 6)) as [i|] eqn:E; [|reflexivity].
  apply nth_error_In in E. assert (J : (q mod 6 < 6)%nat) by (apply Nat.mod_upper_bound; discriminate).
  destruct (part i) eqn:Pi.
  - apply (part_zero ext ops1 ops t1 t l1 l case part m1 m y NR1 NR D1 D AP1 AP SP1 SH1 SK1 NK Hm1 Hm ST1 (PO part)); [fold w; lra|exact E|exact J|exact Pi].
  - apply (part_zero ext ops2 ops t2 t l2 l case rest m2 m y NR2 NR D2 D AP2 APR SP2 SH2 SK2 NK Hm2 Hm ST2 (PO rest)); [fold w; lra|exact E|exact J|unfold rest; rewrite Pi; reflexivity].
Qed.
