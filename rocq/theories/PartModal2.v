(** The modes that a modal case finds, and those of a part (C131). *)
From Coq Require Import Reals Lra Lia List String Arith Bool ZArith Sorting.Permutation FunctionalExtensionality.
From Verif Require Import Base BaseFacts Csys Sections Element Load FeModel Assembly Solver Post Api
  SpecApi ApiFacts WfFacts HidFacts ApiProofs1 ApiProofs2 LoadFacts SpecElim ElimFacts SpecGeom CsysFacts SpecBeam BeamFacts MemberLoads AsmFacts SpecAsm AsmProofs
  AsmTotal AsmProofs2 SpecLoad LoadProofs AsmProofs3 SpecSolve AsmSolve SpecMass MassProofs ShellFacts SpecStatics StaticsProofs StaticsProofs2
  Dynamic SpecDyn DynProofs SpecModal ModalProofs SpecModal2 ModalProofs2 SpecTold ToldProofs SpecToldLoad ToldLoadProofs SpecPost PostProofs
  SpecSame SameProofs SameProofs2 StifferProofs StaticsMain SpecFreq FreqProofs FreqProofs2 SpecCut CutFacts CutProofs CutProofs2
  SpecPart PartProofs PartProofs2 PartProofs3 SpecPartModal PartModal.
Import ListNotations.
Local Open Scope R_scope.

Lemma m131_modes ext ops ops' t t' l l' eigsh a c st modes o part m m' : never_readds_nodes ext ops -> never_readds_nodes ext ops' ->
  let w := final ext init (ops ++ [OpAssemble]) in let w' := final ext init (ops' ++ [OpAssemble]) in
  describes ext ops t l -> describes ext ops' t' l' -> apart part t -> apart part t' -> same_part part t t' -> same_masses part t t' -> same_held part ext w w' c ->
  stiffness ext w' <> None -> symmetric_elements ext w' -> assembled_model w = Some m -> assembled_model w' = Some m' ->
  exact_eigen eigsh -> read_asb w = Some a -> solve_eigen (x_ker ext) eigsh a c st = Some (modes, o) ->
  forall i lambda x U V, nth_error o i = Some lambda -> nth_error modes i = Some x -> shape_of ext w c x U -> seen_in part m m' U V ->
  swings ext w' c lambda V
  /\ ((exists k j, part k = true /\ In k (dkeys (f_nodes m)) /\ (j < 6)%nat /\ U (6 * num m k + j)%nat <> 0) -> exists q, (q < equations w')%nat /\ V q <> 0).
Proof.
  intros NR NR' w w' D D' AP AP' SP SM SH SK' SY' Hm Hm' EX Ha HS i lambda x U V HO HX SU SE.
  destruct (solved_parts ext ops eigsh a c st modes o NR EX Ha HS) as (K & M & _ & HK & HM). fold w in HK, HM.
  assert (SK : stiffness ext w <> None) by (rewrite HK; discriminate). split.
  - apply (c131_swings ext ops ops' t t' l l' c part lambda U V m m' NR NR' D D' AP AP' SP SM SH SK SK' SY' Hm Hm' SE). fold w.
    destruct (m116_modes ext ops eigsh a c st modes o NR EX Ha HS i lambda x HO HX) as (_ & MW). fold w in MW. destruct (MW U SU) as (_ & EQ).
    split; [apply SU|exact EQ].
  - intros (k & j & P & Ik & Hj & NZ).
    destruct (part_strain ext ops ops' t t' l l' c part m m' (fun _ _ => 0) (told_guard _ _ NR) (told_guard _ _ NR') D D' AP AP' SP SH SK SK' Hm Hm' (fun _ _ _ => eq_refl))
      as (G & G' & SS & SS' & _).
    assert (I' : In k (dkeys (f_nodes m'))).
    { rewrite dget_in_keys in Ik |- *. destruct Ik as [v E]. pose proof (sh_place _ _ _ SS k P) as L. rewrite E in L. destruct (dget k (f_nodes m')); [eauto|discriminate]. }
    exists (6 * num m' k + j)%nat. split.
    + pose proof (key_num _ _ G' I') as N. assert (NB : (num m' k < List.length (dkeys (f_nodes m')))%nat) by (apply nth_error_Some; congruence).
      unfold dkeys in NB. rewrite map_length in NB. unfold equations. rewrite Hm'. unfold size. lia.
    + rewrite (SE k j I' Hj), P. exact NZ.
Qed.

Lemma all_apart m t (part : string -> bool) : good m -> holds m t -> (forall k, In k (dkeys (f_nodes m)) -> part k = true) -> apart part t.
Proof.
  intros G' (_ & _ & _ & _ & _ & B & S) IN. split.
  - intros k a b p E. rewrite <- B in E. destruct (dget k (f_beams m)) as [e|] eqn:F; [|discriminate]. cbn in E. apply some_inj in E.
    apply dget_some_in in F. destruct (good_ends m k e G' F) as [I1 I2]. pose proof (f_equal (fun z => fst (fst z)) E) as Q1. pose proof (f_equal (fun z => snd (fst z)) E) as Q2. cbn in Q1, Q2.
    rewrite <- Q1, <- Q2, (IN _ I1), (IN _ I2). reflexivity.
  - intros k ns s E a b I1 I2. rewrite <- S in E. destruct (dget k (f_shells m)) as [e|] eqn:F; [|discriminate]. cbn in E. apply some_inj in E.
    apply dget_some_in in F. pose proof (f_equal fst E) as Q1. cbn in Q1. rewrite <- Q1 in I1, I2.
    apply in_map_iff in I1 as (n1 & <- & J1). apply in_map_iff in I2 as (n2 & <- & J2).
    rewrite (IN _ (cur_key _ _ (proj2 (proj2 (proj2 G')) _ _ _ F J1))), (IN _ (cur_key _ _ (proj2 (proj2 (proj2 G')) _ _ _ F J2))). reflexivity.
Qed.

Lemma m131_lower ext ops ops' t t' l l' eigsh eigsh' a a' c st st' modes modes' o o' part : never_readds_nodes ext ops -> never_readds_nodes ext ops' ->
  let w := final ext init (ops ++ [OpAssemble]) in let w' := final ext init (ops' ++ [OpAssemble]) in
  describes ext ops t l -> describes ext ops' t' l' -> apart part t -> same_part part t t' -> same_masses part t t' -> same_held part ext w w' c ->
  (forall k, t_node t' k <> None -> part k = true) ->
  exact_eigen eigsh -> lowest_eigen eigsh -> exact_eigen eigsh' -> lowest_eigen eigsh' -> read_asb w = Some a -> read_asb w' = Some a' ->
  solve_eigen (x_ker ext) eigsh a c st = Some (modes, o) -> solve_eigen (x_ker ext) eigsh' a' c st' = Some (modes', o') ->
  symmetric_elements ext w -> elastic ext w -> elastic ext w' -> massive w -> massive w' -> stable ext w c ->
  forall i lambda lambda', nth_error o i = Some lambda -> nth_error o' i = Some lambda' -> lambda <= lambda'.
Proof.
  intros NR NR' w w' D D' AP SP SM SH ALL EX LO EX' LO' Ha Ha' HS HS' SY EL EL' MA MA' ST.
  destruct (solved_parts ext ops eigsh a c st modes o NR EX Ha HS) as (K & M & Hm & HK & HM). fold w in Hm, HK, HM.
  destruct (solved_parts ext ops' eigsh' a' c st' modes' o' NR' EX' Ha' HS') as (K' & M' & Hm' & HK' & HM'). fold w' in Hm', HK', HM'.
  set (m := a_model a) in *. set (m' := a_model a') in *.
  assert (SK : stiffness ext w <> None) by (rewrite HK; discriminate). assert (SK' : stiffness ext w' <> None) by (rewrite HK'; discriminate).
  assert (MK : mass_matrix w <> None) by (rewrite HM; discriminate). assert (MK' : mass_matrix w' <> None) by (rewrite HM'; discriminate).
  pose proof (m130_stable_part ext ops ops' t t' l l' c part NR NR' D D' AP SP SH SK SK' ALL ST) as ST'. fold w' in ST'.
  pose proof (assembled_good _ _ _ _ eq_refl (told_guard _ _ NR') Hm') as G'.
  destruct (c78_built ext _ m' Hm') as (t0 & T0 & HO'). rewrite (proj1 D') in T0. apply some_inj in T0. subst t0.
  assert (IN : forall k, In k (dkeys (f_nodes m')) -> part k = true).
  { intros k Hk. apply ALL. apply dget_in_keys in Hk as [v E]. destruct HO' as (N & _). rewrite <- N, E. discriminate. }
  pose proof (all_apart m' t' part G' HO' IN) as AP'.
  assert (RV : forall v q, (q < equations w')%nat -> v q = spread m' (only part (named m' v)) q).
  { intros v q Hq. rewrite (spread_ext m' (only part (named m' v)) (named m' v)) by (intros i j Hi _; unfold only; rewrite (IN i Hi); reflexivity).
    symmetry. apply spread_named; [exact G'|]. unfold equations in Hq. rewrite Hm' in Hq. exact Hq. }
  assert (PS : forall v, let u := only part (named m' v) in (permitted ext w' c (spread m' u) -> permitted ext w c (spread m u))
     /\ energy ext w (spread m u) (spread m u) = energy ext w' (spread m' u) (spread m' u) /\ inertia w (spread m u) (spread m u) = inertia w' (spread m' u) (spread m' u)).
  { intros v u.
    destruct (part_strain ext ops' ops t' t l' l c part m' m u (told_guard _ _ NR') (told_guard _ _ NR) D' D AP' AP (part_sym _ _ _ SP) (held_sym _ _ _ _ _ SH) SK' SK Hm' Hm (only_within part _))
      as (_ & _ & _ & _ & PM & EN). fold w w' in PM, EN. split; [exact PM|]. split.
    - specialize (EN u). unfold u in EN at 4. rewrite only_twice in EN. exact EN.
    - apply (part_inertia ext ops' ops t' t l' l c part m' m u (told_guard _ _ NR') (told_guard _ _ NR) D' D AP' AP (part_sym _ _ _ SP)
        ltac:(intros k P; symmetry; apply SM, P) (held_sym _ _ _ _ _ SH) SK' SK MK' MK Hm' Hm (only_within part _) u u). intros k j _. reflexivity. }
  apply (not_lower ext ops ops' NR NR' eigsh eigsh' a a' c c st st' modes modes' o o' EX LO Ha HS EX' LO' Ha' HS' SY EL EL' MA MA' ST ST' (fun v => spread m (only part (named m' v)))).
  - intros n k V q. unfold spread, only, named. destruct (nth_error _ _) as [s|]; [|symmetry; apply rsum_0; intros; ring].
    destruct (part s); [reflexivity|symmetry; apply rsum_0; intros; ring].
  - intros v PV. apply (proj1 (PS v)). intros q Hq Rq. rewrite <- (RV v q Hq). apply PV; assumption.
  - intros v _. refine (Req_le _ _ (eq_trans (proj1 (proj2 (PS v))) _)). symmetry. apply energy_ext; apply RV.
  - intros v _. refine (Req_le _ _ (eq_trans _ (eq_sym (proj2 (proj2 (PS v)))))). apply inertia_ext; apply RV.
Qed.
