(** Cutting a member by a node on it changes nothing elsewhere (C115): the theorems. *)
From Coq Require Import Reals Lra Lia List String Arith Bool ZArith Sorting.Permutation FunctionalExtensionality.
From Verif Require Import Base BaseFacts Csys Sections Element Load FeModel Assembly Solver Post Api
  SpecApi ApiFacts WfFacts HidFacts ApiProofs1 ApiProofs2 LoadFacts SpecElim ElimFacts SpecGeom CsysFacts SpecBeam BeamFacts MemberLoads AsmFacts SpecAsm AsmProofs
  AsmTotal AsmProofs2 SpecLoad LoadProofs AsmProofs3 SpecSolve AsmSolve SpecMass MassProofs ShellFacts SpecStatics StaticsProofs StaticsProofs2
  SpecTold ToldProofs SpecToldLoad ToldLoadProofs SpecPost PostProofs SpecSame SameProofs SameProofs2 StifferProofs StaticsMain SpecCut CutFacts CutProofs.
Import ListNotations.
Local Open Scope R_scope.

Section Cut.
Variables (ext : externals) (ops ops' : list op) (case : string).
Hypothesis NR : never_readds_nodes ext (ops ++ [OpAssemble]).
Hypothesis NR' : never_readds_nodes ext (ops' ++ [OpAssemble]).
Let w := final ext init (ops ++ [OpAssemble]).
Let w' := final ext init (ops' ++ [OpAssemble]).
Variables (t t' : told) (l l' : loads).
Hypothesis D : describes ext ops t l.
Hypothesis D' : describes ext ops' t' l'.
Variables (r : R) (k k2 n a b : string) (pa pb : vec3).
Hypothesis CT : cut r k k2 n a b pa pb t t'.
Hypothesis CC : cut_case r k k2 n l l' case.

Lemma cut_core : exists m m' P, assembled_model w = Some m /\ assembled_model w' = Some m' /\ good m /\ good m'
  /\ based 1 0 zero3 m m' /\ t_beam t k = Some (a, b, P)
  /\ (forall i, In i (dkeys (f_nodes m')) -> i = n \/ In i (dkeys (f_nodes m))) /\ ~ In n (dkeys (f_nodes m)) /\ In n (dkeys (f_nodes m'))
  /\ In a (dkeys (f_nodes m)) /\ In b (dkeys (f_nodes m)) /\ frame (axis_x pa pb) (axis_y pa pb) (axis_z pa pb) /\ 0 < distance pa pb
  /\ (forall i v, In (i, v) (f_beams m) -> t_beam t i = Some (n_name (b_ni v), n_name (b_nj v), b_prop v))
  /\ (forall i v, In (i, v) (f_beams m') -> t_beam t' i = Some (n_name (b_ni v), n_name (b_nj v), b_prop v))
  /\ (stiffness ext w <> None -> stiffness ext w' <> None -> forall x y,
      (straddles r n a b pa pb x \/ straddles r n a b pa pb y -> energy ext w' (spread m' x) (spread m' y) = energy ext w (spread m x) (spread m y))
      /\ energy ext w' (spread m' x) (spread m' y) = energy ext w (spread m x) (spread m y)
         - member_work (props P) (distance pa pb) (member_ends a b pa pb x) (member_ends a b pa pb y)
         + member_work (props P) (r * distance pa pb)
             (Ends (d_i (member_ends a b pa pb x)) (r_i (member_ends a b pa pb x)) (in_member pa pb (dvec x n)) (in_member pa pb (rvec x n)))
             (Ends (d_i (member_ends a b pa pb y)) (r_i (member_ends a b pa pb y)) (in_member pa pb (dvec y n)) (in_member pa pb (rvec y n)))
         + member_work (props P) ((1 - r) * distance pa pb)
             (Ends (in_member pa pb (dvec x n)) (in_member pa pb (rvec x n)) (d_j (member_ends a b pa pb x)) (r_j (member_ends a b pa pb x)))
             (Ends (in_member pa pb (dvec y n)) (in_member pa pb (rvec y n)) (d_j (member_ends a b pa pb y)) (r_j (member_ends a b pa pb y))))
  /\ (load_vector w case <> None -> load_vector w' case <> None -> forall x, straddles r n a b pa pb x \/ unloaded l case k ->
      work_of w' (load_at w' case) (spread m' x) = work_of w (load_at w case) (spread m x))
  /\ (forall i j, flag (governing ext w' case) i j = flag (governing ext w case) i j) /\ (forall j, flag (governing ext w case) n j = false).
Proof.
  destruct (assembled_now ext ops NR) as (_ & A & Ha & Em & Eh & Ec & Wc & _ & G & _). fold w in Ha, Em, Eh, Ec, G, Wc.
  destruct (assembled_now ext ops' NR') as (_ & A' & Ha' & Em' & Eh' & Ec' & Wc' & _ & G' & _). fold w' in Ha', Em', Eh', Ec', G', Wc'.
  rewrite <- Em in G. rewrite <- Em' in G'. set (m := a_model A) in *. set (m' := a_model A') in *.
  assert (Hm : assembled_model w = Some m) by (unfold assembled_model; rewrite Ha; reflexivity).
  assert (Hm' : assembled_model w' = Some m') by (unfold assembled_model; rewrite Ha'; reflexivity).
  destruct D as [HT HL]. destruct D' as [HT' HL'].
  destruct (c78_built ext _ m Hm) as (t0 & T0 & HO). rewrite HT in T0. apply some_inj in T0. subst t0.
  destruct (c78_built ext _ m' Hm') as (t0 & T0 & HO'). rewrite HT' in T0. apply some_inj in T0. subst t0.
  destruct (c79_built ext _ A Ha) as (l0 & T0 & _ & HSH & HCS). rewrite HL in T0. apply some_inj in T0. subst l0.
  destruct (c79_built ext _ A' Ha') as (l0 & T0 & _ & HSH' & HCS'). rewrite HL' in T0. apply some_inj in T0. subst l0.
  destruct CT as [HR (NF & RF & BF) CN CR CSH CB [PA PB] PN (P & P0 & P1 & P2) LA].
  assert (BT : based 1 0 zero3 m m').
  { apply (based_told 1 0 zero3 m m' t t' HO HO'); [|exact CSH]. intros i v E. rewrite CN, E by congruence. cbn [option_map fst]. f_equal. apply vec3_eq; cbn; ring. }
  destruct HO as (ON & OR & _ & _ & _ & OBm & _). destruct HO' as (ON' & OR' & _ & _ & _ & OBm' & _).
  assert (KN : forall i, In i (dkeys (f_nodes m')) -> i = n \/ In i (dkeys (f_nodes m))).
  { intros i Hi. destruct (String.eqb_spec i n) as [E|E]; [left; exact E|right]. specialize (CN i E). rewrite <- ON, <- ON' in CN.
    apply dget_in_keys in Hi as [v Hi]. rewrite Hi in CN. apply dget_in_keys. destruct (dget i (f_nodes m)); [eauto|discriminate]. }
  assert (NN : ~ In n (dkeys (f_nodes m))).
  { intros I. apply dget_in_keys in I as [v I]. specialize (ON n). rewrite I, NF in ON. discriminate. }
  assert (LOC : forall mm tt k0 c v, good mm -> (forall i, option_map (fun v => (n_loc v, n_mass v)) (dget i (f_nodes mm)) = t_node tt i) -> In (k0, v) (f_beams mm) ->
    (n_name (b_ni v) = c -> forall q, option_map fst (t_node tt c) = Some q -> n_loc (b_ni v) = q)
    /\ (n_name (b_nj v) = c -> forall q, option_map fst (t_node tt c) = Some q -> n_loc (b_nj v) = q)).
  { intros mm tt k0 c v GG OO Hb. destruct GG as (_ & _ & EC & _). destruct (EC _ _ Hb) as [(n1 & D1 & L1) (n2 & D2 & L2)].
    split; intros <- q Q; rewrite <- OO in Q; [rewrite D1 in Q|rewrite D2 in Q]; cbn in Q; congruence. }
  pose proof (OBm k) as Q0. rewrite P0 in Q0. pose proof (OBm' k) as Q1. rewrite P1 in Q1. pose proof (OBm' k2) as Q2. rewrite P2 in Q2.
  destruct (dget k (f_beams m)) as [b0|] eqn:B0; [|discriminate]. destruct (dget k (f_beams m')) as [b1|] eqn:B1; [|discriminate].
  destruct (dget k2 (f_beams m')) as [b2|] eqn:B2; [|discriminate]. cbn [option_map] in Q0, Q1, Q2. apply some_inj in Q0, Q1, Q2.
  assert (NB : dget k2 (f_beams m) = None) by (specialize (OBm k2); rewrite BF in OBm; destruct (dget k2 (f_beams m)); [discriminate|reflexivity]).
  pose proof (dget_some_in _ _ _ B0) as I0. pose proof (dget_some_in _ _ _ B1) as I1. pose proof (dget_some_in _ _ _ B2) as I2.
  assert (NA : a <> n).
  { intros ->. rewrite NF in PA. discriminate. }
  assert (NBB : b <> n).
  { intros ->. rewrite NF in PB. discriminate. }
  assert (E0 : (n_name (b_ni b0), n_name (b_nj b0), b_prop b0) = (a, b, P) /\ n_loc (b_ni b0) = pa /\ n_loc (b_nj b0) = pb).
  { split; [exact Q0|]. injection Q0 as X1 X2 _. split; [apply (proj1 (LOC m t k a b0 G ON I0) X1 pa PA)|apply (proj2 (LOC m t k b b0 G ON I0) X2 pb PB)]. }
  assert (E1 : (n_name (b_ni b1), n_name (b_nj b1), b_prop b1) = (a, n, P) /\ n_loc (b_ni b1) = pa /\ n_loc (b_nj b1) = part_way r pa pb).
  { split; [exact Q1|]. injection Q1 as X1 X2 _. split; [apply (proj1 (LOC m' t' k a b1 G' ON' I1) X1 pa); rewrite CN by exact NA; exact PA|apply (proj2 (LOC m' t' k n b1 G' ON' I1) X2 _ PN)]. }
  assert (E2 : (n_name (b_ni b2), n_name (b_nj b2), b_prop b2) = (n, b, P) /\ n_loc (b_ni b2) = part_way r pa pb /\ n_loc (b_nj b2) = pb).
  { split; [exact Q2|]. injection Q2 as X1 X2 _. split; [apply (proj1 (LOC m' t' k2 n b2 G' ON' I2) X1 _ PN)|apply (proj2 (LOC m' t' k2 b b2 G' ON' I2) X2 pb); rewrite CN by exact NBB; exact PB]. }
  assert (OB : forall i, i <> k -> i <> k2 -> option_map (fun b => (n_name (b_ni b), n_name (b_nj b), b_prop b)) (dget i (f_beams m'))
                    = option_map (fun b => (n_name (b_ni b), n_name (b_nj b), b_prop b)) (dget i (f_beams m))).
  { intros i N1 N2. rewrite OBm, OBm'. apply CB; assumption. }
  pose proof (new_node m' r k n a pa pb P b1 G' B1 E1) as IN'. destruct (end_nodes m k a b pa pb P b0 G B0 E0) as [IA IB].
  exists m, m', P. split; [exact Hm|]. split; [exact Hm'|]. split; [exact G|]. split; [exact G'|]. split; [exact BT|]. split; [exact P0|]. split; [exact KN|]. split; [exact NN|].
  split; [exact IN'|]. split; [exact IA|]. split; [exact IB|]. split; [exact (member_frame m k a b pa pb P b0 G B0 E0)|]. split; [exact (length_pos m k a b pa pb P b0 G B0 E0)|].
  split; [|split; [|split; [|split]]].
  - intros i v Hi. rewrite <- OBm. rewrite (in_dget_nodup _ _ _ (wf_beam_nodup _ (proj1 G)) Hi). reflexivity.
  - intros i v Hi. rewrite <- OBm'. rewrite (in_dget_nodup _ _ _ (wf_beam_nodup _ (proj1 G')) Hi). reflexivity.
  - intros SK SK' x y. destruct (stiffness ext w) as [K|] eqn:HK; [|contradiction]. destruct (stiffness ext w') as [K'|] eqn:HK'; [|contradiction].
    rewrite (energy_named ext _ w m K _ _ eq_refl Hm HK), (energy_named ext _ w' m' K' _ _ eq_refl Hm' HK').
    rewrite (shells_stay_put m m' G G' BT (x_ker ext) x y).
    rewrite (beams_swap m m' k k2 b0 b1 b2 G G' BT B0 B1 B2 NB OB x y). split.
    + intros S. pose proof (parts_work m m' r k n a b pa pb P b0 b1 b2 G G' BT HR LA B0 B1 E0 E1 E2 x y S) as PW. lra.
    + rewrite (work_whole m k a b pa pb P b0), (work_left m m' r k n a b pa pb P b0 b1), (work_right m m' r k n a b pa pb P b0 b1 b2) by eassumption. ring.
  - intros SF SF' x S. destruct (load_vector w case) as [f|] eqn:HF; [|contradiction]. destruct (load_vector w' case) as [f'|] eqn:HF'; [|contradiction].
    rewrite (work_named ext _ w m f case _ eq_refl Hm HF), (work_named ext _ w' m' f' case _ eq_refl Hm' HF').
    unfold applied. rewrite Ha, Ha'. pose proof CC as CCc. unfold cut_case in CCc.
    pose proof (HCS case) as C1. pose proof (HCS' case) as C1'. unfold unloaded in S.
    destruct (l_case l case) as [o|] eqn:Lc; [|contradiction]. destruct (l_case l' case) as [o'|] eqn:Lc'; [|contradiction].
    destruct (dget case (a_cases A)) as [lc|] eqn:Elc; [|contradiction]. destruct (dget case (a_cases A')) as [lc'|] eqn:Elc'; [|contradiction].
    assert (CO : case_ok (a_heap A) case lc) by (rewrite Eh; apply (cw_cases _ Wc); apply dget_some_in; rewrite <- Ec; exact Elc).
    assert (CO' : case_ok (a_heap A') case lc') by (rewrite Eh'; apply (cw_cases _ Wc'); apply dget_some_in; rewrite <- Ec'; exact Elc').
    apply (like_applied m m' (a_heap A) (a_heap A') lc lc' case o o' _ _ CO CO' C1 C1').
    intros q. destruct CCc as [CU _]. specialize (CU q). destruct (o_uses o q) as [[i fa]|] eqn:U1, (o_uses o' q) as [[i' fa']|] eqn:U2; try contradiction; [|exact I].
    destruct CU as [<- CS]. split; [reflexivity|]. intros p p' Np Np'.
    apply (power_cut m m' r k k2 n a b pa pb P b0 b1 b2 G G' BT HR LA KN B0 B1 B2 NB E0 E1 E2 OB p p' _ _ (HSH _ _ Np) (HSH' _ _ Np') CS).
    destruct S as [S|S]; [left; exact S|right; apply (S o q i fa eq_refl U1)].
  - pose proof CC as CCc. unfold cut_case in CCc. pose proof (HCS case) as C1. pose proof (HCS' case) as C1'.
    destruct (l_case l case) as [o|] eqn:Lc; [|contradiction]. destruct (l_case l' case) as [o'|] eqn:Lc'; [|contradiction].
    destruct (dget case (a_cases A)) as [lc|] eqn:Elc; [|contradiction]. destruct (dget case (a_cases A')) as [lc'|] eqn:Elc'; [|contradiction].
    destruct CCc as (_ & CRe & CF).
    rewrite (governing_told ext ops w A lc m case NR eq_refl Ha Hm Elc), (governing_told ext ops' w' A' lc' m' case NR' eq_refl Ha' Hm' Elc').
    destruct C1 as (_ & _ & _ & C1). destruct C1' as (_ & _ & _ & C1').
    split.
    + intros i j. apply flags_told.
      * intros i0. rewrite C1, C1', CRe. reflexivity.
      * intros i0. rewrite OR, OR'. apply CR.
    + intros j. pose proof (C1 n) as Z1. rewrite CF in Z1. pose proof (OR n) as Z2. rewrite RF in Z2. cbn in Z1, Z2.
      destruct (c_rest lc) as [|kv rest]; unfold flag, entry; rewrite lookup_dget; [rewrite Z2|rewrite Z1]; destruct j as [|[|[|[|[|[|]]]]]]; reflexivity.
Qed.

Lemma energy_ext w0 x y x' y' : (forall q, (q < equations w0)%nat -> x q = x' q) -> (forall q, (q < equations w0)%nat -> y q = y' q) -> energy ext w0 x y = energy ext w0 x' y'.
Proof. intros A B. unfold energy. apply work_ext. intros q Hq. rewrite (A q Hq). f_equal. unfold holding. apply rsum_ext. intros p Hp. rewrite (B p Hp). reflexivity. Qed.

Let NP (fem0 : fem) (w0 : world) (x : string -> nat -> R) : Prop :=
  forall i j, In i (dkeys (f_nodes fem0)) -> (j < 6)%nat -> flag (governing ext w0 case) i j = true -> x i j = 0.

Lemma symmetric_too m m' : assembled_model w = Some m -> assembled_model w' = Some m' -> based 1 0 zero3 m m' -> symmetric_elements ext w -> symmetric_elements ext w'.
Proof.
  intros Hm Hm' BT SY m1 E. rewrite Hm' in E. apply some_inj in E. subst m1. destruct (SY m Hm) as [Z|Z]; [left|right; exact Z].
  apply nil_dget. intros i. pose proof (bt_shell _ _ _ _ _ BT i) as X. rewrite Z in X. destruct (dget i (f_shells m')); [discriminate|reflexivity].
Qed.

(** ** The same displacements at every node of the first structure *)
Lemma cut_answers : solved ext w case -> solved ext w' case -> stable ext w case -> symmetric_elements ext w ->
  forall i, answer ext w (OpNodeLocation i) <> RNone -> exists v, List.length v = 6%nat
  /\ answer ext (after ext w (OpSolveStatic case)) (OpNodalDisp i case) = RVec v
  /\ answer ext (after ext w' (OpSolveStatic case)) (OpNodalDisp i case) = RVec v.
Proof.
  intros SV SV' ST SY i HI.
  destruct cut_core as (m & m' & P & Hm & Hm' & G & G' & BT & _ & KN & NN & IN' & IA & IB & FR & LP & _ & _ & EN & WK & FL & FN).
  destruct (solved_all ext ops NR case SV) as (m1 & K & f & Hm1 & HKK & HF). fold w in Hm1, HKK, HF. clear m1 Hm1.
  destruct (solved_all ext ops' NR' case SV') as (m1 & K' & f' & Hm1 & HKK' & HF'). fold w' in Hm1, HKK', HF'. clear m1 Hm1.
  specialize (EN ltac:(congruence) ltac:(congruence)). specialize (WK ltac:(congruence) ltac:(congruence)).
  pose proof (symmetric_too m m' Hm Hm' BT SY) as SY'.
  assert (PN : forall x, permitted ext w case (spread m x) <-> NP m w x) by (intros x; apply (permitted_named ext ops case m x NR Hm)).
  assert (PN' : forall x, permitted ext w' case (spread m' x) <-> NP m' w' x) by (intros x; apply (permitted_named ext ops' case m' x NR' Hm')).
  destruct (solved_facts ext ops NR case SV SY) as [PU BU]. fold w in PU, BU.
  destruct (solved_facts ext ops' NR' case SV' SY') as [PU' BU']. fold w' in PU', BU'.
  set (u := solution ext w case) in *. set (u' := solution ext w' case) in *.
  set (y := named m' u').
  assert (RG : forall q, (q < equations w)%nat -> spread m (named m u) q = u q).
  { intros q Hq. apply spread_named; [exact G|]. unfold equations in Hq. rewrite Hm in Hq. exact Hq. }
  assert (RG' : forall q, (q < equations w')%nat -> spread m' y q = u' q).
  { intros q Hq. apply spread_named; [exact G'|]. unfold equations in Hq. rewrite Hm' in Hq. exact Hq. }
  assert (NU : NP m w (named m u)) by (apply PN; intros q Hq Rq; rewrite (RG q Hq); apply PU; assumption).
  assert (NY : NP m' w' y) by (apply PN'; intros q Hq Rq; rewrite (RG' q Hq); apply PU'; assumption).
  assert (KM : forall i, In i (dkeys (f_nodes m)) -> i <> n) by (intros z Hz ->; exact (NN Hz)).
  set (e0 := fun i j => named m u i j - y i j). set (e := bridge r n a b pa pb e0).
  assert (SE : straddles r n a b pa pb e) by (apply bridge_straddles; auto).
  assert (EO : forall i j, In i (dkeys (f_nodes m)) -> e i j = e0 i j) by (intros z j Hz; apply bridge_other, KM, Hz).
  assert (NE : NP m w e).
  { intros z j Hz Hj F. rewrite EO by exact Hz. unfold e0. rewrite (NU z j Hz Hj F), (NY z j); [ring| |exact Hj|rewrite FL; exact F]. apply (based_keys 1 0 zero3 m m' BT), Hz. }
  assert (NE' : NP m' w' e).
  { intros z j Hz Hj F. rewrite FL in F. destruct (KN z Hz) as [->|Hz']; [rewrite FN in F; discriminate|]. apply NE; assumption. }
  assert (W1 : energy ext w (spread m e) (spread m (named m u)) = work_of w (load_at w case) (spread m e)).
  { pose proof (balanced_work ext ops NR case u (spread m e) (proj2 (PN e) NE) BU) as BW. fold w in BW. rewrite <- BW. apply energy_ext; auto. }
  assert (W2 : energy ext w (spread m e) (spread m y) = work_of w (load_at w case) (spread m e)).
  { rewrite <- (proj1 (EN e y) (or_introl SE)), <- (WK e (or_introl SE)).
    pose proof (balanced_work ext ops' NR' case u' _ (proj2 (PN' _) NE') BU') as BW. fold w' in BW. rewrite <- BW. apply energy_ext; auto. }
  assert (Z : energy ext w (spread m e) (spread m e) = 0).
  { transitivity (energy ext w (spread m e) (fun q => spread m (named m u) q - spread m y q)).
    - apply energy_ext; [auto|]. intros q _. rewrite (spread_ext m e e0 (fun z j Hz _ => EO z j Hz)). unfold spread, e0. destruct (nth_error _ _); ring.
    - rewrite energy_sub_r, W1, W2. ring. }
  pose proof (ST (spread m e) (proj2 (PN e) NE) Z) as ZE.
  assert (KIN : In i (dkeys (f_nodes m))).
  { destruct (assembled_now ext ops NR) as (_ & A & Ha & Em & _). fold w in Ha, Em.
    assert (EA0 : m = a_model A) by (unfold assembled_model in Hm; rewrite Ha in Hm; apply some_inj in Hm; auto).
    apply dget_in_keys. unfold answer in HI. cbn [step snd] in HI. unfold model_node_location in HI. rewrite <- Em, <- EA0 in HI.
    destruct (dget i (f_nodes m)) as [n0|]; [eauto|]. exfalso. apply HI. reflexivity. }
  assert (QE : forall j, (j < 6)%nat -> y i j = named m u i j).
  { intros j Hj. pose proof (ZE (6 * num m i + j)%nat) as X. rewrite (spread_at m e i j G KIN Hj), (EO i j KIN) in X. unfold e0 in X.
    enough (named m u i j - y i j = 0) by lra. apply X. unfold equations. rewrite Hm.
    pose proof (key_num _ _ G KIN) as N. assert (NB : (num m i < List.length (dkeys (f_nodes m)))%nat) by (apply nth_error_Some; congruence).
    unfold dkeys in NB. rewrite map_length in NB. unfold size. lia. }
  exists (map (fun j => named m u i j) (seq 0 6)). split; [reflexivity|]. split; [apply (answered ext ops case m i NR (sv_true _ _ _ SV) Hm KIN)|].
  unfold w'. rewrite (answered ext ops' case m' i NR' (sv_true _ _ _ SV') Hm') by (apply (based_keys 1 0 zero3 m m' BT), KIN).
  fold w'. fold u'. f_equal. unfold y in QE. cbn [seq map]. rewrite !QE by lia. reflexivity.
Qed.

(** ** The displacement at the cut, if the member carries no load *)
Lemma cut_between : solved ext w case -> solved ext w' case -> stable ext w' case -> symmetric_elements ext w -> unloaded l case k ->
  exists va vb v, answer ext (after ext w (OpSolveStatic case)) (OpNodalDisp a case) = RVec va
  /\ answer ext (after ext w (OpSolveStatic case)) (OpNodalDisp b case) = RVec vb
  /\ answer ext (after ext w' (OpSolveStatic case)) (OpNodalDisp n case) = RVec v
  /\ forall f, beam_field f ->
     ends_of_field f (distance pa pb) = ends_along (axis_x pa pb) (axis_y pa pb) (axis_z pa pb) (Ends (shift_of va) (spin_of va) (shift_of vb) (spin_of vb)) ->
     along (axis_x pa pb) (axis_y pa pb) (axis_z pa pb) (shift_of v) = disp_x f (r * distance pa pb)
     /\ along (axis_x pa pb) (axis_y pa pb) (axis_z pa pb) (spin_of v) = rot_x f (r * distance pa pb).
Proof.
  intros SV SV' ST' SY UL.
  destruct cut_core as (m & m' & P & Hm & Hm' & G & G' & BT & _ & KN & NN & IN' & IA & IB & FR & LP & _ & _ & EN & WK & FL & FN).
  destruct (solved_all ext ops NR case SV) as (m1 & K & f & Hm1 & HKK & HF). fold w in Hm1, HKK, HF. clear m1 Hm1.
  destruct (solved_all ext ops' NR' case SV') as (m1 & K' & f' & Hm1 & HKK' & HF'). fold w' in Hm1, HKK', HF'. clear m1 Hm1.
  specialize (EN ltac:(congruence) ltac:(congruence)). specialize (WK ltac:(congruence) ltac:(congruence)).
  pose proof (symmetric_too m m' Hm Hm' BT SY) as SY'.
  assert (PN : forall x, permitted ext w case (spread m x) <-> NP m w x) by (intros x; apply (permitted_named ext ops case m x NR Hm)).
  assert (PN' : forall x, permitted ext w' case (spread m' x) <-> NP m' w' x) by (intros x; apply (permitted_named ext ops' case m' x NR' Hm')).
  destruct (solved_facts ext ops NR case SV SY) as [PU BU]. fold w in PU, BU.
  destruct (solved_facts ext ops' NR' case SV' SY') as [PU' BU']. fold w' in PU', BU'.
  set (u := solution ext w case) in *. set (u' := solution ext w' case) in *.
  set (y := named m' u'). set (z := bridge r n a b pa pb (named m u)).
  assert (KM : forall i, In i (dkeys (f_nodes m)) -> i <> n) by (intros q Hq ->; exact (NN Hq)).
  assert (SZ : straddles r n a b pa pb z) by (apply bridge_straddles; auto).
  assert (ZO : forall i j, In i (dkeys (f_nodes m)) -> z i j = named m u i j) by (intros i j Hi; apply bridge_other, KM, Hi).
  assert (RG : forall q, (q < equations w)%nat -> spread m z q = u q).
  { intros q Hq. rewrite (spread_ext m z (named m u) (fun i j Hi _ => ZO i j Hi)). apply spread_named; [exact G|]. unfold equations in Hq. rewrite Hm in Hq. exact Hq. }
  assert (RG' : forall q, (q < equations w')%nat -> spread m' y q = u' q).
  { intros q Hq. apply spread_named; [exact G'|]. unfold equations in Hq. rewrite Hm' in Hq. exact Hq. }
  assert (NU : NP m w z) by (apply PN; intros q Hq Rq; rewrite (RG q Hq); apply PU; assumption).
  assert (NY : NP m' w' y) by (apply PN'; intros q Hq Rq; rewrite (RG' q Hq); apply PU'; assumption).
  set (e := fun i j => y i j - z i j).
  assert (NE' : NP m' w' e).
  { intros i j Hi Hj F. unfold e. rewrite (NY i j Hi Hj F). rewrite FL in F. destruct (KN i Hi) as [->|Hi']; [rewrite FN in F; discriminate|]. rewrite (NU i j Hi' Hj F). ring. }
  assert (NE : NP m w e).
  { intros i j Hi Hj F. apply NE'; [apply (based_keys 1 0 zero3 m m' BT), Hi|exact Hj|rewrite FL; exact F]. }
  assert (W1 : energy ext w' (spread m' e) (spread m' y) = work_of w' (load_at w' case) (spread m' e)).
  { pose proof (balanced_work ext ops' NR' case u' _ (proj2 (PN' _) NE') BU') as BW. fold w' in BW. rewrite <- BW. apply energy_ext; auto. }
  assert (W2 : energy ext w' (spread m' e) (spread m' z) = work_of w' (load_at w' case) (spread m' e)).
  { rewrite (proj1 (EN e z) (or_intror SZ)), (WK e (or_intror UL)).
    pose proof (balanced_work ext ops NR case u (spread m e) (proj2 (PN e) NE) BU) as BW. fold w in BW. rewrite <- BW. apply energy_ext; auto. }
  assert (Z : energy ext w' (spread m' e) (spread m' e) = 0).
  { transitivity (energy ext w' (spread m' e) (fun q => spread m' y q - spread m' z q)).
    - apply energy_ext; [auto|]. intros q _. unfold spread, e. destruct (nth_error _ _); ring.
    - rewrite energy_sub_r, W1, W2. ring. }
  pose proof (ST' (spread m' e) (proj2 (PN' e) NE') Z) as ZE.
  assert (QE : forall j, (j < 6)%nat -> y n j = z n j).
  { intros j Hj. pose proof (ZE (6 * num m' n + j)%nat) as X. rewrite (spread_at m' e n j G' IN' Hj) in X. unfold e in X.
    enough (y n j - z n j = 0) by lra. apply X. unfold equations. rewrite Hm'.
    pose proof (key_num _ _ G' IN') as N. assert (NB : (num m' n < List.length (dkeys (f_nodes m')))%nat) by (apply nth_error_Some; congruence).
    unfold dkeys in NB. rewrite map_length in NB. unfold size. lia. }
  exists (map (fun j => named m u a j) (seq 0 6)), (map (fun j => named m u b j) (seq 0 6)), (map (fun j => z n j) (seq 0 6)).
  split; [apply (answered ext ops case m a NR (sv_true _ _ _ SV) Hm IA)|]. split; [apply (answered ext ops case m b NR (sv_true _ _ _ SV) Hm IB)|].
  split; [unfold w'; rewrite (answered ext ops' case m' n NR' (sv_true _ _ _ SV') Hm' IN'); fold w'; fold u'; f_equal; unfold y in QE; cbn [seq map]; rewrite !QE by lia; reflexivity|].
  intros g BF EG. destruct SZ as [S1 S2]. unfold in_member in S1, S2.
  assert (EM : ends_of_field g (distance pa pb) = member_ends a b pa pb z).
  { rewrite EG. unfold member_ends, in_member, ends_along, dvec, rvec. rewrite !ZO by assumption. reflexivity. }
  rewrite (through_unique (distance pa pb) g) by (try lra; exact BF). rewrite EM. split; [exact S1|exact S2].
Qed.

(** ** Stability *)
Lemma cut_stable_back : stiffness ext w <> None -> stiffness ext w' <> None -> stable ext w' case -> stable ext w case.
Proof.
  intros SK SK' ST x PX ZX q Hq.
  destruct cut_core as (m & m' & P & Hm & Hm' & G & G' & BT & _ & KN & NN & IN' & IA & IB & FR & LP & _ & _ & EN & _ & FL & FN).
  specialize (EN SK SK').
  assert (KM : forall i, In i (dkeys (f_nodes m)) -> i <> n) by (intros i Hi ->; exact (NN Hi)).
  set (z := bridge r n a b pa pb (named m x)).
  assert (SZ : straddles r n a b pa pb z) by (apply bridge_straddles; auto).
  assert (RG : forall q, (q < equations w)%nat -> spread m z q = x q).
  { intros p Hp. rewrite (spread_ext m z (named m x)); [|intros i j Hi _; apply bridge_other, KM, Hi]. apply spread_named; [exact G|]. unfold equations in Hp. rewrite Hm in Hp. exact Hp. }
  assert (NZ : NP m w z) by (refine (proj1 (permitted_named ext ops case m z NR Hm) _); intros p Hp Rp; fold w; rewrite (RG p Hp); apply PX; assumption).
  assert (PZ : permitted ext w' case (spread m' z)).
  { apply (permitted_named ext ops' case m' z NR' Hm'). intros i j Hi Hj F. fold w' in F. rewrite FL in F. destruct (KN i Hi) as [->|Hi']; [rewrite FN in F; discriminate|]. apply NZ; assumption. }
  assert (EZ : energy ext w' (spread m' z) (spread m' z) = 0) by (rewrite (proj1 (EN z z) (or_introl SZ)), <- ZX; apply energy_ext; auto).
  pose proof (ST _ PZ EZ) as Z0. rewrite <- (RG q Hq). unfold spread. destruct (nth_error (dkeys (f_nodes m)) (q / 6)) as [i|] eqn:E; [|reflexivity].
  apply nth_error_In in E. pose proof (based_keys 1 0 zero3 m m' BT i E) as I'.
  rewrite <- (spread_at m' z i (q mod 6) G' I') by (apply Nat.mod_upper_bound; discriminate). apply Z0.
  unfold equations. rewrite Hm'. pose proof (key_num _ _ G' I') as N. assert (NB : (num m' i < List.length (dkeys (f_nodes m')))%nat) by (apply nth_error_Some; congruence).
  unfold dkeys in NB. rewrite map_length in NB. unfold size. pose proof (Nat.mod_upper_bound q 6 ltac:(discriminate)). lia.
Qed.
Lemma cut_stiff : elastic ext w -> (forall p, t_beam t k = Some (a, b, p) -> props_pos p) -> stiffness ext w <> None /\ stiffness ext w' <> None.
Proof.
  intros EL PP.
  destruct cut_core as (m & m' & P & Hm & Hm' & G & G' & BT & TB & KN & NN & IN' & IA & IB & FR & LP & BM & BM' & EN & _ & FL & FN).
  specialize (PP P TB).
  pose proof Hm as Ha. unfold assembled_model in Ha. destruct (read_asb w) as [A|] eqn:RA; [|discriminate]. cbn in Ha. apply some_inj in Ha.
    pose proof Hm' as Ha'. unfold assembled_model in Ha'. destruct (read_asb w') as [A'|] eqn:RA'; [|discriminate]. cbn in Ha'. apply some_inj in Ha'. subst m m'.
    destruct (EL _ Hm) as [PN _].
    assert (MU : forall i v, In (i, v) (f_beams (a_model A)) -> 1 + bp_mu (b_prop v) <> 0).
    { intros i v I. specialize (PN i v I). unfold props_nonneg in PN. destruct (b_prop v); cbn [bp_mu]; lra. }
    assert (MU' : forall i v, In (i, v) (f_beams (a_model A')) -> 1 + bp_mu (b_prop v) <> 0).
    { intros i v I. pose proof (BM' i v I) as TV. pose proof CT as CTc. destruct CTc as [_ _ _ _ _ CB _ _ (P9 & Q0 & Q1 & Q2) _].
      rewrite Q0 in TB. injection TB as ->.
      destruct (String.eqb_spec i k) as [E1|N1]; [rewrite E1, Q1 in TV; injection TV as _ _ <-; unfold props_pos in PP; destruct P; cbn [bp_mu]; lra|].
      destruct (String.eqb_spec i k2) as [E2|N2]; [rewrite E2, Q2 in TV; injection TV as _ _ <-; unfold props_pos in PP; destruct P; cbn [bp_mu]; lra|].
      rewrite (CB i N1 N2) in TV. pose proof I as Ikeep. clear Ikeep.
      destruct (D) as [HT _]. destruct (c78_built ext _ _ Hm) as (t0 & T0 & HO). fold w in HO. rewrite HT in T0. apply some_inj in T0. subst t0.
      destruct HO as (_ & _ & _ & _ & _ & OB & _). specialize (OB i). rewrite TV in OB. destruct (dget i (f_beams (a_model A))) as [v0|] eqn:E0; [|discriminate].
      cbn in OB. apply some_inj in OB. pose proof (f_equal snd OB) as OP. cbn in OP. rewrite <- OP. apply (MU i v0), dget_some_in, E0. }
    destruct (assemble_K_total (x_ker ext) A G MU) as (K & HK). destruct (assemble_K_total (x_ker ext) A' G' MU') as (K' & HK').
    unfold stiffness. rewrite RA, RA'. cbn [bindO]. rewrite HK, HK'. split; discriminate.
Qed.
Lemma cut_stable : elastic ext w -> (forall p, t_beam t k = Some (a, b, p) -> props_pos p) -> stable ext w case -> stable ext w' case.
Proof.
  intros EL PP ST x PX ZX q Hq.
  destruct cut_core as (m & m' & P & Hm & Hm' & G & G' & BT & TB & KN & NN & IN' & IA & IB & FR & LP & BM & BM' & EN & _ & FL & FN).
  pose proof PP as PP0. specialize (PP P TB).
  destruct (cut_stiff EL PP0) as [SK SK'].
specialize (EN SK SK').
  assert (KM : forall i, In i (dkeys (f_nodes m)) -> i <> n) by (intros i Hi ->; exact (NN Hi)).
  set (y := named m' x). set (z := bridge r n a b pa pb y). set (d := fun i j => y i j - z i j).
  assert (SZ : straddles r n a b pa pb z) by (apply bridge_straddles; auto).
  assert (RG' : forall q, (q < equations w')%nat -> spread m' y q = x q).
  { intros p Hp. apply spread_named; [exact G'|]. unfold equations in Hp. rewrite Hm' in Hp. exact Hp. }
  assert (ZO : forall i j, In i (dkeys (f_nodes m)) -> z i j = y i j) by (intros i j Hi; apply bridge_other, KM, Hi).
  assert (NY : NP m' w' y) by (refine (proj1 (permitted_named ext ops' case m' y NR' Hm') _); intros p Hp Rp; fold w'; rewrite (RG' p Hp); apply PX; assumption).
  assert (PZ : permitted ext w case (spread m z)).
  { apply (permitted_named ext ops case m z NR Hm). intros i j Hi Hj F. fold w in F. rewrite ZO by exact Hi. apply NY; [apply (based_keys 1 0 zero3 m m' BT), Hi|exact Hj|rewrite FL; exact F]. }
  assert (D0 : forall i j, In i (dkeys (f_nodes m)) -> d i j = 0) by (intros i j Hi; unfold d; rewrite ZO by exact Hi; ring).
  assert (SD : forall q, spread m d q = 0).
  { intros p. unfold spread. destruct (nth_error _ _) as [i|] eqn:E; [|reflexivity]. apply D0. apply nth_error_In in E. exact E. }
  assert (E0x : forall v, energy ext w (spread m d) v = 0) by (intros v; unfold energy, work_of; apply rsum_0; intros p _; rewrite SD; ring).
  assert (Ex0 : forall v, energy ext w v (spread m d) = 0).
  { intros v; unfold energy, work_of; apply rsum_0; intros p _. unfold holding. rewrite rsum_0; [ring|]. intros p0 _. rewrite SD. ring. }
  (* the energy is that of the first structure and that of the parts under the rest *)
  assert (DE : energy ext w' (spread m' d) (spread m' d) = energy ext w' x x - energy ext w (spread m z) (spread m z)).
  { transitivity (energy ext w' (fun q => spread m' y q - spread m' z q) (fun q => spread m' y q - spread m' z q)).
    { apply energy_ext; intros p _; unfold spread, d; destruct (nth_error _ _); ring. }
    rewrite energy_sub. rewrite (proj1 (EN y z) (or_intror SZ)), (proj1 (EN z y) (or_introl SZ)), (proj1 (EN z z) (or_introl SZ)).
    rewrite (spread_ext m y z) by (intros; symmetry; apply ZO; assumption). rewrite (energy_ext w' (spread m' y) (spread m' y) x x RG' RG'). ring. }
  pose proof (energy_nonneg ext ops EL (spread m z)) as N1. fold w in N1.
  pose proof (proj2 (EN d d)) as DD. rewrite E0x in DD.
  assert (ME : member_ends a b pa pb d = Ends zero3 zero3 zero3 zero3).
  { unfold member_ends, dvec, rvec, in_member. rewrite !D0 by assumption. fold zero3. rewrite !along_zero. reflexivity. }
  rewrite ME in DD. cbn [d_i r_i d_j r_j] in DD.
  set (dn := in_member pa pb (dvec d n)) in *. set (rn := in_member pa pb (rvec d n)) in *.
  pose proof (props_pos_stiff P PP) as SP. pose proof (cu_ratio _ _ _ _ _ _ _ _ _ _ CT) as [R0 R1].
  assert (L1 : 0 < r * distance pa pb) by (apply Rmult_lt_0_compat; lra). assert (L2 : 0 < (1 - r) * distance pa pb) by (apply Rmult_lt_0_compat; lra).
  assert (SN : stiff_nonneg (props P)) by (destruct SP as (? & ? & ? & ?); repeat split; lra).
  pose proof (member_nonneg (props P) (r * distance pa pb) (Ends zero3 zero3 dn rn) SN L1) as M1.
  pose proof (member_nonneg (props P) ((1 - r) * distance pa pb) (Ends dn rn zero3 zero3) SN L2) as M2.
  replace (member_work (props P) (distance pa pb) (Ends zero3 zero3 zero3 zero3) (Ends zero3 zero3 zero3 zero3)) with 0 in DD
    by (unfold member_work, bend, zero3; cbn [d_i r_i d_j r_j vx vy vz]; field; lra).
  assert (EZ : energy ext w (spread m z) (spread m z) = 0) by lra.
  assert (W1 : member_work (props P) (r * distance pa pb) (Ends zero3 zero3 dn rn) (Ends zero3 zero3 dn rn) = 0) by lra.
  pose proof (ST _ PZ EZ) as Z0.
  assert (YM : forall i j, In i (dkeys (f_nodes m)) -> (j < 6)%nat -> y i j = 0).
  { intros i j Hi Hj. rewrite <- ZO by exact Hi. rewrite <- (spread_at m z i j G Hi Hj). apply Z0. unfold equations. rewrite Hm.
    pose proof (key_num _ _ G Hi) as N. assert (NB : (num m i < List.length (dkeys (f_nodes m)))%nat) by (apply nth_error_Some; congruence).
    unfold dkeys in NB. rewrite map_length in NB. unfold size. lia. }
  apply (member_zero _ _ _ SP L1) in W1 as (tt & ww & W1). unfold rigid_ends in W1.
  pose proof (f_equal d_i W1) as T1. pose proof (f_equal r_i W1) as T2. pose proof (f_equal d_j W1) as T3. pose proof (f_equal r_j W1) as T4. cbn [d_i r_i d_j r_j] in T1, T2, T3, T4. clear W1.
  assert (DN : dn = zero3 /\ rn = zero3).
  { subst ww. split; [|exact T4]. rewrite T3. clear T3 T4 M1 M2 DD. apply vec3_eq; unfold SpecBeam.moved, cross, vadd, zero3 in *; cbn [vx vy vz]; pose proof (f_equal vx T1) as X; pose proof (f_equal vy T1) as Y; pose proof (f_equal vz T1) as Z; cbn in X, Y, Z; lra. }
  destruct DN as [DN RN]. apply (along_inj _ _ _ _ FR) in DN. apply (along_inj _ _ _ _ FR) in RN.
  (* and the bridge of nothing is nothing *)
  assert (BZ : dvec z n = zero3 /\ rvec z n = zero3).
  { destruct SZ as [S1 S2].
    assert (MZ : member_ends a b pa pb z = Ends zero3 zero3 zero3 zero3).
    { unfold member_ends, dvec, rvec, in_member. rewrite !ZO, !YM by (assumption || lia). fold zero3. rewrite !along_zero. reflexivity. }
    rewrite MZ in S1, S2. split; apply (along_inj _ _ _ _ FR).
    - unfold in_member in S1. rewrite S1. unfold disp_x, through, cubic, peval, zero3. cbn [f_u f_v f_w f_t c0 c1 c2 c3 d_i r_i d_j r_j vx vy vz]. f_equal; field; lra.
    - unfold in_member in S2. rewrite S2. unfold rot_x, through, cubic, peval, pder, zero3. cbn [f_u f_v f_w f_t c0 c1 c2 c3 d_i r_i d_j r_j vx vy vz]. f_equal; field; lra. }
  destruct BZ as [BZ BZ'].
  assert (YN : forall j, (j < 6)%nat -> y n j = 0).
  { assert (HH : forall j, d n j = 0 -> z n j = 0 -> y n j = 0) by (intros j; unfold d; lra).
    unfold dvec, rvec, zero3 in DN, RN, BZ, BZ'. injection DN as D1 D2 D3. injection RN as D4 D5 D6. injection BZ as B1 B2 B3. injection BZ' as B4 B5 B6.
    intros j Hj. apply HH; destruct j as [|[|[|[|[|[|]]]]]]; try assumption; lia. }
  rewrite <- (RG' q Hq). unfold spread. destruct (nth_error (dkeys (f_nodes m')) (q / 6)) as [i|] eqn:E; [|reflexivity]. apply nth_error_In in E.
  pose proof (Nat.mod_upper_bound q 6 ltac:(discriminate)) as J. destruct (KN i E) as [->|I]; [apply YN, J|apply YM; assumption].
Qed.
End Cut.

Lemma m115_same ext ops ops' t t' l l' case r k k2 n a b pa pb : never_readds_nodes ext ops -> never_readds_nodes ext ops' ->
  let w := final ext init (ops ++ [OpAssemble]) in let w' := final ext init (ops' ++ [OpAssemble]) in
  describes ext ops t l -> describes ext ops' t' l' -> cut r k k2 n a b pa pb t t' -> cut_case r k k2 n l l' case ->
  solved ext w case -> solved ext w' case -> stable ext w case -> symmetric_elements ext w ->
  forall i, answer ext w (OpNodeLocation i) <> RNone -> exists v, List.length v = 6%nat
  /\ answer ext (after ext w (OpSolveStatic case)) (OpNodalDisp i case) = RVec v
  /\ answer ext (after ext w' (OpSolveStatic case)) (OpNodalDisp i case) = RVec v.
Proof.
  intros NR NR' w w' D D' CT CC.
  exact (cut_answers ext ops ops' case (told_guard _ _ NR) (told_guard _ _ NR') t t' l l' D D' r k k2 n a b pa pb CT CC).
Qed.
Lemma m115_between ext ops ops' t t' l l' case r k k2 n a b pa pb : never_readds_nodes ext ops -> never_readds_nodes ext ops' ->
  let w := final ext init (ops ++ [OpAssemble]) in let w' := final ext init (ops' ++ [OpAssemble]) in
  describes ext ops t l -> describes ext ops' t' l' -> cut r k k2 n a b pa pb t t' -> cut_case r k k2 n l l' case ->
  solved ext w case -> solved ext w' case -> stable ext w' case -> symmetric_elements ext w -> unloaded l case k ->
  let member := along (axis_x pa pb) (axis_y pa pb) (axis_z pa pb) in
  exists va vb v, answer ext (after ext w (OpSolveStatic case)) (OpNodalDisp a case) = RVec va
  /\ answer ext (after ext w (OpSolveStatic case)) (OpNodalDisp b case) = RVec vb
  /\ answer ext (after ext w' (OpSolveStatic case)) (OpNodalDisp n case) = RVec v
  /\ forall f, beam_field f ->
     ends_of_field f (distance pa pb) = Ends (member (shift_of va)) (member (spin_of va)) (member (shift_of vb)) (member (spin_of vb)) ->
     member (shift_of v) = disp_x f (r * distance pa pb) /\ member (spin_of v) = rot_x f (r * distance pa pb).
Proof.
  intros NR NR' w w' D D' CT CC.
  exact (cut_between ext ops ops' case (told_guard _ _ NR) (told_guard _ _ NR') t t' l l' D D' r k k2 n a b pa pb CT CC).
Qed.
Lemma m115_stable ext ops ops' t t' l l' case r k k2 n a b pa pb : never_readds_nodes ext ops -> never_readds_nodes ext ops' ->
  let w := final ext init (ops ++ [OpAssemble]) in let w' := final ext init (ops' ++ [OpAssemble]) in
  describes ext ops t l -> describes ext ops' t' l' -> cut r k k2 n a b pa pb t t' -> cut_case r k k2 n l l' case ->
  elastic ext w -> (forall p, t_beam t k = Some (a, b, p) -> props_pos p) ->
  (stable ext w case <-> stable ext w' case).
Proof.
  intros NR NR' w w' D D' CT CC EL PP. split.
  - exact (cut_stable ext ops ops' case (told_guard _ _ NR) (told_guard _ _ NR') t t' l l' D D' r k k2 n a b pa pb CT CC EL PP).
  - destruct (cut_stiff ext ops ops' case (told_guard _ _ NR) (told_guard _ _ NR') t t' l l' D D' r k k2 n a b pa pb CT CC EL PP) as [S1 S2].
    exact (cut_stable_back ext ops ops' case (told_guard _ _ NR) (told_guard _ _ NR') t t' l l' D D' r k k2 n a b pa pb CT CC S1 S2).
Qed.
