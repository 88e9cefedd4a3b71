(** Structures that differ only in the stiffness of their members (C139). *)
From Coq Require Import Reals Lra Lia List String Arith Bool ZArith Sorting.Permutation.
From Verif Require Import Base BaseFacts Csys Sections Element Load FeModel Assembly Solver Post Api
  SpecApi ApiFacts WfFacts HidFacts ApiProofs1 ApiProofs2 LoadFacts SpecElim ElimFacts SpecGeom CsysFacts SpecBeam BeamFacts AsmFacts SpecAsm AsmProofs
  AsmTotal AsmProofs2 SpecLoad LoadProofs AsmProofs3 SpecSolve AsmSolve SpecMass MassProofs ShellFacts SpecStatics StaticsProofs StaticsProofs2
  SpecTold ToldProofs SpecToldLoad ToldLoadProofs SpecPost PostProofs SpecSame SameProofs SameProofs2 StifferProofs StaticsMain SpecScale.
From Verif Require SpecPart PartProofs2.
Import ListNotations.
Local Open Scope R_scope.

Lemma energy_times ext w z c x : energy ext w z (fun q => c * x q) = c * energy ext w z x.
Proof.
  unfold energy, work_of, holding.
  assert (S1 : forall n g, rsum n (fun q => c * g q) = c * rsum n g).
  { intros n g. induction n as [|n IH]; cbn [rsum]; [ring|]. rewrite IH. ring. }
  rewrite <- S1. apply rsum_ext. intros q _.
  rewrite (rsum_ext _ (fun p => stiff_at ext w q p * (c * x p)) (fun p => c * (stiff_at ext w q p * x p))) by (intros; ring).
  rewrite S1. ring.
Qed.

Lemma member_times c s s' l d e : EA s' = c * EA s -> GJ s' = c * GJ s -> EI2 s' = c * EI2 s -> EI3 s' = c * EI3 s -> 
  member_work s' l d e = c * member_work s l d e.
Proof. intros H1 H2 H3 H4. unfold member_work. rewrite H1, H2, H3, H4. unfold bend, Rdiv. ring. Qed.

Lemma lsum_times {A} c (g : A -> R) l : lsum (map (fun a => c * g a) l) = c * lsum (map g l).
Proof. induction l as [|a l IH]; cbn [map lsum]; [ring|]. rewrite IH. ring. Qed.

Section Scale.
Variables (ext : externals) (ops ops' : list op) (case : string) (c : R).
Hypothesis NR : never_readds_nodes ext (ops ++ [OpAssemble]).
Hypothesis NR' : never_readds_nodes ext (ops' ++ [OpAssemble]).
Let w := final ext init (ops ++ [OpAssemble]).
Let w' := final ext init (ops' ++ [OpAssemble]).
Variables (t t' : told) (l l' : loads).
Hypothesis D : describes ext ops t l.
Hypothesis D' : describes ext ops' t' l'.
Hypothesis RS : rescaled c t t'.
Hypothesis SL : same_loads l l' case.
Hypothesis FL : forall k j, flag (governing ext w' case) k j = flag (governing ext w case) k j.
Hypothesis SV : solved ext w case.
Hypothesis SV' : solved ext w' case.
Hypothesis ST : stable ext w case.

Lemma c139_scaled k : answer ext w (OpNodeLocation k) <> RNone -> exists v, List.length v = 6%nat
  /\ answer ext (after ext w' (OpSolveStatic case)) (OpNodalDisp k case) = RVec v
  /\ answer ext (after ext w (OpSolveStatic case)) (OpNodalDisp k case) = RVec (map (Rmult c) v).
Proof.
  intros HK.
  destruct (assembled_now ext ops NR) as (_ & a & Ha & Em & Eh & Ec & Wc & _ & G & _). fold w in Ha, Em, Eh, Ec, G, Wc.
  destruct (assembled_now ext ops' NR') as (_ & a' & Ha' & Em' & Eh' & Ec' & Wc' & _ & G' & _). fold w' in Ha', Em', Eh', Ec', G', Wc'.
  rewrite <- Em in G. rewrite <- Em' in G'. set (m := a_model a) in *. set (m' := a_model a') in *.
  assert (Hm : assembled_model w = Some m) by (unfold assembled_model; rewrite Ha; reflexivity).
  assert (Hm' : assembled_model w' = Some m') by (unfold assembled_model; rewrite Ha'; reflexivity).
  pose proof D as [HT HL]. pose proof D' as [HT' HL'].
  destruct (c78_built ext _ m Hm) as (t0 & T0 & HO). rewrite HT in T0. apply some_inj in T0. subst t0.
  destruct (c78_built ext _ m' Hm') as (t0 & T0 & HO'). rewrite HT' in T0. apply some_inj in T0. subst t0.
  destruct (c79_built ext _ a Ha) as (l0 & T0 & _ & HSH & HCS). rewrite HL in T0. apply some_inj in T0. subst l0.
  destruct (c79_built ext _ a' Ha') as (l0 & T0 & _ & HSH' & HCS'). rewrite HL' in T0. apply some_inj in T0. subst l0.
  assert (BT : based 1 0 zero3 m m').
  { apply (based_told 1 0 zero3 m m' t t' HO HO').
    - intros k0 n E. rewrite (rs_node _ _ _ RS), E. cbn [option_map fst]. f_equal. apply vec3_eq; cbn; ring.
    - intros k0. destruct (rs_shell _ _ _ RS k0) as [-> ->]. reflexivity. }
  assert (U : 1 * 1 + 0 * 0 = 1) by ring.
  destruct (solved_all ext ops NR case SV) as (m1 & K & f & Hm1 & HKK & HF). fold w in Hm1, HKK, HF. rewrite Hm in Hm1. apply some_inj in Hm1. subst m1.
  destruct (solved_all ext ops' NR' case SV') as (m1 & K' & f' & Hm1 & HKK' & HF'). fold w' in Hm1, HKK', HF'. rewrite Hm' in Hm1. apply some_inj in Hm1. subst m1.
  assert (Z : f_shells m = []).
  { apply nil_dget. intros k0. destruct HO as (_ & _ & _ & _ & _ & _ & OS). specialize (OS k0). rewrite (proj1 (rs_shell _ _ _ RS k0)) in OS.
    destruct (dget k0 (f_shells m)); [discriminate|reflexivity]. }
  assert (Z' : f_shells m' = []).
  { apply nil_dget. intros k0. destruct HO' as (_ & _ & _ & _ & _ & _ & OS). specialize (OS k0). rewrite (proj2 (rs_shell _ _ _ RS k0)) in OS.
    destruct (dget k0 (f_shells m')); [discriminate|reflexivity]. }
  assert (SY : symmetric_elements ext w) by (intros m1 E; rewrite Hm in E; apply some_inj in E; subst m1; left; exact Z).
  assert (SY' : symmetric_elements ext w') by (intros m1 E; rewrite Hm' in E; apply some_inj in E; subst m1; left; exact Z').
  (* members by name *)
  assert (ME : forall k, match dget k (f_beams m), dget k (f_beams m') with
     | Some b, Some b' => times_stiffer c (b_prop b) (b_prop b')
         /\ distance (n_loc (b_ni b')) (n_loc (b_nj b')) = distance (n_loc (b_ni b)) (n_loc (b_nj b))
         /\ forall x, let p := n_loc (b_ni b) in let q := n_loc (b_nj b) in let p' := n_loc (b_ni b') in let q' := n_loc (b_nj b') in
        ends_along (axis_x p' q') (axis_y p' q') (axis_z p' q') (beam_ends m' b' (spread m' (turned_by 1 0 x)))
        = ends_along (axis_x p q) (axis_y p q) (axis_z p q) (beam_ends m b (spread m x))
     | None, None => True | _, _ => False end).
  { intros k0. pose proof (rs_beam _ _ _ RS k0) as S. destruct HO as (_ & _ & _ & _ & _ & OB & _). destruct HO' as (_ & _ & _ & _ & _ & OB' & _).
    specialize (OB k0). specialize (OB' k0). destruct (dget k0 (f_beams m)) as [b|] eqn:E, (dget k0 (f_beams m')) as [b'|] eqn:E'; cbn [option_map] in OB, OB';
    rewrite <- OB, <- OB' in S; auto.
    destruct S as (N1 & N2 & NS). split; [exact NS|]. apply (based_member 1 0 zero3 m m' U G G' BT k0); auto using dget_some_in. left. auto. }
  assert (EN : forall x y, energy ext w' (spread m' (turned_by 1 0 x)) (spread m' (turned_by 1 0 y)) = c * energy ext w (spread m x) (spread m y)).
  { intros x y. rewrite (energy_named ext _ w m K _ _ eq_refl Hm HKK), (energy_named ext _ w' m' K' _ _ eq_refl Hm' HKK'), Z, Z'.
    unfold dvals. cbn [map lsum]. rewrite !Rplus_0_r, !map_map, <- lsum_times.
    apply lsum_keyed; [apply G'|apply G|]. intros k0. specialize (ME k0).
    destruct (dget k0 (f_beams m)) as [b|] eqn:E, (dget k0 (f_beams m')) as [b'|] eqn:E'; auto; cbn [snd].
    destruct ME as ((H1 & H2 & H3 & H4) & Dd & V). unfold beam_work. rewrite (V x), (V y), Dd. apply member_times; assumption. }
  assert (WK : forall x, work_of w' (load_at w' case) (spread m' (turned_by 1 0 x)) = work_of w (load_at w case) (spread m x)).
  { intros x. rewrite (work_named ext _ w m f case _ eq_refl Hm HF), (work_named ext _ w' m' f' case _ eq_refl Hm' HF').
    unfold applied. rewrite Ha, Ha'.
    pose proof (HCS case) as C1. pose proof (HCS' case) as C1'. pose proof SL as SLc. unfold same_loads in SLc.
    destruct (l_case l case) as [o|] eqn:Lc; [|contradiction]. destruct (l_case l' case) as [o'|] eqn:Lc'; [|contradiction].
    destruct (dget case (a_cases a)) as [lc|] eqn:Elc; [|contradiction]. destruct (dget case (a_cases a')) as [lc'|] eqn:Elc'; [|contradiction].
    assert (CO : case_ok (a_heap a) case lc) by (rewrite Eh; apply (cw_cases _ Wc); apply dget_some_in; rewrite <- Ec; exact Elc).
    assert (CO' : case_ok (a_heap a') case lc') by (rewrite Eh'; apply (cw_cases _ Wc'); apply dget_some_in; rewrite <- Ec'; exact Elc').
    apply (like_applied m m' (a_heap a) (a_heap a') lc lc' case o o' _ _ CO CO' C1 C1').
    intros q. specialize (SLc q). destruct (o_uses o q) as [[i fa]|] eqn:Q1, (o_uses o' q) as [[i' fa']|] eqn:Q2; try contradiction; [|exact I].
    destruct SLc as [<- [A1 A2 A3]]. split; [reflexivity|]. intros P P' Np Np'.
    destruct (HSH _ _ Np) as (S1 & S2 & S3). destruct (HSH' _ _ Np') as (S1' & S2' & S3').
    unfold pattern_power. f_equal.
    - apply (based_nodes 1 0 zero3 m m' U G G' BT).
      2:{ intros k0 Hk. left. pose proof (rs_node _ _ _ RS k0) as E. destruct HO as (ON & _). destruct HO' as (ON' & _). rewrite <- ON, <- ON' in E.
          apply dget_in_keys in Hk as [v Hk]. rewrite Hk in E. apply dget_in_keys. destruct (dget k0 (f_nodes m)); [eauto|discriminate]. }
      intros k0. rewrite S1, S1', A1. destruct (s_node _ k0) as [[[[[[a1 a2] a3] a4] a5] a6]|]; [|reflexivity].
      cbn [option_map]. f_equal. unfold turn_six, turn_z. cbn [as_list nth vx vy vz]. repeat f_equal; ring.
    - apply lsum_keyed; [apply G'|apply G|]. intros k0. specialize (ME k0).
      destruct (dget k0 (f_beams m)) as [b|] eqn:E, (dget k0 (f_beams m')) as [b'|] eqn:E'; auto.
      destruct ME as (_ & Dd & V). unfold member_power. cbn [fst snd]. rewrite (V x), Dd. unfold pat_beam_f. rewrite S2, S2', A2, S3, S3', A3. reflexivity. }
  destruct (solved_facts ext ops' NR' case SV' SY') as [PU' BU']. fold w' in PU', BU'. set (u' := solution ext w' case) in *.
  set (y := named m' u').
  assert (RG' : forall q, (q < equations w')%nat -> spread m' y q = u' q).
  { intros q Hq. apply spread_named; [exact G'|]. unfold equations in Hq. rewrite Hm' in Hq. exact Hq. }
  assert (PN : forall x, permitted ext w case (spread m x) <-> forall k j, In k (dkeys (f_nodes m)) -> (j < 6)%nat -> flag (governing ext w case) k j = true -> x k j = 0)
    by (intros x; apply (permitted_named ext ops case m x NR Hm)).
  assert (PN' : forall x, permitted ext w' case (spread m' x) <-> forall k j, In k (dkeys (f_nodes m')) -> (j < 6)%nat -> flag (governing ext w' case) k j = true -> x k j = 0)
    by (intros x; apply (permitted_named ext ops' case m' x NR' Hm')).
  pose proof (based_keys 1 0 zero3 m m' BT) as KEYS.
  assert (BACK : forall k0, In k0 (dkeys (f_nodes m')) -> In k0 (dkeys (f_nodes m))).
  { intros k0 Hk. pose proof (rs_node _ _ _ RS k0) as E. destruct HO as (ON & _). destruct HO' as (ON' & _). rewrite <- ON, <- ON' in E.
    apply dget_in_keys in Hk as [v Hk]. rewrite Hk in E. apply dget_in_keys. destruct (dget k0 (f_nodes m)); [eauto|discriminate]. }
  assert (NY : forall k j, In k (dkeys (f_nodes m')) -> (j < 6)%nat -> flag (governing ext w' case) k j = true -> y k j = 0).
  { apply PN'. intros q Hq Rq. rewrite (RG' q Hq). apply PU'; assumption. }
  assert (KIN : In k (dkeys (f_nodes m))).
  { apply dget_in_keys. unfold answer in HK. cbn [step snd] in HK. unfold model_node_location in HK. rewrite <- Em in HK.
    fold m in HK. destruct (dget k (f_nodes m)) as [n|]; [eauto|]. exfalso. apply HK. reflexivity. }
  exists (map (fun j => y k j) (seq 0 6)). split; [reflexivity|]. split.
  - unfold w'. rewrite (answered ext ops' case m' k NR' (sv_true _ _ _ SV') Hm') by (apply KEYS, KIN). reflexivity.
  - rewrite map_map.
    apply (PartProofs2.part_unique ext ops case (fun _ => true) NR t l D (conj (fun _ _ _ _ _ => eq_refl) (fun _ _ _ _ _ _ _ _ => eq_refl)) m (fun k j => c * y k j) Hm SV ST SY); [| |exact KIN|reflexivity].
    + intros k0 j Hk Hj _ F. assert (Hk' : In k0 (dkeys (f_nodes m'))) by (apply KEYS; exact Hk). rewrite <- FL in F. rewrite (NY k0 j Hk' Hj F). ring.
    + intros x _ PX.
      assert (PX' : permitted ext w' case (spread m' x)).
      { apply PN'. intros k0 j Hk Hj F. rewrite FL in F. apply (proj1 (PN x) PX k0 j (BACK k0 Hk) Hj F). }
      fold w. transitivity (energy ext w (spread m x) (fun q => c * spread m y q)).
      { unfold energy. apply work_ext. intros q Hq. f_equal. unfold holding. apply rsum_ext. intros p Hp. f_equal. unfold spread. destruct (nth_error _ _); ring. }
      rewrite energy_times, <- EN, <- WK.
      pose proof (balanced_work ext ops' NR' case u' _ PX' BU') as BW. fold w' in BW.
      transitivity (energy ext w' (spread m' x) u').
      * unfold energy. apply work_ext. intros q Hq. rewrite spread_turned. f_equal. unfold holding. apply rsum_ext. intros p Hp. rewrite spread_turned, (RG' p Hp). reflexivity.
      * rewrite BW. apply work_ext. intros q Hq. rewrite spread_turned. reflexivity.
Qed.
End Scale.

Lemma m139_scaled ext ops ops' t t' l l' case c : never_readds_nodes ext ops -> never_readds_nodes ext ops' ->
  let w := final ext init (ops ++ [OpAssemble]) in let w' := final ext init (ops' ++ [OpAssemble]) in
  describes ext ops t l -> describes ext ops' t' l' -> rescaled c t t' -> same_loads l l' case ->
  (forall k j, flag (governing ext w' case) k j = flag (governing ext w case) k j) ->
  solved ext w case -> solved ext w' case -> stable ext w case ->
  forall k, answer ext w (OpNodeLocation k) <> RNone -> exists v, List.length v = 6%nat
  /\ answer ext (after ext w' (OpSolveStatic case)) (OpNodalDisp k case) = RVec v
  /\ answer ext (after ext w (OpSolveStatic case)) (OpNodalDisp k case) = RVec (map (Rmult c) v).
Proof.
  intros NR NR' w w' D D' RS SL FL SV SV' ST k HK.
  exact (c139_scaled ext ops ops' case c (told_guard _ _ NR) (told_guard _ _ NR') t t' l l' D D' RS SL FL SV SV' ST k HK).
Qed.
