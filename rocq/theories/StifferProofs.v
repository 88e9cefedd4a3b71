(** Structures that have more members, stiffer members or more supports give way less (C109). *)
From Coq Require Import Reals Lra Lia List String Arith Bool ZArith Sorting.Permutation.
From Verif Require Import Base BaseFacts Csys Sections Element Load FeModel Assembly Solver Post Api
  SpecApi ApiFacts WfFacts HidFacts ApiProofs1 ApiProofs2 LoadFacts SpecElim ElimFacts SpecGeom CsysFacts SpecBeam BeamFacts AsmFacts SpecAsm AsmProofs
  AsmTotal AsmProofs2 SpecLoad LoadProofs AsmProofs3 SpecSolve AsmSolve SpecMass MassProofs ShellFacts SpecStatics StaticsProofs StaticsProofs2
  SpecTold ToldProofs SpecToldLoad ToldLoadProofs SpecPost PostProofs SpecSame SameProofs SameProofs2.
Import ListNotations.
Local Open Scope R_scope.

Section Stiff.
Variables (ext : externals) (ops ops' : list op) (case : string).
Hypothesis NR : never_readds_nodes ext (ops ++ [OpAssemble]).
Hypothesis NR' : never_readds_nodes ext (ops' ++ [OpAssemble]).
Let w := final ext init (ops ++ [OpAssemble]).
Let w' := final ext init (ops' ++ [OpAssemble]).
Variables (t t' : told) (l l' : loads).
Hypothesis HT : built (notes (trace ext init (ops ++ [OpAssemble]))) = Some t.
Hypothesis HT' : built (notes (trace ext init (ops' ++ [OpAssemble]))) = Some t'.
Hypothesis HL : l_built (load_notes (trace ext init (ops ++ [OpAssemble]))) = Some l.
Hypothesis HL' : l_built (load_notes (trace ext init (ops' ++ [OpAssemble]))) = Some l'.
Hypothesis ST : stiffer t t'.
Hypothesis UL : unloaded_extras t t' l case.
Hypothesis SL : same_loads l l' case.
Hypothesis FL : forall k j, flag (governing ext w case) k j = true -> flag (governing ext w' case) k j = true.
Hypothesis SV : solved ext w case.
Hypothesis SV' : solved ext w' case.
Hypothesis SY : symmetric_elements ext w.
Hypothesis EL : elastic ext w.

Lemma spread_turned m x q : spread m (turned_by 1 0 x) q = spread m x q.
Proof.
  unfold spread. destruct (nth_error _ _); [|reflexivity]. unfold turned_by, turn_six, turn_z. cbn [vx vy vz nth].
  pose proof (Nat.mod_upper_bound q 6 ltac:(discriminate)) as H. destruct (q mod 6)%nat as [|[|[|[|[|[|]]]]]]; cbn [nth]; try ring. lia.
Qed.

Lemma stiffer_work : work_of w' (load_at w' case) (solution ext w' case) <= work_of w (load_at w case) (solution ext w case).
Proof.
  destruct (assembled_now ext ops NR) as (_ & a & Ha & Em & Eh & Ec & Wc & _ & G & _). fold w in Ha, Em, Eh, Ec, G, Wc.
  destruct (assembled_now ext ops' NR') as (_ & a' & Ha' & Em' & Eh' & Ec' & Wc' & _ & G' & _). fold w' in Ha', Em', Eh', Ec', G', Wc'.
  rewrite <- Em in G. rewrite <- Em' in G'. set (m := a_model a) in *. set (m' := a_model a') in *.
  assert (Hm : assembled_model w = Some m) by (unfold assembled_model; rewrite Ha; reflexivity).
  assert (Hm' : assembled_model w' = Some m') by (unfold assembled_model; rewrite Ha'; reflexivity).
  destruct (c78_built ext _ m Hm) as (t0 & T0 & HO). rewrite HT in T0. apply some_inj in T0. subst t0.
  destruct (c78_built ext _ m' Hm') as (t0 & T0 & HO'). rewrite HT' in T0. apply some_inj in T0. subst t0.
  destruct (c79_built ext _ a Ha) as (l0 & T0 & _ & HSH & HCS). rewrite HL in T0. apply some_inj in T0. subst l0.
  destruct (c79_built ext _ a' Ha') as (l0 & T0 & _ & HSH' & HCS'). rewrite HL' in T0. apply some_inj in T0. subst l0.
  assert (BT : based 1 0 zero3 m m').
  { apply (based_told 1 0 zero3 m m' t t' HO HO'); [|exact (sf_shell _ _ ST)]. intros k n E. rewrite (sf_node _ _ ST), E. cbn [option_map fst]. f_equal. apply vec3_eq; cbn; ring. }
  assert (U : 1 * 1 + 0 * 0 = 1) by ring.
  destruct (solved_all ext ops NR case SV) as (m1 & K & f & Hm1 & HKK & HF). fold w in Hm1, HKK, HF. rewrite Hm in Hm1. apply some_inj in Hm1. subst m1.
  destruct (solved_all ext ops' NR' case SV') as (m1 & K' & f' & Hm1 & HKK' & HF'). fold w' in Hm1, HKK', HF'. rewrite Hm' in Hm1. apply some_inj in Hm1. subst m1.
  assert (SY' : symmetric_elements ext w').
  { intros m1 E. rewrite Hm' in E. apply some_inj in E. subst m1. destruct (SY m Hm) as [Z|Z]; [left|right; exact Z].
    apply nil_dget. intros k0. pose proof (bt_shell _ _ _ _ _ BT k0) as X. rewrite Z in X. destruct (dget k0 (f_shells m')); [discriminate|reflexivity]. }
  (* members by name *)
  assert (ME : forall k, match dget k (f_beams m), dget k (f_beams m') with
     | Some b, Some b' => no_softer (b_prop b) (b_prop b')
         /\ distance (n_loc (b_ni b')) (n_loc (b_nj b')) = distance (n_loc (b_ni b)) (n_loc (b_nj b))
         /\ forall x, let p := n_loc (b_ni b) in let q := n_loc (b_nj b) in let p' := n_loc (b_ni b') in let q' := n_loc (b_nj b') in
        ends_along (axis_x p' q') (axis_y p' q') (axis_z p' q') (beam_ends m' b' (spread m' (turned_by 1 0 x)))
        = ends_along (axis_x p q) (axis_y p q) (axis_z p q) (beam_ends m b (spread m x))
     | None, Some b' => props_nonneg (b_prop b') /\ t_beam t k = None /\ t_beam t' k <> None
     | None, None => True | Some _, None => False end).
  { intros k. pose proof (sf_beam _ _ ST k) as S. destruct HO as (_ & _ & _ & _ & _ & OB & _). destruct HO' as (_ & _ & _ & _ & _ & OB' & _).
    specialize (OB k). specialize (OB' k). destruct (dget k (f_beams m)) as [b|] eqn:E, (dget k (f_beams m')) as [b'|] eqn:E'; cbn [option_map] in OB, OB';
    rewrite <- OB, <- OB' in S; auto.
    - destruct S as (N1 & N2 & NS). split; [exact NS|]. apply (based_member 1 0 zero3 m m' U G G' BT k); auto using dget_some_in. left. auto.
    - split; [exact S|]. rewrite <- OB, <- OB'. split; [reflexivity|discriminate]. }
  (* energy *)
  set (u' := solution ext w' case). set (y := named m' u').
  assert (RG' : forall q, (q < equations w')%nat -> spread m' (turned_by 1 0 y) q = u' q).
  { intros q Hq. unfold equations in Hq. rewrite Hm' in Hq. rewrite spread_turned. unfold y. apply spread_named; assumption. }
  assert (EN : energy ext w (spread m y) (spread m y) <= energy ext w' u' u').
  { assert (Q : energy ext w' u' u' = energy ext w' (spread m' (turned_by 1 0 y)) (spread m' (turned_by 1 0 y))).
    { symmetry. unfold energy. apply work_ext. intros q Hq. rewrite (RG' q Hq). f_equal. unfold holding. apply rsum_ext. intros p Hp. rewrite (RG' p Hp). reflexivity. }
    rewrite Q, (energy_named ext _ w m K _ _ eq_refl Hm HKK), (energy_named ext _ w' m' K' _ _ eq_refl Hm' HKK').
    rewrite (based_shells 1 0 zero3 m m' U G G' BT (x_ker ext) y y (shells_stay 1 0 zero3 m (x_ker ext) eq_refl eq_refl eq_refl)). apply Rplus_le_compat_r.
    unfold dvals. rewrite !map_map. apply lsum_keyed_le; [apply G|apply G'|]. intros k. specialize (ME k).
    destruct (dget k (f_beams m)) as [b|] eqn:E, (dget k (f_beams m')) as [b'|] eqn:E'; auto; cbn [snd]; apply dget_some_in in E'.
    - destruct ME as ((H1 & H2 & H3 & H4) & D & V). unfold beam_work. rewrite (V y), D. apply member_mono; auto.
      apply dget_some_in in E. apply (beam_dist_pos m k). apply (wf_beam _ (proj1 G) _ _ E).
    - apply member_nonneg; [apply props_nonneg_stiff, ME|]. apply (beam_dist_pos m' k). apply (wf_beam _ (proj1 G') _ _ E'). }
  (* work *)
  assert (WK : work_of w (load_at w case) (spread m y) = work_of w' (load_at w' case) u').
  { assert (Q : work_of w' (load_at w' case) u' = work_of w' (load_at w' case) (spread m' (turned_by 1 0 y))).
    { symmetry. apply work_ext. intros q Hq. rewrite (RG' q Hq). reflexivity. }
    rewrite Q, (work_named ext _ w m f case _ eq_refl Hm HF), (work_named ext _ w' m' f' case _ eq_refl Hm' HF').
    unfold applied. rewrite Ha, Ha'.
    pose proof (HCS case) as C1. pose proof (HCS' case) as C1'. pose proof SL as SLc. unfold same_loads in SLc. pose proof (UL) as ULc. unfold unloaded_extras in ULc.
    destruct (l_case l case) as [o|] eqn:Lc; [|contradiction]. destruct (l_case l' case) as [o'|] eqn:Lc'; [|contradiction].
    destruct (dget case (a_cases a)) as [lc|] eqn:Elc; [|contradiction]. destruct (dget case (a_cases a')) as [lc'|] eqn:Elc'; [|contradiction].
    assert (CO : case_ok (a_heap a) case lc) by (rewrite Eh; apply (cw_cases _ Wc); apply dget_some_in; rewrite <- Ec; exact Elc).
    assert (CO' : case_ok (a_heap a') case lc') by (rewrite Eh'; apply (cw_cases _ Wc'); apply dget_some_in; rewrite <- Ec'; exact Elc').
    symmetry. apply (like_applied m m' (a_heap a) (a_heap a') lc lc' case o o' _ _ CO CO' C1 C1').
    intros q. specialize (SLc q). destruct (o_uses o q) as [[i fa]|] eqn:Q1, (o_uses o' q) as [[i' fa']|] eqn:Q2; try contradiction; [|exact I].
    destruct SLc as [<- [A1 A2 A3]]. split; [reflexivity|]. intros P P' Np Np'.
    destruct (HSH _ _ Np) as (S1 & S2 & S3). destruct (HSH' _ _ Np') as (S1' & S2' & S3').
    unfold pattern_power. f_equal.
    - apply (based_nodes 1 0 zero3 m m' U G G' BT).
      2:{ intros k0 Hk. left. pose proof (sf_node _ _ ST k0) as E. destruct HO as (ON & _). destruct HO' as (ON' & _). rewrite <- ON, <- ON' in E.
          apply dget_in_keys in Hk as [v Hk]. rewrite Hk in E. apply dget_in_keys. destruct (dget k0 (f_nodes m)); [eauto|discriminate]. }
      intros k0. rewrite S1, S1', A1. destruct (s_node _ k0) as [[[[[[a1 a2] a3] a4] a5] a6]|]; [|reflexivity].
      cbn [option_map]. f_equal. unfold turn_six, turn_z. cbn [as_list nth vx vy vz]. repeat f_equal; ring.
    - symmetry. apply lsum_keyed_more; [apply G|apply G'|]. intros k. specialize (ME k).
      destruct (dget k (f_beams m)) as [b|] eqn:E, (dget k (f_beams m')) as [b'|] eqn:E'; auto.
      + destruct ME as (_ & D & V). unfold member_power. cbn [fst snd]. rewrite (V y), D. unfold pat_beam_f. rewrite S2, S2', A2, S3, S3', A3. reflexivity.
      + destruct ME as (_ & N1 & N2). destruct (ULc o q i fa k eq_refl Q1 N1 N2) as [Z1 Z2]. apply bare_power. split; [rewrite S2', A2, Z1|rewrite S3', A3, Z2]; reflexivity. }
  destruct (solved_facts ext ops' NR' case SV' SY') as [PU' _]. fold w' in PU'. fold u' in PU'.
  assert (PY : permitted ext w case (spread m y)).
  { apply (permitted_named ext ops case m y NR Hm). fold w. intros k j Hk Hj F. apply FL in F.
    assert (PY' : permitted ext w' case (spread m' y)).
    { intros q Hq Rq. unfold y. rewrite spread_named; [apply PU'; assumption|exact G'|]. unfold equations in Hq. rewrite Hm' in Hq. exact Hq. }
    apply (permitted_named ext ops' case m' y NR' Hm' ); [exact PY'| |exact Hj|exact F]. apply (based_keys 1 0 zero3 m m' BT). exact Hk. }
  pose proof (c106_minimum ext ops NR case _ SV SY EL PY) as M. fold w in M.
  pose proof (potential_solution ext ops NR case SV SY) as E0. fold w in E0. rewrite E0 in M. unfold potential in M.
  pose proof (c106_clapeyron ext ops' NR' case SV' SY') as E. fold w' in E. fold u' in E. rewrite WK in M. fold u'. lra.
Qed.
End Stiff.
