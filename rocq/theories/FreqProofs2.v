(** Stiffer or lighter structures and more supports do not lower the modes (C121). *)
From Coq Require Import Reals Lra Lia List String Arith Bool ZArith Sorting.Permutation.
From Verif Require Import Base BaseFacts Csys Sections Element Load FeModel Assembly Solver Post Api
  SpecApi ApiFacts WfFacts HidFacts ApiProofs1 ApiProofs2 LoadFacts SpecElim ElimFacts SpecGeom CsysFacts SpecBeam BeamFacts AsmFacts SpecAsm AsmProofs
  AsmTotal AsmProofs2 SpecLoad LoadProofs AsmProofs3 SpecSolve AsmSolve SpecMass MassProofs ShellFacts SpecStatics StaticsProofs StaticsProofs2 StaticsMain
  Dynamic SpecDyn DynProofs SpecModal ModalProofs SpecModal2 ModalProofs2 SpecTold ToldProofs SpecToldLoad ToldLoadProofs SpecPost PostProofs
  SpecSame SameProofs SameProofs2 StifferProofs SpecFreq FreqProofs.
Import ListNotations.
Local Open Scope R_scope.

Section Compare.
Variables (ext : externals) (ops ops' : list op).
Hypothesis (NR : never_readds_nodes ext ops) (NR' : never_readds_nodes ext ops').
Let w := final ext init (ops ++ [OpAssemble]).
Let w' := final ext init (ops' ++ [OpAssemble]).
Variables (eigsh eigsh' : eigensolver) (a a' : asm) (c c' : string) (st st' : modal_setting) (modes modes' : list (list R)) (o o' : list R).
Hypothesis (EX : exact_eigen eigsh) (LO : lowest_eigen eigsh) (Ha : read_asb w = Some a) (HS : solve_eigen (x_ker ext) eigsh a c st = Some (modes, o)).
Hypothesis (EX' : exact_eigen eigsh') (LO' : lowest_eigen eigsh') (Ha' : read_asb w' = Some a') (HS' : solve_eigen (x_ker ext) eigsh' a' c' st' = Some (modes', o')).
Hypothesis (SY : symmetric_elements ext w) (EL : elastic ext w) (EL' : elastic ext w') (MA : massive w) (MA' : massive w') (ST : stable ext w c) (ST' : stable ext w' c').
Variable phi : (nat -> R) -> nat -> R.
Hypothesis P1 : forall n k V q, phi (fun p => rsum n (fun i => k i * V i p)) q = rsum n (fun i => k i * phi (V i) q).
Hypothesis P2 : forall v, permitted ext w' c' v -> permitted ext w c (phi v).
Hypothesis P3 : forall v, permitted ext w' c' v -> energy ext w (phi v) (phi v) <= energy ext w' v v.
Hypothesis P4 : forall v, permitted ext w' c' v -> inertia w' v v <= inertia w (phi v) (phi v).

Lemma made_shapes : exists U, shapes_of ext w c modes U.
Proof.
  assert (H : forall n, (n <= List.length modes)%nat -> exists U, forall j x, (j < n)%nat -> nth_error modes j = Some x -> shape_of ext w c x (U j)).
  { induction n as [|n IH]; intros L; [exists (fun _ _ => 0); intros; lia|]. destruct IH as (U & HU); [lia|].
    destruct (nth_error modes n) as [x|] eqn:E; [|apply nth_error_None in E; lia].
    destruct (shape_made ext ops (told_guard _ _ NR) eigsh a c st modes o EX Ha HS x) as (V & HV).
    exists (fun j => if Nat.eqb j n then V else U j). intros j y Hj Ey. destruct (Nat.eqb_spec j n) as [->|NE]; [|apply HU; [lia|exact Ey]].
    rewrite E in Ey. apply some_inj in Ey. subst y. exact HV. }
  destruct (H (List.length modes) (le_n _)) as (U & HU). exists U. intros j x E. apply HU; [|exact E]. apply nth_error_Some. congruence.
Qed.
End Compare.

Section Compare2.
Variables (ext : externals) (ops ops' : list op).
Hypothesis (NR : never_readds_nodes ext ops) (NR' : never_readds_nodes ext ops').
Let w := final ext init (ops ++ [OpAssemble]).
Let w' := final ext init (ops' ++ [OpAssemble]).
Variables (eigsh eigsh' : eigensolver) (a a' : asm) (c c' : string) (st st' : modal_setting) (modes modes' : list (list R)) (o o' : list R).
Hypothesis (EX : exact_eigen eigsh) (LO : lowest_eigen eigsh) (Ha : read_asb w = Some a) (HS : solve_eigen (x_ker ext) eigsh a c st = Some (modes, o)).
Hypothesis (EX' : exact_eigen eigsh') (LO' : lowest_eigen eigsh') (Ha' : read_asb w' = Some a') (HS' : solve_eigen (x_ker ext) eigsh' a' c' st' = Some (modes', o')).
Hypothesis (SY : symmetric_elements ext w) (EL : elastic ext w) (EL' : elastic ext w') (MA : massive w) (MA' : massive w') (ST : stable ext w c) (ST' : stable ext w' c').
Variable phi : (nat -> R) -> nat -> R.
Hypothesis P1 : forall n k V q, phi (fun p => rsum n (fun i => k i * V i p)) q = rsum n (fun i => k i * phi (V i) q).
Hypothesis P2 : forall v, permitted ext w' c' v -> permitted ext w c (phi v).
Hypothesis P3 : forall v, permitted ext w' c' v -> energy ext w (phi v) (phi v) <= energy ext w' v v.
Hypothesis P4 : forall v, permitted ext w' c' v -> inertia w' v v <= inertia w (phi v) (phi v).

Lemma not_lower i lambda lambda' : nth_error o i = Some lambda -> nth_error o' i = Some lambda' -> lambda <= lambda'.
Proof.
  intros HO HO'.
  destruct (made_shapes ext ops NR eigsh a c st modes o EX Ha HS) as (U & SU). fold w in SU.
  destruct (made_shapes ext ops' NR' eigsh' a' c' st' modes' o' EX' Ha' HS') as (U' & SU'). fold w' in SU'.
  destruct (mode_facts ext ops NR eigsh a c st modes o EX LO Ha HS EL MA ST U SU) as (l & F). fold w in F.
  destruct (mode_facts ext ops' NR' eigsh' a' c' st' modes' o' EX' LO' Ha' HS' EL' MA' ST' U' SU') as (l' & F'). fold w' in F'.
  destruct (lowest_world ext ops' NR' eigsh' a' c' st' modes' o' LO' Ha' HS') as (_ & ORD & _).
  assert (Li : (i < List.length o)%nat) by (apply nth_error_Some; congruence). assert (Li' : (i < List.length o')%nat) by (apply nth_error_Some; congruence).
  destruct (homogeneous (S i) (map (fun k j => inertia w (phi (U' j)) (U k)) (seq 0 i))) as (k & (z & Hz & NZ) & HK); [rewrite map_length, seq_length; lia|].
  set (v := fun q => rsum (S i) (fun j => k j * U' j q)).
  assert (PV : permitted ext w' c' v).
  { intros q Hq Rq. unfold v. apply rsum_0. intros j Hj. destruct (F' j ltac:(lia)) as (_ & PU & _). rewrite (PU q Hq Rq). ring. }
  assert (PHI : forall y, inertia w (phi v) y = rsum (S i) (fun j => k j * inertia w (phi (U' j)) y)).
  { intros y. unfold inertia at 1. transitivity (work_of w (fun q => rsum (equations w) (fun p => mass_at w q p * y p)) (fun q => rsum (S i) (fun j => k j * phi (U' j) q))).
    - apply work_ext. intros q Hq. unfold v. rewrite P1. reflexivity.
    - rewrite work_sum_r. reflexivity. }
  assert (OV : forall j, (j < i)%nat -> inertia w (phi v) (U j) = 0).
  { intros j Hj. rewrite PHI. specialize (HK (fun j' => inertia w (phi (U' j')) (U j))).
    rewrite (rsum_ext _ _ (fun j' => inertia w (phi (U' j')) (U j) * k j')) by (intros; ring). apply HK. apply in_map_iff. exists j. split; [reflexivity|apply in_seq; lia]. }
  pose proof (rayleigh ext ops NR eigsh a c st modes o EX LO Ha HS SY EL MA ST U SU i lambda (phi v) HO (P2 v PV) OV) as RA. fold w in RA.
  assert (IV : inertia w' v v = rsum (S i) (fun j => k j * k j * inertia w' (U' j) (U' j))).
  { apply (gram_diag ext ops' (mass_at w') (S i) k U'). intros p q Hp Hq NE. destruct (F' q ltac:(lia)) as (_ & _ & _ & _ & _ & Z). apply Z; auto; lia. }
  assert (EV : energy ext w' v v = rsum (S i) (fun j => k j * k j * (l' j * inertia w' (U' j) (U' j)))).
  { unfold v. etransitivity; [apply (gram_diag ext ops' (stiff_at ext w') (S i) k U')|].
    - intros p q Hp Hq NE. destruct (F' q ltac:(lia)) as (_ & _ & _ & _ & Q & Z). destruct (F' p ltac:(lia)) as (_ & PU & _).
      change (energy ext w' (U' p) (U' q) = 0). rewrite (Q _ PU), (Z p) by (auto; lia). ring.
    - apply rsum_ext. intros j Hj. f_equal. destruct (F' j ltac:(lia)) as (_ & PU & _ & _ & Q & _). exact (Q (U' j) PU). }
  assert (LE : energy ext w' v v <= lambda' * inertia w' v v).
  { rewrite EV, IV, <- rsum_scal. apply rsum_le. intros j Hj. destruct (F' j ltac:(lia)) as (HJ & _ & _ & P & _).
    assert (G : l' j <= lambda') by (apply (ORD j i (l' j) lambda'); [lia|exact HJ|exact HO']).
    assert (0 <= k j * k j * inertia w' (U' j) (U' j)) by (apply Rmult_le_pos; [apply Rle_0_sqr|lra]). nra. }
  assert (PO : 0 < inertia w' v v).
  { rewrite IV. destruct (F' z ltac:(lia)) as (_ & _ & _ & P & _). apply Rlt_le_trans with (k z * k z * inertia w' (U' z) (U' z)).
    - apply Rmult_lt_0_compat; [|exact P]. destruct (Rtotal_order (k z) 0) as [T|[T|T]]; [|contradiction|]; nra.
    - apply Rle_trans with (rsum (S i) (fun j => if Nat.eqb j z then k j * k j * inertia w' (U' j) (U' j) else 0)).
      + rewrite (rsum_only (S i) z) by (try exact Hz; intros j Hj NE; replace (Nat.eqb j z) with false by (symmetry; apply Nat.eqb_neq; exact NE); reflexivity). rewrite Nat.eqb_refl. lra.
      + apply rsum_le. intros j Hj. destruct (F' j ltac:(lia)) as (_ & _ & _ & Pj & _). assert (0 <= k j * k j * inertia w' (U' j) (U' j)) by (apply Rmult_le_pos; [apply Rle_0_sqr|lra]). destruct (Nat.eqb j z); lra. }
  assert (LP : 0 < lambda). { destruct (F i Li) as (HI & _ & P & _). rewrite HO in HI. apply some_inj in HI. rewrite HI. exact P. }
  pose proof (P3 v PV) as A3. pose proof (P4 v PV) as A4.
  apply (Rmult_le_reg_r (inertia w' v v)); [exact PO|].
  apply Rle_trans with (lambda * inertia w (phi v) (phi v)); [apply Rmult_le_compat_l; lra|lra].
Qed.
End Compare2.

(** ** The theorems *)
Lemma m121_rayleigh ext ops eigsh a c st modes o : never_readds_nodes ext ops -> let w := final ext init (ops ++ [OpAssemble]) in
  exact_eigen eigsh -> lowest_eigen eigsh -> read_asb w = Some a -> solve_eigen (x_ker ext) eigsh a c st = Some (modes, o) ->
  symmetric_elements ext w -> elastic ext w -> massive w -> stable ext w c ->
  forall U i lambda v, shapes_of ext w c modes U -> nth_error o i = Some lambda -> permitted ext w c v -> (forall j, (j < i)%nat -> inertia w v (U j) = 0) ->
  lambda * inertia w v v <= energy ext w v v.
Proof.
  intros NR w EX LO Ha HS SY EL MA ST U i lambda v SU HO PV OV. exact (rayleigh ext ops NR eigsh a c st modes o EX LO Ha HS SY EL MA ST U SU i lambda v HO PV OV).
Qed.

Lemma m121_supports ext ops eigsh eigsh' a c c' st st' modes modes' o o' : never_readds_nodes ext ops -> let w := final ext init (ops ++ [OpAssemble]) in
  exact_eigen eigsh -> lowest_eigen eigsh -> exact_eigen eigsh' -> lowest_eigen eigsh' -> read_asb w = Some a ->
  solve_eigen (x_ker ext) eigsh a c st = Some (modes, o) -> solve_eigen (x_ker ext) eigsh' a c' st' = Some (modes', o') ->
  symmetric_elements ext w -> elastic ext w -> massive w -> stable ext w c ->
  (forall q, restrained_for ext w c q -> restrained_for ext w c' q) ->
  forall i lambda lambda', nth_error o i = Some lambda -> nth_error o' i = Some lambda' -> lambda <= lambda'.
Proof.
  intros NR w EX LO EX' LO' Ha HS HS' SY EL MA ST MO.
  assert (PP : forall v, permitted ext w c' v -> permitted ext w c v) by (intros v PV q Hq Rq; apply (PV q Hq), MO, Rq).
  assert (ST' : stable ext w c') by (intros v PV; apply ST, PP, PV).
  apply (not_lower ext ops ops NR NR eigsh eigsh' a a c c' st st' modes modes' o o' EX LO Ha HS EX' LO' Ha HS' SY EL EL MA MA ST ST' (fun v => v)).
  - reflexivity.
  - exact PP.
  - intros v _. apply Rle_refl.
  - intros v _. apply Rle_refl.
Qed.

(** ** Told histories *)
Lemma inertia_named ext ops w m M x y : w = final ext init ops -> assembled_model w = Some m -> mass_matrix w = Some M ->
  inertia w x y = lsum (map (node_inertia m x y) (f_nodes m)) + lsum (map (member_inertia m x y) (dvals (f_beams m))).
Proof.
  intros Hw Hm HM. rewrite <- (c40_inertia ext ops w m M x y Hw Hm HM).
  unfold inertia, work_of, mass_at, form, equations. rewrite HM, Hm. apply rsum_ext. intros q _. apply Rmult_comm.
Qed.
Lemma inertia_ext w x x' y y' : (forall q, (q < equations w)%nat -> x q = x' q) -> (forall q, (q < equations w)%nat -> y q = y' q) -> inertia w x y = inertia w x' y'.
Proof.
  intros E1 E2. unfold inertia, work_of. apply rsum_ext. intros q Hq. rewrite (E1 q Hq). f_equal. apply rsum_ext. intros p Hp. rewrite (E2 p Hp). reflexivity.
Qed.

Section Told.
Variables (ext : externals) (ops ops' : list op) (c : string).
Hypothesis (NR0 : never_readds_nodes ext ops) (NR0' : never_readds_nodes ext ops').
Let w := final ext init (ops ++ [OpAssemble]).
Let w' := final ext init (ops' ++ [OpAssemble]).
Variables (t t' : told) (m m' : fem) (K K' M M' : coo).
Hypothesis HT : built (notes (trace ext init (ops ++ [OpAssemble]))) = Some t.
Hypothesis HT' : built (notes (trace ext init (ops' ++ [OpAssemble]))) = Some t'.
Hypothesis SL : stiffer_lighter t t'.
Hypothesis (Hm : assembled_model w = Some m) (Hm' : assembled_model w' = Some m').
Hypothesis (HK : stiffness ext w = Some K) (HK' : stiffness ext w' = Some K') (HM : mass_matrix w = Some M) (HM' : mass_matrix w' = Some M').
Hypothesis FL : forall k j, flag (governing ext w c) k j = true -> flag (governing ext w' c) k j = true.

Definition carry (m m' : fem) (v : nat -> R) : nat -> R := spread m (named m' v).
Lemma carry_sum n (k : nat -> R) (V : nat -> nat -> R) q : carry m m' (fun p => rsum n (fun i => k i * V i p)) q = rsum n (fun i => k i * carry m m' (V i) q).
Proof.
  unfold carry, spread, named. destruct (nth_error _ _); [reflexivity|]. symmetry. apply rsum_0. intros; ring.
Qed.
Lemma both_good : good m /\ good m'.
Proof. split; [exact (assembled_good _ _ _ _ eq_refl (told_guard _ _ NR0) Hm)|exact (assembled_good _ _ _ _ eq_refl (told_guard _ _ NR0') Hm')]. Qed.
Lemma both_hold : holds m t /\ holds m' t'.
Proof.
  destruct (c78_built ext _ m Hm) as (t0 & T0 & HO). rewrite HT in T0. apply some_inj in T0. subst t0.
  destruct (c78_built ext _ m' Hm') as (t0 & T0 & HO'). rewrite HT' in T0. apply some_inj in T0. subst t0. split; assumption.
Qed.
Lemma both_based : based 1 0 zero3 m m'.
Proof.
  destruct both_hold as [HO HO']. apply (based_told 1 0 zero3 m m' t t' HO HO'); [|exact (sl_shell _ _ SL)].
  intros k [p ms] E. pose proof (sl_node _ _ SL k) as S. rewrite E in S. destruct (t_node t' k) as [[p' ms']|]; [|contradiction]. destruct S as (-> & _). cbn [option_map fst]. f_equal. apply vec3_eq; cbn; ring.
Qed.
Lemma node_twins k : match dget k (f_nodes m), dget k (f_nodes m') with
  | Some n, Some n' => forall i, nth i (n_mass n') 0 <= nth i (n_mass n) 0
  | None, None => True | _, _ => False end.
Proof.
  destruct both_hold as [(ON & _) (ON' & _)]. pose proof (sl_node _ _ SL k) as S. rewrite <- ON, <- ON' in S.
  destruct (dget k (f_nodes m)), (dget k (f_nodes m')); cbn [option_map] in S; auto. apply S.
Qed.
Lemma member_twins k : match dget k (f_beams m), dget k (f_beams m') with
  | Some b, Some b' => n_name (b_ni b') = n_name (b_ni b) /\ n_name (b_nj b') = n_name (b_nj b) /\ no_softer (b_prop b) (b_prop b')
       /\ density (b_prop b') * area (b_prop b') <= density (b_prop b) * area (b_prop b)
  | None, None => True | _, _ => False end.
Proof.
  destruct both_hold as [(_ & _ & _ & _ & _ & OB & _) (_ & _ & _ & _ & _ & OB' & _)]. pose proof (sl_beam _ _ SL k) as S. rewrite <- OB, <- OB' in S.
  destruct (dget k (f_beams m)), (dget k (f_beams m')); cbn [option_map] in S; auto.
Qed.

Section One.
Variable v : nat -> R.
Lemma back_again q : (q < equations w')%nat -> spread m' (named m' v) q = v q.
Proof. intros Hq. unfold equations in Hq. rewrite Hm' in Hq. apply spread_named; [apply both_good|exact Hq]. Qed.
Lemma carry_energy : energy ext w (carry m m' v) (carry m m' v) <= energy ext w' v v.
Proof.
  destruct both_good as [G G']. pose proof both_based as BT. assert (U : 1 * 1 + 0 * 0 = 1) by ring. unfold carry. set (y := named m' v).
  assert (RG' : forall q, (q < equations w')%nat -> spread m' (turned_by 1 0 y) q = v q) by (intros q Hq; rewrite spread_turned; apply back_again, Hq).
  assert (Q : energy ext w' v v = energy ext w' (spread m' (turned_by 1 0 y)) (spread m' (turned_by 1 0 y))).
  { symmetry. unfold energy. apply work_ext. intros q Hq. rewrite (RG' q Hq). f_equal. unfold holding. apply rsum_ext. intros p Hp. rewrite (RG' p Hp). reflexivity. }
  rewrite Q, (energy_named ext _ w m K _ _ eq_refl Hm HK), (energy_named ext _ w' m' K' _ _ eq_refl Hm' HK').
  rewrite (based_shells 1 0 zero3 m m' U G G' BT (x_ker ext) y y (shells_stay 1 0 zero3 m (x_ker ext) eq_refl eq_refl eq_refl)). apply Rplus_le_compat_r.
  unfold dvals. rewrite !map_map. apply lsum_keyed_le; [apply G|apply G'|]. intros k. pose proof (member_twins k) as ME.
  destruct (dget k (f_beams m)) as [b|] eqn:E, (dget k (f_beams m')) as [b'|] eqn:E'; auto; cbn [snd]; [|contradiction].
  destruct ME as (N1 & N2 & (H1 & H2 & H3 & H4) & _). apply dget_some_in in E, E'.
  destruct (based_member 1 0 zero3 m m' U G G' BT k b b' E E' N1 N2) as (D & V); [left; auto|].
  unfold beam_work. rewrite (V y), D. apply member_mono; auto. apply (beam_dist_pos m k). apply (wf_beam _ (proj1 G) _ _ E).
Qed.
Lemma member_ends_named k b (x : string -> nat -> R) (m0 : fem) : good m0 -> In (k, b) (f_beams m0) ->
  beam_ends m0 b (spread m0 x) = Ends (dvec x (n_name (b_ni b))) (rvec x (n_name (b_ni b))) (dvec x (n_name (b_nj b))) (rvec x (n_name (b_nj b))).
Proof.
  intros G I. pose proof (proj1 (bo_ni _ _ _ (wf_beam _ (proj1 G) _ _ I))) as I1. pose proof (proj1 (bo_nj _ _ _ (wf_beam _ (proj1 G) _ _ I))) as I2. unfold beam_ends, ends_at.
  destruct (spread_disp m0 x _ G I1) as [-> ->]. destruct (spread_disp m0 x _ G I2) as [-> ->]. reflexivity.
Qed.
Lemma carry_inertia : inertia w' v v <= inertia w (carry m m' v) (carry m m' v).
Proof.
  destruct both_good as [G G']. pose proof both_based as BT. assert (U : 1 * 1 + 0 * 0 = 1) by ring. unfold carry. set (y := named m' v).
  rewrite (inertia_ext w' v (spread m' y) v (spread m' y)) by (intros q Hq; symmetry; apply back_again, Hq).
  rewrite (inertia_named ext _ w m M _ _ eq_refl Hm HM), (inertia_named ext _ w' m' M' _ _ eq_refl Hm' HM'). apply Rplus_le_compat.
  - apply lsum_keyed_le; [apply G'|apply G|]. intros k. pose proof (node_twins k) as NE.
    destruct (dget k (f_nodes m)) as [n|] eqn:E, (dget k (f_nodes m')) as [n'|] eqn:E'; auto; try contradiction.
    assert (I : In k (dkeys (f_nodes m))) by (apply dget_in_keys; eauto). assert (I' : In k (dkeys (f_nodes m'))) by (apply dget_in_keys; eauto).
    unfold node_inertia. cbn [fst snd]. apply rsum_le. intros i Hi. rewrite (spread_at m y k i G I Hi), (spread_at m' y k i G' I' Hi).
    rewrite !Rmult_assoc. apply Rmult_le_compat_r; [apply Rle_0_sqr|apply NE].
  - unfold dvals. rewrite !map_map. apply lsum_keyed_le; [apply G'|apply G|]. intros k. pose proof (member_twins k) as ME.
    destruct (dget k (f_beams m)) as [b|] eqn:E, (dget k (f_beams m')) as [b'|] eqn:E'; auto; cbn [snd]; try contradiction.
    destruct ME as (N1 & N2 & _ & DA). apply dget_some_in in E, E'.
    destruct (based_member 1 0 zero3 m m' U G G' BT k b b' E E' N1 N2) as (D & _); [left; auto|].
    unfold member_inertia. rewrite (member_ends_named k b y m G E), (member_ends_named k b' y m' G' E'), N1, N2. cbn [d_i d_j r_i r_j].
    apply Rplus_le_compat_r. apply Rmult_le_compat_r; [apply Rplus_le_le_0_compat; apply dot3_nonneg|].
    unfold member_mass. rewrite D. apply Rmult_le_compat_r; [lra|]. apply Rmult_le_compat_r; [|exact DA].
    apply Rlt_le. apply (beam_dist_pos m k). apply (wf_beam _ (proj1 G) _ _ E).
Qed.
Lemma carry_permitted : permitted ext w' c v -> permitted ext w c (carry m m' v).
Proof.
  destruct both_good as [G G']. intros PV.
  apply (permitted_named ext ops c m (named m' v) (told_guard _ _ NR0) Hm). fold w. intros k j Hk Hj F. apply FL in F.
  assert (PY' : permitted ext w' c (spread m' (named m' v))) by (intros q Hq Rq; rewrite (back_again q Hq); apply PV; assumption).
  apply (permitted_named ext ops' c m' (named m' v) (told_guard _ _ NR0') Hm'); [exact PY'| |exact Hj|exact F]. apply (based_keys 1 0 zero3 m m' both_based). exact Hk.
Qed.
Lemma carry_back : (forall q, (q < equations w)%nat -> carry m m' v q = 0) -> forall q, (q < equations w')%nat -> v q = 0.
Proof.
  destruct both_good as [G G']. intros Z q Hq. rewrite <- (back_again q Hq). unfold spread. destruct (nth_error (dkeys (f_nodes m')) (q / 6)) as [k|] eqn:E; [|reflexivity].
  assert (I' : In k (dkeys (f_nodes m'))) by (apply nth_error_In with (1 := E)).
  assert (I : In k (dkeys (f_nodes m))).
  { apply dget_in_keys in I' as (n' & E'). pose proof (node_twins k) as NE. rewrite E' in NE. apply dget_in_keys. destruct (dget k (f_nodes m)); [eauto|contradiction]. }
  assert (J : (q mod 6 < 6)%nat) by (apply Nat.mod_upper_bound; discriminate).
  rewrite <- (spread_at m (named m' v) k (q mod 6)%nat G I J). apply Z.
  pose proof (key_num _ _ G I) as N. assert (NB : (num m k < List.length (dkeys (f_nodes m)))%nat) by (apply nth_error_Some; congruence).
  unfold dkeys in NB. rewrite map_length in NB. unfold equations. rewrite Hm. unfold size. lia.
Qed.
End One.
Lemma carry_stable : elastic ext w -> stable ext w c -> stable ext w' c.
Proof.
  intros EL ST v PV Z. pose proof (carry_energy v) as X. rewrite Z in X. apply carry_back.
  apply ST; [apply carry_permitted, PV|]. pose proof (energy_nonneg ext ops EL (carry m m' v)) as N. fold w in N. lra.
Qed.
End Told.

Lemma solved_parts ext ops eigsh a c st modes o : never_readds_nodes ext ops -> let w := final ext init (ops ++ [OpAssemble]) in
  exact_eigen eigsh -> read_asb w = Some a -> solve_eigen (x_ker ext) eigsh a c st = Some (modes, o) ->
  exists K M, assembled_model w = Some (a_model a) /\ stiffness ext w = Some K /\ mass_matrix w = Some M.
Proof.
  intros NR w EX Ha HS. destruct (modal_system ext ops (told_guard _ _ NR) eigsh a c st modes o EX Ha HS) as (K & M & F & HK & HM & _).
  exists K, M. split; [unfold assembled_model; fold w; rewrite Ha; reflexivity|]. split; assumption.
Qed.

Lemma m121_told ext ops ops' t t' l l' eigsh eigsh' a a' c st st' modes modes' o o' : never_readds_nodes ext ops -> never_readds_nodes ext ops' ->
  let w := final ext init (ops ++ [OpAssemble]) in let w' := final ext init (ops' ++ [OpAssemble]) in
  describes ext ops t l -> describes ext ops' t' l' -> stiffer_lighter t t' ->
  (forall k j, flag (governing ext w c) k j = true -> flag (governing ext w' c) k j = true) ->
  exact_eigen eigsh -> lowest_eigen eigsh -> exact_eigen eigsh' -> lowest_eigen eigsh' -> read_asb w = Some a -> read_asb w' = Some a' ->
  solve_eigen (x_ker ext) eigsh a c st = Some (modes, o) -> solve_eigen (x_ker ext) eigsh' a' c st' = Some (modes', o') ->
  symmetric_elements ext w -> elastic ext w -> elastic ext w' -> massive w -> massive w' -> stable ext w c ->
  forall i lambda lambda', nth_error o i = Some lambda -> nth_error o' i = Some lambda' -> lambda <= lambda'.
Proof.
  intros NR NR' w w' (HT & _) (HT' & _) SL FL EX LO EX' LO' Ha Ha' HS HS' SY EL EL' MA MA' ST.
  destruct (solved_parts ext ops eigsh a c st modes o NR EX Ha HS) as (K & M & Hm & HK & HM). fold w in Hm, HK, HM.
  destruct (solved_parts ext ops' eigsh' a' c st' modes' o' NR' EX' Ha' HS') as (K' & M' & Hm' & HK' & HM'). fold w' in Hm', HK', HM'.
  set (m := a_model a) in *. set (m' := a_model a') in *.
  assert (CP : forall v, permitted ext w' c v -> permitted ext w c (carry m m' v)).
  { intros v. exact (carry_permitted ext ops ops' c NR NR' t t' m m' HT HT' SL Hm Hm' FL v). }
  assert (CE : forall v, energy ext w (carry m m' v) (carry m m' v) <= energy ext w' v v).
  { intros v. exact (carry_energy ext ops ops' NR NR' t t' m m' K K' HT HT' SL Hm Hm' HK HK' v). }
  assert (CI : forall v, inertia w' v v <= inertia w (carry m m' v) (carry m m' v)).
  { intros v. exact (carry_inertia ext ops ops' NR NR' t t' m m' M M' HT HT' SL Hm Hm' HM HM' v). }
  pose proof (carry_stable ext ops ops' c NR NR' t t' m m' K K' HT HT' SL Hm Hm' HK HK' FL EL ST) as ST'. fold w' in ST'.
  apply (not_lower ext ops ops' NR NR' eigsh eigsh' a a' c c st st' modes modes' o o' EX LO Ha HS EX' LO' Ha' HS' SY EL EL' MA MA' ST ST' (carry m m')).
  - intros. apply carry_sum.
  - exact CP.
  - intros v _. apply CE.
  - intros v _. apply CI.
Qed.

Lemma no_softer_refl p : no_softer p p.
Proof. unfold no_softer. repeat split; apply Rle_refl. Qed.
Lemma same_stiffer_lighter t t' : same_structure t t' -> (forall k, t_node t' k = t_node t k) -> stiffer_lighter t t' /\ stiffer_lighter t' t.
Proof.
  intros [A1 A2 A3 A4] N. split; split; intros k; try (symmetry; apply A4); try apply A4; rewrite ?N, ?A3.
  1,3: destruct (t_node t k) as [[p ms]|]; [|exact I]; split; [reflexivity|intros; apply Rle_refl].
  all: destruct (t_beam t k) as [[[a b] p]|]; [|exact I]; repeat split; try apply no_softer_refl; apply Rle_refl.
Qed.
Lemma m121_same ext ops ops' t t' l l' eigsh eigsh' a a' c st st' modes modes' o o' : never_readds_nodes ext ops -> never_readds_nodes ext ops' ->
  let w := final ext init (ops ++ [OpAssemble]) in let w' := final ext init (ops' ++ [OpAssemble]) in
  describes ext ops t l -> describes ext ops' t' l' -> same_structure t t' -> (forall k, t_node t' k = t_node t k) ->
  (forall k j, flag (governing ext w' c) k j = flag (governing ext w c) k j) ->
  exact_eigen eigsh -> lowest_eigen eigsh -> exact_eigen eigsh' -> lowest_eigen eigsh' -> read_asb w = Some a -> read_asb w' = Some a' ->
  solve_eigen (x_ker ext) eigsh a c st = Some (modes, o) -> solve_eigen (x_ker ext) eigsh' a' c st' = Some (modes', o') ->
  symmetric_elements ext w -> symmetric_elements ext w' -> elastic ext w -> elastic ext w' -> massive w -> massive w' -> stable ext w c ->
  forall i lambda lambda', nth_error o i = Some lambda -> nth_error o' i = Some lambda' -> lambda = lambda'.
Proof.
  intros NR NR' w w' D D' SS NN FL EX LO EX' LO' Ha Ha' HS HS' SY SY' EL EL' MA MA' ST i lambda lambda' HO HO'.
  destruct (same_stiffer_lighter t t' SS NN) as [S1 S2].
  destruct (solved_parts ext ops eigsh a c st modes o NR EX Ha HS) as (K & M & Hm & HK & HM). fold w in Hm, HK, HM.
  destruct (solved_parts ext ops' eigsh' a' c st' modes' o' NR' EX' Ha' HS') as (K' & M' & Hm' & HK' & HM'). fold w' in Hm', HK', HM'.
  assert (F1 : forall k j, flag (governing ext w c) k j = true -> flag (governing ext w' c) k j = true) by (intros k j; rewrite FL; auto).
  assert (F2 : forall k j, flag (governing ext w' c) k j = true -> flag (governing ext w c) k j = true) by (intros k j; rewrite FL; auto).
  assert (ST' : stable ext w' c).
  { destruct D as (HT & _). destruct D' as (HT' & _). exact (carry_stable ext ops ops' c NR NR' t t' (a_model a) (a_model a') K K' HT HT' S1 Hm Hm' HK HK' F1 EL ST). }
  apply Rle_antisym.
  - exact (m121_told ext ops ops' t t' l l' eigsh eigsh' a a' c st st' modes modes' o o' NR NR' D D' S1 F1 EX LO EX' LO' Ha Ha' HS HS' SY EL EL' MA MA' ST i lambda lambda' HO HO').
  - exact (m121_told ext ops' ops t' t l' l eigsh' eigsh a' a c st' st modes' modes o' o NR' NR D' D S2 F2 EX' LO' EX LO Ha' Ha HS' HS SY' EL' EL MA' MA ST' i lambda' lambda HO' HO).
Qed.
