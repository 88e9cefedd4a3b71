(** Frequencies of structures that differ only in the stiffness of their members (C140). *)
From Coq Require Import Reals Lra Lia List String Arith Bool ZArith Sorting.Permutation.
From Verif Require Import Base BaseFacts Csys Sections Element Load FeModel Assembly Solver Post Api
  SpecApi ApiFacts WfFacts HidFacts ApiProofs1 ApiProofs2 LoadFacts SpecElim ElimFacts SpecGeom CsysFacts SpecBeam BeamFacts MemberLoads AsmFacts SpecAsm AsmProofs
  AsmTotal AsmProofs2 SpecLoad LoadProofs AsmProofs3 SpecSolve AsmSolve SpecMass MassProofs ShellFacts SpecStatics StaticsProofs StaticsProofs2
  Dynamic SpecDyn DynProofs SpecModal ModalProofs SpecModal2 ModalProofs2 SpecTold ToldProofs SpecToldLoad ToldLoadProofs SpecPost PostProofs
  SpecSame SameProofs SameProofs2 StifferProofs StaticsMain SpecFreq FreqProofs FreqProofs2 SpecCut CutFacts CutProofs CutProofs2 SpecPartModal PartModal SpecScale ScaleProofs ScaleProofs2.
Import ListNotations.
Local Open Scope R_scope.

Section Times.
Variables (ext : externals) (ops ops' : list op).
Hypothesis (NR : never_readds_nodes ext ops) (NR' : never_readds_nodes ext ops').
Let w := final ext init (ops ++ [OpAssemble]).
Let w' := final ext init (ops' ++ [OpAssemble]).
Variables (eigsh eigsh' : eigensolver) (a a' : asm) (c c' : string) (st st' : modal_setting) (modes modes' : list (list R)) (o o' : list R).
Hypothesis (EX : exact_eigen eigsh) (LO : lowest_eigen eigsh) (Ha : read_asb w = Some a) (HS : solve_eigen (x_ker ext) eigsh a c st = Some (modes, o)).
Hypothesis (EX' : exact_eigen eigsh') (LO' : lowest_eigen eigsh') (Ha' : read_asb w' = Some a') (HS' : solve_eigen (x_ker ext) eigsh' a' c' st' = Some (modes', o')).
Hypothesis (SY : symmetric_elements ext w) (EL : elastic ext w) (EL' : elastic ext w') (MA : massive w) (MA' : massive w') (ST : stable ext w c) (ST' : stable ext w' c').
Variable r : R.
Hypothesis RP : 0 < r.
Variable phi : (nat -> R) -> nat -> R.
Hypothesis P1 : forall n k V q, phi (fun p => rsum n (fun i => k i * V i p)) q = rsum n (fun i => k i * phi (V i) q).
Hypothesis P2 : forall v, permitted ext w' c' v -> permitted ext w c (phi v).
Hypothesis P3 : forall v, permitted ext w' c' v -> energy ext w (phi v) (phi v) <= r * energy ext w' v v.
Hypothesis P4 : forall v, permitted ext w' c' v -> inertia w' v v <= inertia w (phi v) (phi v).

Lemma not_lower_times i lambda lambda' : nth_error o i = Some lambda -> nth_error o' i = Some lambda' -> lambda <= r * lambda'.
Proof.
  intros HO HO'.
  destruct (made_shapes ext ops NR eigsh a c st modes o EX Ha HS) as (U & SU). fold w in SU.
  destruct (made_shapes ext ops' NR' eigsh' a' c' st' modes' o' EX' Ha' HS') as (U' & SU'). fold w' in SU'.
  destruct (mode_facts ext ops NR eigsh a c st modes o EX LO Ha HS EL MA ST U SU) as (l & F). fold w in F.
  destruct (mode_facts ext ops' NR' eigsh' a' c' st' modes' o' EX' LO' Ha' HS' EL' MA' ST' U' SU') as (l' & F'). fold w' in F'.
  destruct (lowest_world ext ops' NR' eigsh' a' c' st' modes' o' LO' Ha' HS') as (_ & ORD & _).
  assert (Li : (i < List.length o)%nat) by (apply nth_error_Some; congruence). assert (Li' : (i < List.length o')%nat) by (apply nth_error_Some; congruence).
  destruct (homogeneous (S i) (map (fun k j => inertia w (phi (U' j)) (U k)) (seq 0 i))) as (k & (z & Hz & NZ) & HK); [rewrite map_length, seq_length; lia|].
  set (v := fun q => rsum (S i) (fun j => k j * U' j q)).
  assert (PV : permitted ext w' c' v).
  { intros q Hq Rq. unfold v. apply rsum_0. intros j Hj. destruct (F' j ltac:(lia)) as (_ & PU & _). rewrite (PU q Hq Rq). ring. }
  assert (PHI : forall y, inertia w (phi v) y = rsum (S i) (fun j => k j * inertia w (phi (U' j)) y)).
  { intros y. unfold inertia at 1. transitivity (work_of w (fun q => rsum (equations w) (fun p => mass_at w q p * y p)) (fun q => rsum (S i) (fun j => k j * phi (U' j) q))).
    - apply work_ext. intros q Hq. unfold v. rewrite P1. reflexivity.
    - rewrite work_sum_r. reflexivity. }
  assert (OV : forall j, (j < i)%nat -> inertia w (phi v) (U j) = 0).
  { intros j Hj. rewrite PHI. specialize (HK (fun j' => inertia w (phi (U' j')) (U j))).
    rewrite (rsum_ext _ _ (fun j' => inertia w (phi (U' j')) (U j) * k j')) by (intros; ring). apply HK. apply in_map_iff. exists j. split; [reflexivity|apply in_seq; lia]. }
  pose proof (rayleigh ext ops NR eigsh a c st modes o EX LO Ha HS SY EL MA ST U SU i lambda (phi v) HO (P2 v PV) OV) as RA. fold w in RA.
  assert (IV : inertia w' v v = rsum (S i) (fun j => k j * k j * inertia w' (U' j) (U' j))).
  { apply (gram_diag ext ops' (mass_at w') (S i) k U'). intros p q Hp Hq NE. destruct (F' q ltac:(lia)) as (_ & _ & _ & _ & _ & Z). apply Z; auto; lia. }
  assert (EV : energy ext w' v v = rsum (S i) (fun j => k j * k j * (l' j * inertia w' (U' j) (U' j)))).
  { unfold v. etransitivity; [apply (gram_diag ext ops' (stiff_at ext w') (S i) k U')|].
    - intros p q Hp Hq NE. destruct (F' q ltac:(lia)) as (_ & _ & _ & _ & Q & Z). destruct (F' p ltac:(lia)) as (_ & PU & _).
      change (energy ext w' (U' p) (U' q) = 0). rewrite (Q _ PU), (Z p) by (auto; lia). ring.
    - apply rsum_ext. intros j Hj. f_equal. destruct (F' j ltac:(lia)) as (_ & PU & _ & _ & Q & _). exact (Q (U' j) PU). }
  assert (LE : energy ext w' v v <= lambda' * inertia w' v v).
  { rewrite EV, IV, <- rsum_scal. apply rsum_le. intros j Hj. destruct (F' j ltac:(lia)) as (HJ & _ & _ & P & _).
    assert (G : l' j <= lambda') by (apply (ORD j i (l' j) lambda'); [lia|exact HJ|exact HO']).
    assert (0 <= k j * k j * inertia w' (U' j) (U' j)) by (apply Rmult_le_pos; [apply Rle_0_sqr|lra]). nra. }
  assert (PO : 0 < inertia w' v v).
  { rewrite IV. destruct (F' z ltac:(lia)) as (_ & _ & _ & P & _). apply Rlt_le_trans with (k z * k z * inertia w' (U' z) (U' z)).
    - apply Rmult_lt_0_compat; [|exact P]. destruct (Rtotal_order (k z) 0) as [T|[T|T]]; [|contradiction|]; nra.
    - apply Rle_trans with (rsum (S i) (fun j => if Nat.eqb j z then k j * k j * inertia w' (U' j) (U' j) else 0)).
      + rewrite (rsum_only (S i) z) by (try exact Hz; intros j Hj NE; replace (Nat.eqb j z) with false by (symmetry; apply Nat.eqb_neq; exact NE); reflexivity). rewrite Nat.eqb_refl. lra.
      + apply rsum_le. intros j Hj. destruct (F' j ltac:(lia)) as (_ & _ & _ & Pj & _). assert (0 <= k j * k j * inertia w' (U' j) (U' j)) by (apply Rmult_le_pos; [apply Rle_0_sqr|lra]). destruct (Nat.eqb j z); lra. }
  assert (LP : 0 < lambda). { destruct (F i Li) as (HI & _ & P & _). rewrite HO in HI. apply some_inj in HI. rewrite HI. exact P. }
  pose proof (P3 v PV) as A3. pose proof (P4 v PV) as A4.
  apply (Rmult_le_reg_r (inertia w' v v)); [exact PO|].
  apply Rle_trans with (lambda * inertia w (phi v) (phi v)); [apply Rmult_le_compat_l; lra|].
  apply Rle_trans with (r * energy ext w' v v); [lra|]. rewrite Rmult_assoc. apply Rmult_le_compat_l; lra.
Qed.
End Times.

Lemma times_sym c p q : 0 < c -> times_stiffer c p q -> times_stiffer (/ c) q p.
Proof. intros P (H1 & H2 & H3 & H4). unfold times_stiffer. rewrite H1, H2, H3, H4. repeat split; field; lra. Qed.
Lemma rescaled_sym c t t' : 0 < c -> rescaled c t t' -> rescaled (/ c) t' t.
Proof.
  intros P [A B C]. split.
  - intros k. symmetry. apply A.
  - intros k. destruct (B k). split; assumption.
  - intros k. specialize (C k). destruct (t_beam t k) as [[[a b] p]|], (t_beam t' k) as [[[a' b'] p']|]; auto.
    destruct C as (-> & -> & S). repeat split; auto; apply (times_sym c p p' P S).
Qed.
Lemma mass_sym t t' : same_mass t t' -> same_mass t' t.
Proof. intros [A B]. split; [intros k; symmetry; apply A|]. intros k a b p a' b' p' E E'. symmetry. exact (B k _ _ _ _ _ _ E' E). Qed.

Lemma scaled_stable ext ops ops' t t' l l' case c m m' : 0 < c -> never_readds_nodes ext ops -> never_readds_nodes ext ops' ->
  let w := final ext init (ops ++ [OpAssemble]) in let w' := final ext init (ops' ++ [OpAssemble]) in
  describes ext ops t l -> describes ext ops' t' l' -> rescaled c t t' -> same_mass t t' ->
  (forall k j, flag (governing ext w' case) k j = flag (governing ext w case) k j) ->
  stiffness ext w <> None -> stiffness ext w' <> None -> assembled_model w = Some m -> assembled_model w' = Some m' ->
  stable ext w case -> stable ext w' case.
Proof.
  intros CP NR NR' w w' D D' RS SM FL SK SK' Hm Hm' ST v PV EZ.
  destruct (scaled_forms ext ops ops' t t' l l' case c m m' NR NR' D D' RS SM FL SK SK' Hm Hm') as (G & G' & BACK & EN & IN & PN). fold w w' in EN, IN, PN.
  assert (RV : forall q, (q < equations w')%nat -> v q = spread m' (named m' v) q).
  { intros q Hq. symmetry. unfold equations in Hq. rewrite Hm' in Hq. apply spread_named; [exact G'|exact Hq]. }
  assert (P1 : permitted ext w case (spread m (named m' v))) by (apply PN; intros q Hq Rq; rewrite <- (RV q Hq); apply PV; assumption).
  rewrite (energy_ext ext w' v v _ _ RV RV), EN in EZ. apply Rmult_integral in EZ as [EZ|EZ]; [lra|].
  pose proof (ST _ P1 EZ) as Z. intros q Hq. rewrite (RV q Hq). unfold spread. destruct (nth_error (dkeys (f_nodes m')) (q / 6)) as [k|] eqn:E; [|reflexivity].
  assert (I : In k (dkeys (f_nodes m))) by (apply BACK, nth_error_In with (1 := E)).
  assert (J : (q mod 6 < 6)%nat) by (apply Nat.mod_upper_bound; discriminate).
  rewrite <- (spread_at m (named m' v) k (q mod 6)%nat G I J). apply Z.
  unfold equations. rewrite Hm. pose proof (key_num _ _ G I) as N. assert (NB : (num m k < List.length (dkeys (f_nodes m)))%nat) by (apply nth_error_Some; congruence).
  unfold dkeys in NB. rewrite map_length in NB. unfold size. lia.
Qed.

Lemma scaled_lower ext ops ops' t t' l l' eigsh eigsh' a a' case st st' modes modes' o o' c : 0 < c -> never_readds_nodes ext ops -> never_readds_nodes ext ops' ->
  let w := final ext init (ops ++ [OpAssemble]) in let w' := final ext init (ops' ++ [OpAssemble]) in
  describes ext ops t l -> describes ext ops' t' l' -> rescaled c t t' -> same_mass t t' ->
  (forall k j, flag (governing ext w' case) k j = flag (governing ext w case) k j) ->
  exact_eigen eigsh -> lowest_eigen eigsh -> exact_eigen eigsh' -> lowest_eigen eigsh' -> read_asb w = Some a -> read_asb w' = Some a' ->
  solve_eigen (x_ker ext) eigsh a case st = Some (modes, o) -> solve_eigen (x_ker ext) eigsh' a' case st' = Some (modes', o') ->
  symmetric_elements ext w -> elastic ext w -> elastic ext w' -> massive w -> massive w' -> stable ext w case ->
  forall i lambda lambda', nth_error o i = Some lambda -> nth_error o' i = Some lambda' -> lambda <= / c * lambda'.
Proof.
  intros CP NR NR' w w' D D' RS SM FL EX LO EX' LO' Ha Ha' HS HS' SY EL EL' MA MA' ST.
  destruct (solved_parts ext ops eigsh a case st modes o NR EX Ha HS) as (K & M & Hm & HK & HM). fold w in Hm, HK, HM.
  destruct (solved_parts ext ops' eigsh' a' case st' modes' o' NR' EX' Ha' HS') as (K' & M' & Hm' & HK' & HM'). fold w' in Hm', HK', HM'.
  set (m := a_model a) in *. set (m' := a_model a') in *.
  assert (SK : stiffness ext w <> None) by (rewrite HK; discriminate). assert (SK' : stiffness ext w' <> None) by (rewrite HK'; discriminate).
  pose proof (scaled_stable ext ops ops' t t' l l' case c m m' CP NR NR' D D' RS SM FL SK SK' Hm Hm' ST) as ST'. fold w' in ST'.
  destruct (scaled_forms ext ops ops' t t' l l' case c m m' NR NR' D D' RS SM FL SK SK' Hm Hm') as (G & G' & _ & EN & IN & PN). fold w w' in EN, IN, PN.
  assert (RV : forall v q, (q < equations w')%nat -> v q = spread m' (named m' v) q).
  { intros v q Hq. symmetry. unfold equations in Hq. rewrite Hm' in Hq. apply spread_named; [exact G'|exact Hq]. }
  apply (not_lower_times ext ops ops' NR NR' eigsh eigsh' a a' case case st st' modes modes' o o' EX LO Ha HS EX' LO' Ha' HS' SY EL EL' MA MA' ST ST' (/ c) (Rinv_0_lt_compat _ CP) (carry m m')).
  - intros. apply carry_sum.
  - intros v PV. unfold carry. apply PN. intros q Hq Rq. fold w' in Hq. rewrite <- (RV v q Hq). apply PV; assumption.
  - intros v _. fold w w'. rewrite (energy_ext ext w' v v _ _ (RV v) (RV v)), EN. unfold carry. apply Req_le. field. lra.
  - intros v _. fold w w'. rewrite (inertia_ext w' v _ v _ (RV v) (RV v)), IN. unfold carry. apply Rle_refl.
Qed.

Lemma m140_squares ext ops ops' t t' l l' eigsh eigsh' a a' case st st' modes modes' o o' c : 0 < c -> never_readds_nodes ext ops -> never_readds_nodes ext ops' ->
  let w := final ext init (ops ++ [OpAssemble]) in let w' := final ext init (ops' ++ [OpAssemble]) in
  describes ext ops t l -> describes ext ops' t' l' -> rescaled c t t' -> same_mass t t' ->
  (forall k j, flag (governing ext w' case) k j = flag (governing ext w case) k j) ->
  exact_eigen eigsh -> lowest_eigen eigsh -> exact_eigen eigsh' -> lowest_eigen eigsh' -> read_asb w = Some a -> read_asb w' = Some a' ->
  solve_eigen (x_ker ext) eigsh a case st = Some (modes, o) -> solve_eigen (x_ker ext) eigsh' a' case st' = Some (modes', o') ->
  symmetric_elements ext w -> symmetric_elements ext w' -> elastic ext w -> elastic ext w' -> massive w -> massive w' -> stable ext w case ->
  forall i lambda lambda', nth_error o i = Some lambda -> nth_error o' i = Some lambda' -> lambda' = c * lambda.
Proof.
  intros CP NR NR' w w' D D' RS SM FL EX LO EX' LO' Ha Ha' HS HS' SY SY' EL EL' MA MA' ST i x y Hx Hy.
  pose proof (scaled_lower ext ops ops' t t' l l' eigsh eigsh' a a' case st st' modes modes' o o' c CP NR NR' D D' RS SM FL EX LO EX' LO' Ha Ha' HS HS' SY EL EL' MA MA' ST i x y Hx Hy) as A.
  destruct (solved_parts ext ops eigsh a case st modes o NR EX Ha HS) as (K & M & Hm & HK & HM). fold w in Hm, HK, HM.
  destruct (solved_parts ext ops' eigsh' a' case st' modes' o' NR' EX' Ha' HS') as (K' & M' & Hm' & HK' & HM'). fold w' in Hm', HK', HM'.
  assert (SK : stiffness ext w <> None) by (rewrite HK; discriminate). assert (SK' : stiffness ext w' <> None) by (rewrite HK'; discriminate).
  pose proof (scaled_stable ext ops ops' t t' l l' case c _ _ CP NR NR' D D' RS SM FL SK SK' Hm Hm' ST) as ST'.
  pose proof (scaled_lower ext ops' ops t' t l' l eigsh' eigsh a' a case st' st modes' modes o' o (/ c) (Rinv_0_lt_compat _ CP) NR' NR D' D (rescaled_sym _ _ _ CP RS) (mass_sym _ _ SM)
    (fun k j => eq_sym (FL k j)) EX' LO' EX LO Ha' Ha HS' HS SY' EL' EL MA' MA ST' i y x Hy Hx) as B.
  rewrite Rinv_inv in B. apply Rle_antisym; [exact B|].
  apply (Rmult_le_compat_l c) in A; [|lra]. rewrite <- Rmult_assoc, Rinv_r, Rmult_1_l in A by lra. exact A.
Qed.
