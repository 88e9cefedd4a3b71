(** The modes of a modal case of a whole structure (C116). *)
From Coq Require Import Reals Lra Lia List String Arith Bool ZArith Sorting.Permutation.
From Verif Require Import Base BaseFacts Csys Sections Element Load FeModel Assembly Solver Post Api
  SpecApi ApiFacts WfFacts HidFacts ApiProofs1 LoadFacts SpecElim ElimFacts SpecGeom CsysFacts SpecBeam BeamFacts AsmFacts SpecAsm AsmProofs
  AsmTotal AsmProofs2 SpecLoad LoadProofs AsmProofs3 SpecSolve AsmSolve SpecMass MassProofs SpecStatics StaticsProofs StaticsProofs2 StaticsMain
  Dynamic SpecDyn DynProofs SpecModal.
Import ListNotations.
Local Open Scope R_scope.

Section Modal.
Variables (ext : externals) (ops : list op).
Hypothesis NR : never_readds_nodes ext (ops ++ [OpAssemble]).
Let w := final ext init (ops ++ [OpAssemble]).
Variables (eigsh : eigensolver) (a : asm) (c : string) (st : modal_setting) (modes : list (list R)) (o : list R).
Hypothesis (EX : exact_eigen eigsh) (Ha : read_asb w = Some a) (HS : solve_eigen (x_ker ext) eigsh a c st = Some (modes, o)).

Lemma modal_system : exists K M F, stiffness ext w = Some K /\ mass_matrix w = Some M /\ lists_free (equations w) (restrained_for ext w c) F
  /\ forall i lambda x, nth_error o i = Some lambda -> nth_error modes i = Some x ->
     (exists j, (j < List.length F)%nat /\ nth j x 0 <> 0)
     /\ forall q, In q F -> rsum (List.length F) (fun j => coo_get K q (nth j F O) * nth j x 0) = lambda * rsum (List.length F) (fun j => coo_get M q (nth j F O) * nth j x 0).
Proof.
  unfold solve_eigen in HS. destruct (ms_base st); [discriminate|].
  destruct (assemble_K (x_ker ext) a) as [K|] eqn:HK; [|discriminate]. cbn [bindO] in HS.
  destruct (assemble_M a None) as [M|] eqn:HM; [|discriminate]. cbn [bindO] in HS.
  destruct (boundary_dofs a c) as [fixed|] eqn:HB; [|discriminate]. cbn [bindO] in HS.
  destruct (boundary_sem ext ops w a c fixed NR eq_refl Ha HB) as (ND & SB & BB).
  assert (Wf : fem_wf (a_model a)) by (apply (assembled_wf ext (ops ++ [OpAssemble]) w a eq_refl Ha)).
  destruct (assemble_K_bil (x_ker ext) a K (fun _ => 0) (fun _ => 0) Wf HK) as (_ & RK).
  destruct (assemble_M_bil a M (fun _ => 0) (fun _ => 0) Wf HM) as (_ & RM).
  assert (SZ : (node_count (a_model a) * 6)%nat = size (a_model a)) by (unfold size, node_count; lia). rewrite SZ in HS.
  set (n := size (a_model a)) in *.
  destruct (drop_matrix_free n K fixed ND BB RK) as (K_ & EK & _ & GK). destruct (drop_matrix_free n M fixed ND BB RM) as (M_ & EM & _ & GM).
  rewrite EK, EM in HS. cbn [bindO fst snd] in HS. set (F := free n fixed) in *.
  destruct (eigsh _ _ _ _) as [[o' modes']|] eqn:HE; [|discriminate]. cbn [bindO fst snd] in HS.
  destruct (Nat.eqb _ _); [|discriminate]. apply some_inj in HS. assert (modes' = modes) by congruence. assert (o' = o) by congruence. subst modes' o'.
  exists K, M, F. split; [unfold stiffness; rewrite Ha; exact HK|]. split; [unfold mass_matrix; rewrite Ha; exact HM|]. split.
  { apply (lists_free_ext _ (fun q => In q fixed)); [intros q _; apply SB|].
    unfold equations, assembled_model. rewrite Ha. apply free_lists. }
  intros i lambda x HO HX. destruct (EX _ _ _ _ _ _ HE i lambda x HO HX) as (NZ & EQ). split; [exact NZ|].
  intros q IQ. destruct (In_nth F q O IQ) as (r & Hr & Er). specialize (EQ r Hr).
  transitivity (rsum (List.length F) (fun j => coo_get K_ r j * nth j x 0)).
  - apply rsum_ext. intros j Hj. rewrite GK, Er by assumption. reflexivity.
  - rewrite EQ. f_equal. apply rsum_ext. intros j Hj. rewrite GM, Er by assumption. reflexivity.
Qed.

(** Sums over the equations of values that vanish at the restrained ones. *)
Lemma sum_free F (g : nat -> R) : lists_free (equations w) (restrained_for ext w c) F -> (forall q, (q < equations w)%nat -> restrained_for ext w c q -> g q = 0) ->
  rsum (equations w) g = rsum (List.length F) (fun j => g (nth j F O)).
Proof.
  intros LF Z.
  (* the restrained equations, listed *)
  assert (D : forall q, {restrained_for ext w c q} + {~ restrained_for ext w c q}).
  { intros q. destruct (in_dec Nat.eq_dec q F) as [I|I].
    - right. apply LF in I. tauto.
    - destruct (lt_dec q (equations w)) as [L|L].
      + left. destruct (restrained_dec ext ops NR c q) as [H|H]; [exact H|]. exfalso. apply I, LF. split; assumption.
      + right. intros R. apply L. destruct R as (l & k & i & j & HN & Hk & Hj & -> & _).
        destruct (assembled_now ext ops NR) as (_ & a' & Ha' & Em & _). fold w in Ha', Em. unfold equations, assembled_model. rewrite Ha'. cbn [option_map bindO].
        unfold answer in HN. cbn [step snd] in HN. injection HN as <-. unfold model_node_names in Hk. rewrite <- Em in Hk.
        assert (N : nth_error (dkeys (f_nodes (a_model a'))) i <> None) by congruence. apply nth_error_Some in N. unfold dkeys in N. rewrite map_length in N. unfold size. lia. }
  set (idx := filter (fun q => if D q then true else false) (seq 0 (equations w))).
  assert (SI : forall q, In q idx <-> (q < equations w)%nat /\ restrained_for ext w c q).
  { intros q. unfold idx. rewrite filter_In, in_seq. destruct (D q); split; intros [A B]; try discriminate; try contradiction; split; auto; lia. }
  assert (EF : F = free (equations w) idx).
  { apply lists_free_unique. apply (lists_free_ext _ (restrained_for ext w c)); [|exact LF]. intros q Hq. rewrite SI. tauto. }
  rewrite EF. apply rsum_free. intros q I. apply SI in I as [A B]. apply Z; assumption.
Qed.

Lemma free_unique F F' : lists_free (equations w) (restrained_for ext w c) F -> lists_free (equations w) (restrained_for ext w c) F' -> F = F'.
Proof. intros [A B] [A' B']. apply strict_unique; auto. intros q. rewrite B, B'. tauto. Qed.

(** Every row stands for one displacement. *)
Lemma shape_made x : exists U, shape_of ext w c x U.
Proof.
  destruct modal_system as (K & M & F & _ & _ & LF & _).
  exists (fun q => if in_dec Nat.eq_dec q F then nth (List.length (filter (fun p => Nat.ltb p q) F)) x 0 else 0). split.
  - intros q Hq R. destruct (in_dec Nat.eq_dec q F) as [I|I]; [|reflexivity]. exfalso. apply LF in I. tauto.
  - exists F. split; [exact LF|]. intros j Hj. destruct (in_dec Nat.eq_dec (nth j F O) F) as [I|I]; [|exfalso; apply I, nth_In, Hj].
    f_equal. destruct LF as [SS _]. pose proof (f_equal (@List.length nat) (firstn_below F j SS Hj)) as E. rewrite firstn_length in E. etransitivity; [exact E|lia].
Qed.

Section Mode.
Variables (i : nat) (lambda : R) (x : list R) (U : nat -> R).
Hypothesis (HO : nth_error o i = Some lambda) (HX : nth_error modes i = Some x) (SU : shape_of ext w c x U).

Lemma mode_works v : permitted ext w c v -> energy ext w v U = lambda * inertia w v U.
Proof.
  intros PV. destruct modal_system as (K & M & F & HK & HM & LF & EQ). destruct (EQ i lambda x HO HX) as (_ & E). destruct SU as (PU & F' & LF' & VU).
  rewrite <- (free_unique _ _ LF LF') in VU.
  unfold energy, inertia. transitivity (work_of w (fun q => lambda * rsum (equations w) (fun p => mass_at w q p * U p)) v); [|unfold work_of; rewrite <- rsum_scal; apply rsum_ext; intros; ring].
  apply (work_free ext ops NR c); [exact PV|].
  intros q Hq NQ. fold w in Hq, NQ. assert (IQ : In q F) by (apply LF; split; assumption).
  unfold holding. fold w. unfold stiff_at, mass_at. rewrite HK, HM.
  rewrite (sum_free F _ LF) by (intros p Hp R; rewrite (PU p Hp R); ring).
  rewrite (sum_free F (fun p => coo_get M q p * U p) LF) by (intros p Hp R; rewrite (PU p Hp R); ring).
  transitivity (rsum (List.length F) (fun j => coo_get K q (nth j F O) * nth j x 0)); [apply rsum_ext; intros j Hj; rewrite VU by exact Hj; reflexivity|].
  rewrite (E q IQ). f_equal. apply rsum_ext. intros j Hj. rewrite VU by exact Hj. reflexivity.
Qed.
Lemma mode_moves : exists q, (q < equations w)%nat /\ U q <> 0.
Proof.
  destruct modal_system as (K & M & F & HK & HM & LF & EQ). destruct (EQ i lambda x HO HX) as ((j & Hj & NZ) & _). destruct SU as (PU & F' & LF' & VU).
  rewrite <- (free_unique _ _ LF LF') in VU. exists (nth j F O). rewrite VU by exact Hj. split; [|exact NZ]. apply LF, nth_In, Hj.
Qed.
End Mode.

Lemma mass_sym p q : mass_at w p q = mass_at w q p.
Proof.
  unfold mass_at. destruct (mass_matrix w) as [M|] eqn:HM; [|reflexivity].
  apply (c40_symmetric ext (ops ++ [OpAssemble]) w (a_model a) M eq_refl); [unfold assembled_model; rewrite Ha; reflexivity|exact HM].
Qed.
Lemma inertia_sym x y : inertia w x y = inertia w y x.
Proof.
  unfold inertia, work_of.
  transitivity (rsum (equations w) (fun q => rsum (equations w) (fun p => mass_at w q p * y p * x q))).
  { apply rsum_ext. intros q _. rewrite (Rmult_comm _ (x q)), <- rsum_scal. apply rsum_ext. intros; ring. }
  rewrite rsum_swap. apply rsum_ext. intros p _. rewrite (Rmult_comm _ (y p)), <- rsum_scal. apply rsum_ext. intros q _. rewrite (mass_sym p q). ring.
Qed.
Lemma inertia_nonneg x : massive w -> 0 <= inertia w x x.
Proof.
  intros MA. assert (Hm : assembled_model w = Some (a_model a)) by (unfold assembled_model; rewrite Ha; reflexivity).
  destruct modal_system as (K & M & F & HK & HM & _). destruct (MA _ Hm) as (PN & PB).
  pose proof (c40_nonneg ext (ops ++ [OpAssemble]) w (a_model a) M eq_refl Hm HM PN PB x) as N.
  enough (inertia w x x = form (size (a_model a)) M x x) by lra.
  unfold inertia, work_of, mass_at, form, equations. rewrite HM, Hm. apply rsum_ext. intros q _. apply Rmult_comm.
Qed.
End Modal.

Lemma m116_modes ext ops eigsh a c st modes o : never_readds_nodes ext ops -> let w := final ext init (ops ++ [OpAssemble]) in
  exact_eigen eigsh -> read_asb w = Some a -> solve_eigen (x_ker ext) eigsh a c st = Some (modes, o) ->
  forall i lambda x, nth_error o i = Some lambda -> nth_error modes i = Some x ->
  (exists U, shape_of ext w c x U) /\ forall U, shape_of ext w c x U ->
    (exists q, (q < equations w)%nat /\ U q <> 0) /\ forall v, permitted ext w c v -> energy ext w v U = lambda * inertia w v U.
Proof.
  intros NR w EX Ha HS i lambda x HO HX. apply told_guard in NR. split; [exact (shape_made ext ops NR eigsh a c st modes o EX Ha HS x)|].
  intros U SU. split; [exact (mode_moves ext ops NR eigsh a c st modes o EX Ha HS i lambda x U HO HX SU)|].
  intros v PV. exact (mode_works ext ops NR eigsh a c st modes o EX Ha HS i lambda x U HO HX SU v PV).
Qed.
Lemma m116_orthogonal ext ops eigsh a c st modes o : never_readds_nodes ext ops -> let w := final ext init (ops ++ [OpAssemble]) in
  exact_eigen eigsh -> read_asb w = Some a -> solve_eigen (x_ker ext) eigsh a c st = Some (modes, o) -> symmetric_elements ext w ->
  forall i j lambda mu x y U V, nth_error o i = Some lambda -> nth_error modes i = Some x -> nth_error o j = Some mu -> nth_error modes j = Some y ->
  shape_of ext w c x U -> shape_of ext w c y V -> lambda <> mu -> inertia w U V = 0 /\ energy ext w U V = 0.
Proof.
  intros NR w EX Ha HS SY i j lambda mu x y U V HO HX HO' HX' SU SV NE. apply told_guard in NR.
  pose proof (mode_works ext ops NR eigsh a c st modes o EX Ha HS i lambda x U HO HX SU V (proj1 SV)) as A. fold w in A.
  pose proof (mode_works ext ops NR eigsh a c st modes o EX Ha HS j mu y V HO' HX' SV U (proj1 SU)) as B. fold w in B.
  rewrite (energy_sym ext w V U (stiff_sym ext ops SY)), B in A. pose proof (inertia_sym ext ops a Ha V U) as IS. fold w in IS. rewrite IS in A.
  assert (Z : inertia w U V = 0).
  { destruct (Req_dec (inertia w U V) 0) as [E|E]; [exact E|]. exfalso. apply NE. apply (Rmult_eq_reg_r (inertia w U V)); [lra|exact E]. }
  split; [exact Z|]. rewrite B, Z. ring.
Qed.
Lemma m116_positive ext ops eigsh a c st modes o : never_readds_nodes ext ops -> let w := final ext init (ops ++ [OpAssemble]) in
  exact_eigen eigsh -> read_asb w = Some a -> solve_eigen (x_ker ext) eigsh a c st = Some (modes, o) -> elastic ext w -> massive w ->
  forall i lambda x U, nth_error o i = Some lambda -> nth_error modes i = Some x -> shape_of ext w c x U ->
  (stable ext w c -> 0 < lambda /\ 0 < inertia w U U) /\ (0 < inertia w U U -> 0 <= lambda /\ (lambda = 0 <-> energy ext w U U = 0)).
Proof.
  intros NR w EX Ha HS EL MA i lambda x U HO HX SU. apply told_guard in NR.
  pose proof (mode_works ext ops NR eigsh a c st modes o EX Ha HS i lambda x U HO HX SU U (proj1 SU)) as A. fold w in A.
  destruct (mode_moves ext ops NR eigsh a c st modes o EX Ha HS i lambda x U HO HX SU) as (q & Hq & NZ). fold w in Hq.
  pose proof (energy_nonneg ext ops EL U) as E0. fold w in E0.
  pose proof (inertia_nonneg ext ops NR eigsh a c st modes o EX Ha HS U MA) as I0. fold w in I0. split.
  - intros ST.
    assert (EP : energy ext w U U <> 0) by (intros Z; apply NZ; apply (ST U (proj1 SU) Z q Hq)).
    assert (IP : inertia w U U <> 0) by (intros Z; rewrite Z, Rmult_0_r in A; contradiction).
    split; [|lra]. apply (Rmult_lt_reg_r (inertia w U U)); [lra|]. rewrite <- A. lra.
  - intros IP. split; [apply (Rmult_le_reg_r (inertia w U U)); [lra|]; rewrite <- A; lra|]. rewrite A. split; [intros ->; ring|].
    intros Z. apply Rmult_integral in Z as [Z|Z]; lra.
Qed.

(** ** Combinations of modes *)
Lemma work_sum_r w f n (k : nat -> R) (U : nat -> nat -> R) : work_of w f (fun q => rsum n (fun i => k i * U i q)) = rsum n (fun i => k i * work_of w f (U i)).
Proof.
  unfold work_of. transitivity (rsum (equations w) (fun q => rsum n (fun i => k i * (f q * U i q)))).
  - apply rsum_ext. intros q _. rewrite <- rsum_scal. apply rsum_ext. intros; ring.
  - rewrite rsum_swap. apply rsum_ext. intros i _. apply rsum_scal.
Qed.
Lemma work_sum_l w n (k : nat -> R) (g : nat -> nat -> R) x : work_of w (fun q => rsum n (fun i => k i * g i q)) x = rsum n (fun i => k i * work_of w (g i) x).
Proof.
  unfold work_of. transitivity (rsum (equations w) (fun q => rsum n (fun i => k i * (g i q * x q)))).
  - apply rsum_ext. intros q _. rewrite (Rmult_comm _ (x q)), <- rsum_scal. apply rsum_ext. intros; ring.
  - rewrite rsum_swap. apply rsum_ext. intros i _. apply rsum_scal.
Qed.
Lemma form_sum w (A : nat -> nat -> R) n (k : nat -> R) (U : nat -> nat -> R) y :
  work_of w (fun q => rsum (equations w) (fun p => A q p * rsum n (fun i => k i * U i p))) y
  = rsum n (fun i => k i * work_of w (fun q => rsum (equations w) (fun p => A q p * U i p)) y).
Proof.
  rewrite <- work_sum_l. unfold work_of. apply rsum_ext. intros q _. f_equal.
  transitivity (rsum (equations w) (fun p => rsum n (fun i => k i * (A q p * U i p)))).
  - apply rsum_ext. intros p _. rewrite <- rsum_scal. apply rsum_ext. intros; ring.
  - rewrite rsum_swap. apply rsum_ext. intros i _. apply rsum_scal.
Qed.
Lemma rsum_only n i (f : nat -> R) : (i < n)%nat -> (forall j, (j < n)%nat -> j <> i -> f j = 0) -> rsum n f = f i.
Proof.
  intros Hi Z. induction n as [|n IH]; [lia|]. cbn [rsum]. destruct (Nat.eq_dec i n) as [->|NE].
  - rewrite rsum_0; [ring|]. intros j Hj. apply Z; lia.
  - rewrite IH by (try lia; intros; apply Z; lia). rewrite (Z n) by lia. ring.
Qed.
Lemma m116_combined ext ops eigsh a c st modes o : never_readds_nodes ext ops -> let w := final ext init (ops ++ [OpAssemble]) in
  exact_eigen eigsh -> read_asb w = Some a -> solve_eigen (x_ker ext) eigsh a c st = Some (modes, o) -> symmetric_elements ext w ->
  forall n lambda x U k, NoDup (firstn n o) ->
  (forall i, (i < n)%nat -> nth_error o i = Some (lambda i) /\ nth_error modes i = Some (x i) /\ shape_of ext w c (x i) (U i)) ->
  let v := fun q => rsum n (fun i => k i * U i q) in
  inertia w v v = rsum n (fun i => k i * k i * inertia w (U i) (U i))
  /\ energy ext w v v = rsum n (fun i => k i * k i * (lambda i * inertia w (U i) (U i))).
Proof.
  intros NR w EX Ha HS SY n lambda x U k ND H v.
  assert (DI : forall i j, (i < n)%nat -> (j < n)%nat -> i <> j -> lambda i <> lambda j).
  { intros i j Hi Hj NE E. apply NE. assert (L : (n <= List.length o)%nat).
    { destruct (le_lt_dec n (List.length o)) as [L|L]; [exact L|]. destruct (H (List.length o) L) as (X & _). assert (N : nth_error o (List.length o) <> None) by congruence. apply nth_error_Some in N. lia. }
    assert (F : forall i, (i < n)%nat -> nth_error (firstn n o) i = Some (lambda i)).
    { intros z Hz. rewrite <- (firstn_skipn n o) in H. destruct (H z Hz) as (X & _). rewrite nth_error_app1 in X by (rewrite firstn_length; lia). exact X. }
    apply (proj1 (NoDup_nth_error (firstn n o)) ND); [rewrite firstn_length; lia|]. rewrite (F i Hi), (F j Hj), E. reflexivity. }
  assert (OR : forall i j, (i < n)%nat -> (j < n)%nat -> j <> i -> inertia w (U i) (U j) = 0 /\ energy ext w (U i) (U j) = 0).
  { intros i j Hi Hj NE. destruct (H i Hi) as (A & B & C), (H j Hj) as (A' & B' & C').
    apply (m116_orthogonal ext ops eigsh a c st modes o NR EX Ha HS SY i j (lambda i) (lambda j) (x i) (x j)); auto. }
  assert (QF : forall A, (forall i j, (i < n)%nat -> (j < n)%nat -> j <> i -> work_of w (fun q => rsum (equations w) (fun p => A q p * U j p)) (U i) = 0) ->
    work_of w (fun q => rsum (equations w) (fun p => A q p * v p)) v = rsum n (fun i => k i * k i * work_of w (fun q => rsum (equations w) (fun p => A q p * U i p)) (U i))).
  { intros A Z. unfold v at 2. rewrite work_sum_r. apply rsum_ext. intros i Hi. unfold v. rewrite form_sum.
    rewrite (rsum_only n i) by (try exact Hi; intros j Hj NE; rewrite (Z i j Hi Hj NE); ring). ring. }
  split.
  - apply (QF (mass_at w)). intros i j Hi Hj NE. apply (OR i j Hi Hj NE).
  - unfold energy at 1. etransitivity; [apply (QF (stiff_at ext w)); intros i j Hi Hj NE; apply (OR i j Hi Hj NE)|].
    apply rsum_ext. intros i Hi. destruct (H i Hi) as (A & B & C). f_equal.
    apply (proj2 (m116_modes ext ops eigsh a c st modes o NR EX Ha HS i (lambda i) (x i) A B) (U i) C). apply C.
Qed.
