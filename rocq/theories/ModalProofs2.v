(** The stored modes taken together (C117, C118). *)
From Coq Require Import Reals Lra Lia List String Arith Bool ZArith Sorting.Permutation.
From Verif Require Import Base BaseFacts Csys Sections Element Load FeModel Assembly Solver Post Api
  SpecApi ApiFacts WfFacts HidFacts ApiProofs1 LoadFacts SpecElim ElimFacts SpecGeom CsysFacts SpecBeam BeamFacts AsmFacts SpecAsm AsmProofs
  AsmTotal AsmProofs2 SpecLoad LoadProofs AsmProofs3 SpecSolve AsmSolve SpecMass MassProofs SpecStatics StaticsProofs StaticsProofs2 StaticsMain
  Dynamic SpecDyn DynProofs SpecModal ModalProofs SpecModal2.
Import ListNotations.
Local Open Scope R_scope.

(** ** Bessel's inequality *)
Definition gram (w : world) (A : nat -> nat -> R) (x y : nat -> R) : R := work_of w (fun q => rsum (equations w) (fun p => A q p * y p)) x.
Lemma gram_minus w A x y : gram w A (fun q => x q - y q) (fun q => x q - y q) = gram w A x x - gram w A x y - gram w A y x + gram w A y y.
Proof.
  unfold gram, work_of. set (g := fun z q => rsum (equations w) (fun p => A q p * z p)).
  assert (L : forall q, rsum (equations w) (fun p => A q p * (x p - y p)) = g x q - g y q).
  { intros q. unfold g. rewrite <- rsum_minus. apply rsum_ext. intros; ring. }
  transitivity (rsum (equations w) (fun q => g x q * x q - g y q * x q - g x q * y q + g y q * y q)).
  { apply rsum_ext. intros q _. rewrite L. ring. }
  rewrite (rsum_plus _ (fun q => g x q * x q - g y q * x q - g x q * y q)), (rsum_minus _ (fun q => g x q * x q - g y q * x q)), rsum_minus. unfold g. ring.
Qed.
Lemma bessel w A n (U : nat -> nat -> R) v : (forall x y, gram w A x y = gram w A y x) -> (forall x, 0 <= gram w A x x) ->
  (forall i, (i < n)%nat -> 0 < gram w A (U i) (U i)) -> (forall i j, (i < n)%nat -> (j < n)%nat -> j <> i -> gram w A (U i) (U j) = 0) ->
  rsum n (fun i => gram w A v (U i) ^ 2 / gram w A (U i) (U i)) <= gram w A v v.
Proof.
  intros SY PS PO OR. pose (k := fun i => gram w A v (U i) / gram w A (U i) (U i)). pose (s := fun q => rsum n (fun i => k i * U i q)).
  pose proof (PS (fun q => v q - s q)) as P. rewrite gram_minus in P.
  assert (VS : gram w A v s = rsum n (fun i => gram w A v (U i) ^ 2 / gram w A (U i) (U i))).
  { unfold gram at 1. unfold s. rewrite form_sum. apply rsum_ext. intros i Hi. fold (gram w A v (U i)). unfold k. specialize (PO i Hi). field. lra. }
  assert (SS : gram w A s s = gram w A v s).
  { transitivity (rsum n (fun i => k i * gram w A (U i) s)).
    - unfold gram at 1. unfold s at 2. rewrite work_sum_r. reflexivity.
    - rewrite VS. apply rsum_ext. intros i Hi. unfold gram at 1. unfold s. rewrite form_sum.
      rewrite (rsum_only n i) by (try exact Hi; intros j Hj NE; fold (gram w A (U i) (U j)); rewrite (OR i j Hi Hj NE); ring).
      fold (gram w A (U i) (U i)). unfold k. specialize (PO i Hi). field. lra. }
  rewrite (SY s v), SS, VS in P. lra.
Qed.

Section Together.
Variables (ext : externals) (ops : list op).
Hypothesis NR : never_readds_nodes ext ops.
Let w := final ext init (ops ++ [OpAssemble]).
Variables (eigsh : eigensolver) (a : asm) (c : string) (st : modal_setting) (modes : list (list R)) (o : list R).
Hypothesis (EX : exact_eigen eigsh) (Ha : read_asb w = Some a) (HS : solve_eigen (x_ker ext) eigsh a c st = Some (modes, o)).
Hypothesis (SY : symmetric_elements ext w) (EL : elastic ext w) (MA : massive w) (ST : stable ext w c).
Variables (n : nat) (lambda : nat -> R) (U : nat -> nat -> R).
Hypothesis FM : first_modes ext w c modes o n lambda U.

Lemma fm_distinct i j : (i < n)%nat -> (j < n)%nat -> i <> j -> lambda i <> lambda j.
Proof.
  intros Hi Hj NE E. apply NE. destruct FM as (ND & H). assert (L : (n <= List.length o)%nat).
  { destruct (le_lt_dec n (List.length o)) as [L|L]; [exact L|]. destruct (H (List.length o) L) as (X & _). assert (N : nth_error o (List.length o) <> None) by congruence. apply nth_error_Some in N. lia. }
  assert (F : forall z, (z < n)%nat -> nth_error (firstn n o) z = Some (lambda z)).
  { intros z Hz. rewrite <- (firstn_skipn n o) in H. destruct (H z Hz) as (X & _). rewrite nth_error_app1 in X by (rewrite firstn_length; lia). exact X. }
  apply (proj1 (NoDup_nth_error (firstn n o)) ND); [rewrite firstn_length; lia|]. rewrite (F i Hi), (F j Hj), E. reflexivity.
Qed.
Lemma fm_orthogonal i j : (i < n)%nat -> (j < n)%nat -> j <> i -> inertia w (U i) (U j) = 0 /\ energy ext w (U i) (U j) = 0.
Proof.
  intros Hi Hj NE. destruct FM as (_ & H). destruct (H i Hi) as (A & x & B & C), (H j Hj) as (A' & x' & B' & C').
  apply (m116_orthogonal ext ops eigsh a c st modes o NR EX Ha HS SY i j (lambda i) (lambda j) x x'); auto. apply fm_distinct; auto.
Qed.
Lemma fm_positive i : (i < n)%nat -> 0 < lambda i /\ 0 < inertia w (U i) (U i).
Proof.
  intros Hi. destruct FM as (_ & H). destruct (H i Hi) as (A & x & B & C).
  exact (proj1 (m116_positive ext ops eigsh a c st modes o NR EX Ha HS EL MA i (lambda i) x (U i) A B C) ST).
Qed.
Lemma fm_works i v : (i < n)%nat -> permitted ext w c v -> energy ext w v (U i) = lambda i * inertia w v (U i).
Proof.
  intros Hi PV. destruct FM as (_ & H). destruct (H i Hi) as (A & x & B & C).
  exact (proj2 (proj2 (m116_modes ext ops eigsh a c st modes o NR EX Ha HS i (lambda i) x A B) (U i) C) v PV).
Qed.
Lemma fm_permitted i : (i < n)%nat -> permitted ext w c (U i).
Proof. intros Hi. destruct FM as (_ & H). destruct (H i Hi) as (_ & x & _ & C). apply C. Qed.
Let isym x y : inertia w x y = inertia w y x := inertia_sym ext ops a Ha x y.
Let ipos x : 0 <= inertia w x x := inertia_nonneg ext ops (told_guard _ _ NR) eigsh a c st modes o EX Ha HS x MA.

Lemma bessel_mass v : rsum n (fun i => inertia w v (U i) ^ 2 / inertia w (U i) (U i)) <= inertia w v v.
Proof.
  apply (bessel w (mass_at w)); [exact isym|exact ipos|intros i Hi; apply (fm_positive i Hi)|intros i j Hi Hj NE; apply (fm_orthogonal i j Hi Hj NE)].
Qed.
Lemma bessel_energy v : rsum n (fun i => energy ext w v (U i) ^ 2 / energy ext w (U i) (U i)) <= energy ext w v v.
Proof.
  apply (bessel w (stiff_at ext w)).
  - intros x y. apply (energy_sym ext w x y (stiff_sym ext ops SY)).
  - intros x. exact (energy_nonneg ext ops EL x).
  - intros i Hi. destruct (fm_positive i Hi) as (L & I). change (0 < energy ext w (U i) (U i)). rewrite (fm_works i (U i) Hi (fm_permitted i Hi)). apply Rmult_lt_0_compat; assumption.
  - intros i j Hi Hj NE. apply (fm_orthogonal i j Hi Hj NE).
Qed.

(** ** The mass matrix is diagonal *)
Lemma mass_off p q : p <> q -> mass_at w p q = 0.
Proof.
  intros NE. unfold mass_at, mass_matrix. rewrite Ha. cbn [bindO]. destruct (assemble_M a None) as [M|] eqn:HM; [|reflexivity].
  assert (Wf : fem_wf (a_model a)) by (apply (assembled_wf ext (ops ++ [OpAssemble]) w a eq_refl Ha)).
  rewrite <- bil_delta. destruct (assemble_M_bil a M (delta p) (delta q) Wf HM) as (-> & _).
  assert (D : forall z, delta p z * delta q z = 0).
  { intros z. unfold delta. destruct (Nat.eqb _ _) eqn:E1; [|ring]. destruct (Nat.eqb z q) eqn:E2; [|ring]. apply Nat.eqb_eq in E1, E2. congruence. }
  assert (DD : forall i, dot3 (disp_at (delta p) i) (disp_at (delta q) i) = 0 /\ dot3 (rot_at (delta p) i) (rot_at (delta q) i) = 0).
  { intros i. unfold disp_at, rot_at, dot3; cbn [vx vy vz]. rewrite !D. split; ring. }
  rewrite !lsum_zero; [ring| |].
  - intros b _. unfold member_inertia, beam_ends, ends_at; cbn [d_i d_j r_i r_j].
    rewrite !(proj1 (DD _)), !(proj2 (DD _)). ring.
  - intros kn _. unfold node_inertia. apply rsum_0. intros i _. rewrite Rmult_assoc, D. ring.
Qed.
Lemma inertia_diagonal x y : inertia w x y = rsum (equations w) (fun q => mass_at w q q * x q * y q).
Proof.
  unfold inertia, work_of. apply rsum_ext. intros q Hq. rewrite (rsum_only _ q) by (try exact Hq; intros p _ NE; rewrite mass_off by auto; ring). ring.
Qed.
Lemma mass_diag_nonneg q : (q < equations w)%nat -> 0 <= mass_at w q q.
Proof.
  intros Hq. pose proof (ipos (delta q)) as P. rewrite inertia_diagonal in P.
  rewrite (rsum_only _ q) in P by (try exact Hq; intros p _ NE; unfold delta; apply Nat.eqb_neq in NE; rewrite NE; ring). unfold delta in P. rewrite Nat.eqb_refl in P. lra.
Qed.
(** Displacements as the supports leave of them. *)
Lemma left_over r v : permitted ext w c v -> (forall q, (q < equations w)%nat -> ~ restrained_for ext w c q -> v q = r q) ->
  (forall x, permitted ext w c x -> inertia w r x = inertia w v x) /\ inertia w v v <= inertia w r r.
Proof.
  intros PV AG. rewrite (inertia_diagonal r r), (inertia_diagonal v v). split.
  - intros x PX. rewrite !inertia_diagonal. apply rsum_ext. intros q Hq. destruct (restrained_dec ext ops (told_guard _ _ NR) c q) as [R|R]; [rewrite (PX q Hq R); ring|rewrite (AG q Hq R); reflexivity].
  - apply rsum_le. intros q Hq. pose proof (mass_diag_nonneg q Hq). destruct (restrained_dec ext ops (told_guard _ _ NR) c q) as [R|R]; [rewrite (PV q Hq R); nra|rewrite (AG q Hq R); lra].
Qed.
End Together.

Lemma m117_mass ext ops eigsh a c st modes o : never_readds_nodes ext ops -> let w := final ext init (ops ++ [OpAssemble]) in
  exact_eigen eigsh -> read_asb w = Some a -> solve_eigen (x_ker ext) eigsh a c st = Some (modes, o) ->
  symmetric_elements ext w -> elastic ext w -> massive w -> stable ext w c ->
  forall n lambda U m t r v, first_modes ext w c modes o n lambda U -> assembled_model w = Some m -> rigid_motion m t zero3 r ->
  permitted ext w c v -> (forall q, (q < equations w)%nat -> ~ restrained_for ext w c q -> v q = r q) ->
  rsum n (fun i => inertia w r (U i) ^ 2 / inertia w (U i) (U i)) <= inertia w v v /\ inertia w v v <= mass_along m t.
Proof.
  intros NR w EX Ha HS SY EL MA ST n lambda U m t r v FM Hm R PV AG.
  destruct (left_over ext ops NR eigsh a c st modes o EX Ha HS MA r v PV AG) as (E1 & E2). fold w in E1, E2. split.
  - eapply Rle_trans; [right|exact (bessel_mass ext ops NR eigsh a c st modes o EX Ha HS SY EL MA ST n lambda U FM v)].
    apply rsum_ext. intros i Hi. rewrite E1; [reflexivity|]. exact (fm_permitted ext ops c modes o n lambda U FM i Hi).
  - eapply Rle_trans; [exact E2|]. right.
    destruct (modal_system ext ops (told_guard _ _ NR) eigsh a c st modes o EX Ha HS) as (K & M & F & _ & HM & _). fold w in HM.
    pose proof (c40_translation ext (ops ++ [OpAssemble]) w m M t r eq_refl (told_guard _ _ NR) Hm HM R) as E.
    unfold mass_along. rewrite <- E. unfold inertia, work_of, mass_at, form, equations. rewrite HM, Hm. apply rsum_ext. intros q _. apply Rmult_comm.
Qed.
Lemma m117_static ext ops eigsh a c st modes o : never_readds_nodes ext ops -> let w := final ext init (ops ++ [OpAssemble]) in
  exact_eigen eigsh -> read_asb w = Some a -> solve_eigen (x_ker ext) eigsh a c st = Some (modes, o) ->
  symmetric_elements ext w -> elastic ext w -> massive w -> stable ext w c ->
  forall n lambda U s, first_modes ext w c modes o n lambda U -> solved ext w s -> same_supports ext w c s ->
  rsum n (fun i => work_of w (load_at w s) (U i) ^ 2 / (lambda i * inertia w (U i) (U i))) <= work_of w (load_at w s) (solution ext w s).
Proof.
  intros NR w EX Ha HS SY EL MA ST n lambda U s FM SV SS.
  destruct (m106_balanced ext ops s NR SV SY) as (P & B). fold w in P, B.
  pose proof (m106_clapeyron ext ops s NR SV SY) as CL. fold w in CL. rewrite CL.
  eapply Rle_trans; [right|exact (bessel_energy ext ops NR eigsh a c st modes o EX Ha HS SY EL MA ST n lambda U FM (solution ext w s))].
  apply rsum_ext. intros i Hi. pose proof (fm_permitted ext ops c modes o n lambda U FM i Hi) as PU. fold w in PU.
  rewrite (energy_sym ext w _ (U i) (stiff_sym ext ops SY)).
  assert (PU' : permitted ext w s (U i)) by (intros q Hq R; apply PU; [exact Hq|apply SS, R]).
  pose proof (balanced_work ext ops (told_guard _ _ NR) s (solution ext w s) (U i) PU' B) as E. fold w in E. rewrite E.
  pose proof (fm_works ext ops NR eigsh a c st modes o EX Ha HS n lambda U FM i (U i) Hi PU) as E'. fold w in E'.
  pose proof (f_equal (fun z => work_of w (load_at w s) (U i) ^ 2 / z) E') as E2. cbv beta in E2. symmetry. exact E2.
Qed.

(** ** How many modes are answered *)
Lemma m118_count ext ops eigsh a c st modes o F G : never_readds_nodes ext ops -> let w := final ext init (ops ++ [OpAssemble]) in
  answers_fewer eigsh -> read_asb w = Some a -> solve_eigen (x_ker ext) eigsh a c st = Some (modes, o) ->
  lists_free (equations w) (restrained_for ext w c) F -> lists_free (equations w) (restrained_globally ext w) G ->
  List.length o = Nat.min (ms_n st) (List.length G) /\ (List.length o < List.length F)%nat.
Proof.
  intros NR w AF Ha HS LF LG. apply told_guard in NR.
  assert (Hm : assembled_model w = Some (a_model a)) by (unfold assembled_model; rewrite Ha; reflexivity).
  assert (LG' : lists_free (size (a_model a)) (restrained_globally ext w) G) by (unfold equations in LG; rewrite Hm in LG; exact LG).
  destruct (c15_count ext ops G NR a (a_model a) Ha Hm LG') as (DO & _).
  unfold solve_eigen in HS. destruct (ms_base st); [discriminate|].
  destruct (assemble_K (x_ker ext) a) as [K|] eqn:HK; [|discriminate]. cbn [bindO] in HS.
  destruct (assemble_M a None) as [M|] eqn:HM; [|discriminate]. cbn [bindO] in HS.
  destruct (boundary_dofs a c) as [fixed|] eqn:HB; [|discriminate]. cbn [bindO] in HS.
  destruct (boundary_sem ext ops w a c fixed NR eq_refl Ha HB) as (ND & SB & BB).
  assert (Wf : fem_wf (a_model a)) by (apply (assembled_wf ext (ops ++ [OpAssemble]) w a eq_refl Ha)).
  destruct (assemble_K_bil (x_ker ext) a K (fun _ => 0) (fun _ => 0) Wf HK) as (_ & RK).
  destruct (assemble_M_bil a M (fun _ => 0) (fun _ => 0) Wf HM) as (_ & RM).
  assert (SZ : (node_count (a_model a) * 6)%nat = size (a_model a)) by (unfold size, node_count; lia). rewrite SZ in HS.
  destruct (drop_matrix_free _ K fixed ND BB RK) as (K_ & EK & _). destruct (drop_matrix_free _ M fixed ND BB RM) as (M_ & EM & _).
  rewrite EK, EM in HS. cbn [bindO fst snd] in HS.
  assert (EF : F = free (size (a_model a)) fixed).
  { apply lists_free_unique. unfold equations in LF. rewrite Hm in LF. eapply lists_free_ext; [|exact LF]. intros q _. symmetry. apply SB. }
  rewrite <- EF in HS. destruct (eigsh _ _ _ _) as [[o' modes']|] eqn:HE; [|discriminate]. cbn [bindO fst snd] in HS.
  destruct (Nat.eqb_spec (List.length o') (if (a_dof a <? Z.of_nat (ms_n st))%Z then Z.to_nat (a_dof a) else ms_n st)) as [L|]; [|discriminate].
  apply some_inj in HS. assert (o' = o) by congruence. subst o'.
  rewrite <- L in HE. assert (KL : List.length o = Nat.min (ms_n st) (List.length G)).
  { rewrite L, DO. destruct (Z.ltb_spec (Z.of_nat (List.length G)) (Z.of_nat (ms_n st))); lia. }
  split; [exact KL|]. destruct (le_lt_dec (List.length F) (List.length o)) as [B|B]; [|exact B]. rewrite (AF _ _ _ _ B) in HE. discriminate.
Qed.
Lemma m118_all ext ops eigsh a c st F : never_readds_nodes ext ops -> let w := final ext init (ops ++ [OpAssemble]) in
  answers_fewer eigsh -> read_asb w = Some a -> lists_free (equations w) (restrained_for ext w c) F ->
  (forall q, (q < equations w)%nat -> restrained_for ext w c q <-> restrained_globally ext w q) -> (List.length F <= ms_n st)%nat ->
  solve_eigen (x_ker ext) eigsh a c st = None.
Proof.
  intros NR w AF Ha LF SG LE. destruct (solve_eigen (x_ker ext) eigsh a c st) as [[modes o]|] eqn:HS; [|reflexivity]. exfalso.
  assert (LG : lists_free (equations w) (restrained_globally ext w) F) by (eapply lists_free_ext; [|exact LF]; exact SG).
  destruct (m118_count ext ops eigsh a c st modes o F F NR AF Ha HS LF LG) as (A & B). lia.
Qed.
