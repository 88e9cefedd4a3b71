(** Comparison of the modes of modal cases (C121). *)
From Coq Require Import Reals Lra Lia List String Arith Bool ZArith Sorting.Permutation.
From Verif Require Import Base BaseFacts Csys Sections Element Load FeModel Assembly Solver Post Api
  SpecApi ApiFacts WfFacts HidFacts ApiProofs1 LoadFacts SpecElim ElimFacts SpecGeom CsysFacts SpecBeam BeamFacts AsmFacts SpecAsm AsmProofs
  AsmTotal AsmProofs2 SpecLoad LoadProofs AsmProofs3 SpecSolve AsmSolve SpecMass MassProofs SpecStatics StaticsProofs StaticsProofs2 StaticsMain
  Dynamic SpecDyn DynProofs SpecModal ModalProofs SpecModal2 ModalProofs2 SpecTold ToldProofs SpecSame SameProofs SameProofs2 StifferProofs SpecFreq.
Import ListNotations.
Local Open Scope R_scope.

(** ** Fewer equations than unknowns *)
Lemma homogeneous n : forall rows : list (nat -> R), (List.length rows < n)%nat ->
  exists c : nat -> R, (exists j, (j < n)%nat /\ c j <> 0) /\ forall f, In f rows -> rsum n (fun j => f j * c j) = 0.
Proof.
  induction n as [|n IH]; intros rows L; [lia|].
  assert (D : (forall f, In f rows -> f n = 0) \/ exists p, In p rows /\ p n <> 0).
  { clear. induction rows as [|f rows IH]; [left; intros f []|]. destruct (Req_dec (f n) 0) as [Z|Z]; [|right; exists f; split; [left; reflexivity|exact Z]].
    destruct IH as [A|(p & I & NZ)]; [left; intros g [<-|I]; auto|right; exists p; split; [right; exact I|exact NZ]]. }
  destruct D as [A|(p & I & NZ)].
  - exists (fun j => if Nat.eqb j n then 1 else 0). split; [exists n; split; [lia|rewrite Nat.eqb_refl; lra]|].
    intros f I. cbn [rsum]. rewrite (A f I). rewrite rsum_0; [ring|]. intros j Hj. replace (Nat.eqb j n) with false by (symmetry; apply Nat.eqb_neq; lia). ring.
  - apply in_split in I as (l1 & l2 & ->). rewrite app_length in L. cbn [List.length] in L.
    destruct (IH (map (fun f j => f j - f n / p n * p j) (l1 ++ l2))) as (c & (j & Hj & NC) & HC); [rewrite map_length, app_length; lia|].
    set (s := - rsum n (fun j => p j * c j) / p n).
    assert (X : forall g : nat -> R, rsum (S n) (fun j => g j * (if Nat.eqb j n then s else c j)) = rsum n (fun j => g j * c j) + g n * s).
    { intros g. cbn [rsum]. rewrite Nat.eqb_refl. f_equal. apply rsum_ext. intros i Hi. replace (Nat.eqb i n) with false by (symmetry; apply Nat.eqb_neq; lia). reflexivity. }
    exists (fun j => if Nat.eqb j n then s else c j). split.
    { exists j. split; [lia|]. replace (Nat.eqb j n) with false by (symmetry; apply Nat.eqb_neq; lia). exact NC. }
    intros f I. rewrite X. apply in_app_or in I.
    assert (C : f = p \/ In f (l1 ++ l2)) by (destruct I as [I|[<-|I]]; [right; apply in_or_app; auto|left; reflexivity|right; apply in_or_app; auto]).
    destruct C as [->|C]; [unfold s; field; exact NZ|].
    specialize (HC (fun j => f j - f n / p n * p j)). cbn beta in HC.
    assert (E : rsum n (fun j => (f j - f n / p n * p j) * c j) = 0) by (apply HC, in_map_iff; exists f; split; [reflexivity|exact C]).
    rewrite (rsum_ext n _ (fun j => f j * c j - f n / p n * (p j * c j))) in E by (intros; ring). rewrite rsum_minus, rsum_scal in E.
    assert (E' : rsum n (fun j => f j * c j) = f n / p n * rsum n (fun j => p j * c j)) by lra. rewrite E'. unfold s. field. exact NZ.
Qed.

Section Lowest.
Variables (ext : externals) (ops : list op).
Hypothesis NR0 : never_readds_nodes ext ops.
Let w := final ext init (ops ++ [OpAssemble]).
Variables (eigsh : eigensolver) (a : asm) (c : string) (st : modal_setting) (modes : list (list R)) (o : list R).
Hypothesis (EX : exact_eigen eigsh) (LO : lowest_eigen eigsh) (Ha : read_asb w = Some a) (HS : solve_eigen (x_ker ext) eigsh a c st = Some (modes, o)).

Lemma free_products F (A : coo) v y : never_readds_nodes ext (ops ++ [OpAssemble]) -> lists_free (equations w) (restrained_for ext w c) F -> permitted ext w c v -> permitted ext w c y ->
  work_of w (fun q => rsum (equations w) (fun p => coo_get A q p * y p)) v
  = rsum (List.length F) (fun r => v (nth r F O) * rsum (List.length F) (fun j => coo_get A (nth r F O) (nth j F O) * y (nth j F O))).
Proof.
  intros NR LF PV PY. unfold work_of. rewrite (sum_free ext ops NR c F _ LF) by (intros q Hq Rq; rewrite (PV q Hq Rq); ring).
  apply rsum_ext. intros r Hr. rewrite (sum_free ext ops NR c F _ LF) by (intros q Hq Rq; rewrite (PY q Hq Rq); ring). ring.
Qed.

Lemma lowest_world :
  List.length modes = List.length o
  /\ (forall i j x y, (i <= j)%nat -> nth_error o i = Some x -> nth_error o j = Some y -> x <= y)
  /\ (forall i j x y U V, i <> j -> nth_error modes i = Some x -> nth_error modes j = Some y -> shape_of ext w c x U -> shape_of ext w c y V -> inertia w U V = 0)
  /\ (forall U v, shapes_of ext w c modes U -> permitted ext w c v -> (forall j, (j < List.length modes)%nat -> inertia w v (U j) = 0) ->
      forall x, In x o -> x * inertia w v v <= energy ext w v v).
Proof.
  pose proof (told_guard _ _ NR0) as NR.
  unfold solve_eigen in HS. destruct (ms_base st); [discriminate|].
  destruct (assemble_K (x_ker ext) a) as [K|] eqn:HK; [|discriminate]. cbn [bindO] in HS.
  destruct (assemble_M a None) as [M|] eqn:HM; [|discriminate]. cbn [bindO] in HS.
  destruct (boundary_dofs a c) as [fixed|] eqn:HB; [|discriminate]. cbn [bindO] in HS.
  destruct (boundary_sem ext ops w a c fixed NR eq_refl Ha HB) as (ND & SB & BB).
  assert (Wf : fem_wf (a_model a)) by (apply (assembled_wf ext (ops ++ [OpAssemble]) w a eq_refl Ha)).
  destruct (assemble_K_bil (x_ker ext) a K (fun _ => 0) (fun _ => 0) Wf HK) as (_ & RK).
  destruct (assemble_M_bil a M (fun _ => 0) (fun _ => 0) Wf HM) as (_ & RM).
  assert (SZ : (node_count (a_model a) * 6)%nat = size (a_model a)) by (unfold size, node_count; lia). rewrite SZ in HS.
  set (n := size (a_model a)) in *.
  destruct (drop_matrix_free n K fixed ND BB RK) as (K_ & EK & _ & GK). destruct (drop_matrix_free n M fixed ND BB RM) as (M_ & EM & _ & GM).
  rewrite EK, EM in HS. cbn [bindO fst snd] in HS. set (F := free n fixed) in *.
  destruct (eigsh _ _ _ _) as [[o' modes']|] eqn:HE; [|discriminate]. cbn [bindO fst snd] in HS.
  destruct (Nat.eqb _ _); [|discriminate]. apply some_inj in HS. assert (modes' = modes) by congruence. assert (o' = o) by congruence. subst modes' o'.
  destruct (LO _ _ _ _ _ _ HE) as [L1 L2 L3 L4].
  assert (LF : lists_free (equations w) (restrained_for ext w c) F).
  { apply (lists_free_ext _ (fun q => In q fixed)); [intros q _; apply SB|]. unfold equations, assembled_model. rewrite Ha. apply free_lists. }
  assert (PK : forall v y, permitted ext w c v -> permitted ext w c y -> energy ext w v y = product_with (List.length F) K_ (fun j => v (nth j F O)) (fun j => y (nth j F O))).
  { intros v y PV PY. unfold energy, holding, stiff_at, stiffness. rewrite Ha. cbn [bindO]. rewrite HK. rewrite (free_products F K v y NR LF PV PY). unfold product_with.
    apply rsum_ext. intros r Hr. f_equal. apply rsum_ext. intros j Hj. rewrite (GK r j Hr Hj). reflexivity. }
  assert (PM : forall v y, permitted ext w c v -> permitted ext w c y -> inertia w v y = product_with (List.length F) M_ (fun j => v (nth j F O)) (fun j => y (nth j F O))).
  { intros v y PV PY. unfold inertia, mass_at, mass_matrix. rewrite Ha. cbn [bindO]. rewrite HM. rewrite (free_products F M v y NR LF PV PY). unfold product_with.
    apply rsum_ext. intros r Hr. f_equal. apply rsum_ext. intros j Hj. rewrite (GM r j Hr Hj). reflexivity. }
  assert (SH : forall x U, shape_of ext w c x U -> forall j, (j < List.length F)%nat -> U (nth j F O) = entries x j).
  { intros x U (PU & F' & LF' & VU). pose proof (free_unique ext ops c F F' LF LF') as E. rewrite <- E in VU. exact VU. }
  assert (PE : forall A x x' y y', (forall j, (j < List.length F)%nat -> x j = x' j) -> (forall j, (j < List.length F)%nat -> y j = y' j) ->
     product_with (List.length F) A x y = product_with (List.length F) A x' y').
  { intros A x x' y y' E1 E2. unfold product_with. apply rsum_ext. intros r Hr. rewrite (E1 r Hr). f_equal. apply rsum_ext. intros j Hj. rewrite (E2 j Hj). reflexivity. }
  split; [exact L1|]. split; [exact L2|]. split.
  - intros i j x y U V NE HX HY SU SV. rewrite (PM U V (proj1 SU) (proj1 SV)). rewrite (PE M_ _ (entries x) _ (entries y) (SH x U SU) (SH y V SV)). exact (L3 i j x y NE HX HY).
  - intros U v SU PV OR x I. rewrite (PM v v PV PV), (PK v v PV PV). apply L4; [|exact I].
    intros y Iy. apply In_nth_error in Iy as (j & Hj). assert (L : (j < List.length modes)%nat) by (apply nth_error_Some; congruence).
    specialize (OR j L). rewrite (PM v (U j) PV (proj1 (SU j y Hj))) in OR.
    rewrite <- OR. apply PE; [reflexivity|]. intros k Hk. symmetry. exact (SH y (U j) (SU j y Hj) k Hk).
Qed.

Hypothesis (SY : symmetric_elements ext w) (EL : elastic ext w) (MA : massive w) (ST : stable ext w c).
Variable U : nat -> nat -> R.
Hypothesis SU : shapes_of ext w c modes U.

Lemma mode_at j : (j < List.length o)%nat -> exists lambda x, nth_error o j = Some lambda /\ nth_error modes j = Some x /\ shape_of ext w c x (U j).
Proof.
  intros Hj. destruct lowest_world as (LL & _). destruct (nth_error o j) as [l|] eqn:E; [|apply nth_error_None in E; lia].
  destruct (nth_error modes j) as [x|] eqn:E'; [|apply nth_error_None in E'; lia]. exists l, x. repeat split; auto; apply (SU j x E').
Qed.
Lemma gram_lin_l A n (k : nat -> R) (V : nat -> nat -> R) y : gram w A (fun q => rsum n (fun i => k i * V i q)) y = rsum n (fun i => k i * gram w A (V i) y).
Proof. unfold gram. apply work_sum_r. Qed.
Lemma gram_lin_r A n (k : nat -> R) (V : nat -> nat -> R) x : gram w A x (fun q => rsum n (fun i => k i * V i q)) = rsum n (fun i => k i * gram w A x (V i)).
Proof. unfold gram. apply form_sum. Qed.
Lemma gram_sub_l A x y z : gram w A (fun q => x q - y q) z = gram w A x z - gram w A y z.
Proof. unfold gram, work_of. rewrite <- rsum_minus. apply rsum_ext. intros; ring. Qed.
Lemma gram_diag A n (k : nat -> R) (V : nat -> nat -> R) : (forall i j, (i < n)%nat -> (j < n)%nat -> j <> i -> gram w A (V i) (V j) = 0) ->
  let v := fun q => rsum n (fun i => k i * V i q) in gram w A v v = rsum n (fun i => k i * k i * gram w A (V i) (V i)).
Proof.
  intros Z v. unfold v at 1. rewrite gram_lin_l. apply rsum_ext. intros i Hi. unfold v. rewrite gram_lin_r.
  rewrite (rsum_only n i) by (try exact Hi; intros j Hj NE; rewrite (Z i j Hi Hj NE); ring). ring.
Qed.

Lemma mode_facts : exists lambda : nat -> R, forall j, (j < List.length o)%nat ->
  nth_error o j = Some (lambda j) /\ permitted ext w c (U j) /\ 0 < lambda j /\ 0 < inertia w (U j) (U j)
  /\ (forall v, permitted ext w c v -> energy ext w v (U j) = lambda j * inertia w v (U j))
  /\ (forall i, (i < List.length o)%nat -> i <> j -> inertia w (U i) (U j) = 0).
Proof.
  exists (fun j => nth j o 0). intros j Hj. destruct (mode_at j Hj) as (l & x & HO & HX & SJ).
  assert (E : nth j o 0 = l) by (apply nth_error_nth with (d := 0) in HO; exact HO). rewrite E.
  destruct (m116_positive ext ops eigsh a c st modes o NR0 EX Ha HS EL MA j l x (U j) HO HX SJ) as [P _]. specialize (P ST).
  destruct (m116_modes ext ops eigsh a c st modes o NR0 EX Ha HS j l x HO HX) as (_ & Q). destruct (Q (U j) SJ) as (_ & Q2).
  split; [exact HO|]. split; [apply SJ|]. split; [apply P|]. split; [apply P|]. split; [exact Q2|].
  intros i Hi NE. destruct (mode_at i Hi) as (l' & x' & HO' & HX' & SI). destruct lowest_world as (_ & _ & OR & _).
  exact (OR i j x' x (U i) (U j) NE HX' HX SI SJ).
Qed.

Lemma rayleigh i lambda v : nth_error o i = Some lambda -> permitted ext w c v -> (forall j, (j < i)%nat -> inertia w v (U j) = 0) ->
  lambda * inertia w v v <= energy ext w v v.
Proof.
  intros HI PV OV. destruct mode_facts as (l & F). destruct lowest_world as (LL & ORD & _ & LEAST).
  set (n := List.length o) in *. assert (Li : (i < n)%nat) by (apply nth_error_Some; congruence).
  assert (I1 : forall x y, inertia w x y = gram w (mass_at w) x y) by reflexivity.
  assert (E1 : forall x y, energy ext w x y = gram w (stiff_at ext w) x y) by reflexivity.
  pose proof (inertia_sym ext ops a Ha) as IS. fold w in IS.
  assert (ES : forall x y, energy ext w x y = energy ext w y x) by (intros; apply energy_sym; exact (stiff_sym ext ops SY)).
  pose (k := fun j => inertia w v (U j) / inertia w (U j) (U j)). pose (s := fun q => rsum n (fun j => k j * U j q)). pose (r := fun q => v q - s q).
  assert (PS : permitted ext w c s).
  { intros q Hq Rq. unfold s. apply rsum_0. intros j Hj. destruct (F j Hj) as (_ & PU & _). rewrite (PU q Hq Rq). ring. }
  assert (PR : permitted ext w c r) by (intros q Hq Rq; unfold r; rewrite (PV q Hq Rq), (PS q Hq Rq); ring).
  assert (OR : forall j, (j < n)%nat -> inertia w r (U j) = 0).
  { intros j Hj. rewrite I1. unfold r. rewrite gram_sub_l. unfold s. rewrite gram_lin_l.
    rewrite (rsum_only n j) by (try exact Hj; intros j' Hj' NE; destruct (F j Hj) as (_ & _ & _ & _ & _ & Z); rewrite <- I1, (Z j' Hj' NE); ring).
    rewrite <- !I1. unfold k. destruct (F j Hj) as (_ & _ & _ & P & _). field. lra. }
  assert (OE : forall j, (j < n)%nat -> energy ext w r (U j) = 0).
  { intros j Hj. destruct (F j Hj) as (_ & _ & _ & _ & Q & _). rewrite (Q r PR), (OR j Hj). ring. }
  assert (SR : forall A, (forall x y, gram w A x y = gram w A y x) -> (forall j, (j < n)%nat -> gram w A r (U j) = 0) -> gram w A v v = gram w A r r + gram w A s s).
  { intros A SA Z. assert (RS : gram w A r s = 0).
    { unfold s. rewrite gram_lin_r. apply rsum_0. intros j Hj. rewrite (Z j Hj). ring. }
    pose proof (gram_minus w A v s) as G. fold r in G. assert (RS' : gram w A v s - gram w A s s = 0) by (rewrite <- RS; unfold r; rewrite gram_sub_l; reflexivity).
    rewrite (SA s v) in G. change (fun q => v q - s q) with r in G. lra. }
  assert (IV : inertia w v v = inertia w r r + rsum n (fun j => k j * k j * inertia w (U j) (U j))).
  { rewrite !I1, (SR (mass_at w) IS OR). f_equal. apply (gram_diag (mass_at w) n k U). intros p q Hp Hq NE. destruct (F q Hq) as (_ & _ & _ & _ & _ & Z). apply Z; auto. }
  assert (EV : energy ext w v v = energy ext w r r + rsum n (fun j => k j * k j * (l j * inertia w (U j) (U j)))).
  { rewrite !E1, (SR (stiff_at ext w) ES OE). f_equal. unfold s. rewrite (gram_diag (stiff_at ext w) n k U).
    - apply rsum_ext. intros j Hj. f_equal. destruct (F j Hj) as (_ & PU & _ & _ & Q & _). exact (Q (U j) PU).
    - intros p q Hp Hq NE. destruct (F q Hq) as (_ & _ & _ & _ & Q & Z). destruct (F p Hp) as (_ & PU & _). rewrite <- E1, (Q _ PU), (Z p Hp) by auto. ring. }
  assert (LR : lambda * inertia w r r <= energy ext w r r).
  { apply (LEAST U r SU PR); [intros j Hj; apply OR; lia|apply nth_error_In with (1 := HI)]. }
  assert (LS : lambda * rsum n (fun j => k j * k j * inertia w (U j) (U j)) <= rsum n (fun j => k j * k j * (l j * inertia w (U j) (U j)))).
  { rewrite <- rsum_scal. apply rsum_le. intros j Hj. destruct (F j Hj) as (HO & _ & _ & P & _).
    destruct (lt_dec j i) as [L|L].
    - unfold k. rewrite (OV j L). unfold Rdiv. rewrite Rmult_0_l, !Rmult_0_l. lra.
    - assert (G : lambda <= l j) by (apply (ORD i j lambda (l j)); [lia|exact HI|exact HO]).
      assert (0 <= k j * k j * inertia w (U j) (U j)) by (apply Rmult_le_pos; [apply Rle_0_sqr|lra]). nra. }
  rewrite IV, EV. lra.
Qed.
End Lowest.
