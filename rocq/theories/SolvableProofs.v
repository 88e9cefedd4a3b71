(** Stable structures can be solved: positive definite systems have exactly one solution. *)
From Coq Require Import Reals Lra Lia List String Arith Bool ZArith Sorting.Permutation.
From Verif Require Import Base BaseFacts Csys Sections Element Load FeModel Assembly Solver Post Api
  SpecApi ApiFacts WfFacts HidFacts ApiProofs1 ApiProofs5 LoadFacts SpecElim ElimFacts SpecGeom CsysFacts SpecBeam BeamFacts AsmFacts SpecAsm AsmProofs
  AsmTotal AsmProofs2 SpecLoad LoadProofs AsmProofs3 SpecSolve AsmSolve SpecStatics StaticsProofs StaticsProofs2 StaticsMain.
Import ListNotations.
Local Open Scope R_scope.

Definition quad_form (n : nat) (A : nat -> nat -> R) (x : nat -> R) : R := rsum n (fun i => rsum n (fun j => x i * A i j * x j)).
Lemma quad_step n A x : (forall i, (i < n)%nat -> A i n = A n i) ->
  quad_form (S n) A x = quad_form n A x + 2 * x n * rsum n (fun j => A n j * x j) + A n n * x n ^ 2.
Proof.
  intros SY. unfold quad_form. cbn [rsum]. rewrite rsum_plus.
  assert (E1 : rsum n (fun i => x i * A i n * x n) = x n * rsum n (fun j => A n j * x j)).
  { rewrite <- rsum_scal. apply rsum_ext. intros i Hi. rewrite SY by exact Hi. ring. }
  assert (E2 : rsum n (fun j => x n * A n j * x j) = x n * rsum n (fun j => A n j * x j)).
  { rewrite <- rsum_scal. apply rsum_ext. intros i Hi. ring. }
  rewrite E1, E2. ring.
Qed.
Lemma spd_solvable n : forall A, (forall i j, (i < n)%nat -> (j < n)%nat -> A i j = A j i) ->
  (forall x, (exists i, (i < n)%nat /\ x i <> 0) -> 0 < quad_form n A x) ->
  forall b, exists x, forall i, (i < n)%nat -> rsum n (fun j => A i j * x j) = b i.
Proof.
  induction n as [|n IH]; intros A SY PD b; [exists (fun _ => 0); intros; lia|].
  assert (P : 0 < A n n).
  { set (e := fun i => if Nat.eqb i n then 1 else 0).
    assert (En : e n = 1) by (unfold e; rewrite Nat.eqb_refl; reflexivity).
    assert (Ei : forall i, (i < n)%nat -> e i = 0) by (intros i Hi; unfold e; destruct (Nat.eqb_spec i n); [lia|reflexivity]).
    assert (X : 0 < quad_form (S n) A e) by (apply PD; exists n; rewrite En; split; [lia|lra]).
    rewrite quad_step in X by (intros; apply SY; lia). rewrite En in X.
    unfold quad_form in X. rewrite (rsum_0 n (fun i => rsum n _)) in X.
    2:{ intros i Hi. apply rsum_0. intros j Hj. rewrite (Ei i Hi). ring. }
    rewrite (rsum_0 n (fun j => A n j * e j)) in X by (intros j Hj; rewrite (Ei j Hj); ring). lra. }
  set (p := A n n) in *. set (B := fun i j => A i j - A i n * A n j / p).
  destruct (IH B) with (b := fun i => b i - A i n * b n / p) as (x & Hx).
  - intros i j Hi Hj. unfold B. rewrite (SY i j), (SY i n), (SY n j) by lia. field. lra.
  - intros x (i & Hi & Xi). set (s := rsum n (fun j => A n j * x j)).
    set (y := fun k => if Nat.eqb k n then - s / p else x k).
    assert (Yn : y n = - s / p) by (unfold y; rewrite Nat.eqb_refl; reflexivity).
    assert (Yi : forall k, (k < n)%nat -> y k = x k) by (intros k Hk; unfold y; destruct (Nat.eqb_spec k n); [lia|reflexivity]).
    assert (X : 0 < quad_form (S n) A y) by (apply PD; exists i; rewrite (Yi i Hi); split; [lia|exact Xi]).
    rewrite quad_step in X by (intros; apply SY; lia). fold p in X. rewrite Yn in X.
    rewrite (rsum_ext n (fun j => A n j * y j) (fun j => A n j * x j)) in X by (intros j Hj; rewrite (Yi j Hj); reflexivity). fold s in X.
    assert (E1 : quad_form n A y = quad_form n A x).
    { unfold quad_form. apply rsum_ext. intros k Hk. apply rsum_ext. intros j Hj. rewrite !Yi by assumption. reflexivity. }
    assert (E2 : quad_form n B x = quad_form n A x - s * s / p).
    { unfold quad_form, B.
      rewrite (rsum_ext n _ (fun i0 => rsum n (fun j => x i0 * A i0 j * x j) - s / p * (A n i0 * x i0))).
      - rewrite rsum_minus, rsum_scal. fold s. field. lra.
      - intros k Hk. rewrite (rsum_ext n _ (fun j => x k * A k j * x j - A n k * x k / p * (A n j * x j))).
        + rewrite rsum_minus, rsum_scal. fold s. field. lra.
        + intros j Hj. rewrite (SY k n) by lia. field. lra. }
    rewrite E1 in X. rewrite E2. replace (quad_form n A x - s * s / p) with (quad_form n A x + 2 * (- s / p) * s + p * (- s / p) ^ 2) by (field; lra). exact X.
  - set (s := rsum n (fun j => A n j * x j)). set (y := fun k => if Nat.eqb k n then (b n - s) / p else x k). exists y.
    assert (Yn : y n = (b n - s) / p) by (unfold y; rewrite Nat.eqb_refl; reflexivity).
    assert (Yr : forall r, rsum n (fun j => A r j * y j) = rsum n (fun j => A r j * x j)).
    { intros r. apply rsum_ext. intros j Hj. unfold y. destruct (Nat.eqb_spec j n); [lia|reflexivity]. }
    intros i Hi. cbn [rsum]. rewrite Yr, Yn. destruct (Nat.eq_dec i n) as [->|N].
    + fold s p. field. lra.
    + specialize (Hx i ltac:(lia)). cbn beta in Hx. unfold B in Hx.
      rewrite (rsum_ext n _ (fun j => A i j * x j - A i n / p * (A n j * x j))) in Hx by (intros; field; lra).
      rewrite rsum_minus, rsum_scal in Hx. fold s in Hx.
      replace (rsum n (fun j => A i j * x j)) with (b i - A i n * b n / p + A i n / p * s) by lra. field. lra.
Qed.
Lemma spd_unique n A x y : (forall z, (exists i, (i < n)%nat /\ z i <> 0) -> 0 < quad_form n A z) ->
  (forall i, (i < n)%nat -> rsum n (fun j => A i j * x j) = rsum n (fun j => A i j * y j)) -> forall i, (i < n)%nat -> x i = y i.
Proof.
  intros PD E i Hi. destruct (Req_dec (x i) (y i)) as [H|H]; [exact H|]. exfalso.
  assert (X : 0 < quad_form n A (fun k => x k - y k)) by (apply PD; exists i; split; [exact Hi|lra]).
  unfold quad_form in X. rewrite (rsum_0 n) in X; [lra|]. intros k Hk.
  rewrite (rsum_ext n _ (fun j => (x k - y k) * (A k j * x j - A k j * y j))) by (intros; ring).
  rewrite rsum_scal, rsum_minus, (E k Hk). ring.
Qed.

Section Run.
Variable ext : externals.
Variable ops : list op.
Hypothesis NR : never_readds_nodes ext (ops ++ [OpAssemble]).
Let w := final ext init (ops ++ [OpAssemble]).

Lemma c113_solved c d : exact_solver ext -> able_solver ext -> symmetric_elements ext w -> elastic ext w -> stable ext w c ->
  answer ext w (OpNodeRestraints (Some c)) = RFlags d -> names_nodes ext w (RFlags d) -> usable (RFlags d) -> solved ext w c.
Proof.
  intros EX AB SY EL ST HC HN US. split; [|exact EX|rewrite HC; exact US].
  destruct (assembled_now ext ops NR) as (_ & a & Ha & Em & Eh & Ec & Wc & Hh & G & RD & _). fold w in Ha, Em, Eh, Ec, Wc, Hh, G.
  assert (Hm : assembled_model w = Some (a_model a)) by (unfold assembled_model; rewrite Ha; reflexivity).
  destruct (EL _ Hm) as [PN _].
  assert (exists lc, dget c (a_cases a) = Some lc /\ c_rest lc = d) as (lc & Hlc & Ed).
  { unfold answer in HC; cbn [step] in HC. unfold ret in HC; cbn [snd] in HC. rewrite <- Ec in HC.
    destruct (dget c (a_cases a)) as [lc|]; cbn [bindO] in HC; [|discriminate]. injection HC as HC. eauto. }
  assert (HPm : forall k b, In (k, b) (f_beams (a_model a)) -> 1 + bp_mu (b_prop b) <> 0).
  { intros k b I. specialize (PN k b I). unfold props_nonneg in PN. destruct (b_prop b); cbn [bp_mu]; lra. }
  destruct (sem_tables ext ops w a c lc NR eq_refl Ha Hlc) as (A1 & A2 & A3 & T1 & T2 & Ga & CO & HO).
  destruct (assemble_K_total (x_ker ext) a Ga HPm) as (K & HK).
  destruct (assemble_f_total a c lc Ga Hlc CO HO HPm) as (f & HF).
  assert (exists r, rest_dofs (a_model a) (c_rest lc) = Some r) as (r & Hr).
  { destruct (rest_dofs_spec (a_model a) (c_rest lc) Ga (proj1 T2)) as (r & Hr & _); [|eauto].
    intros k fl I. split; [|eapply T2; exact I].
    destruct (HN d k eq_refl) as (l & Hl & Hin). { subst d. unfold dkeys. apply in_map_iff. exists (k, fl). auto. }
    rewrite A1 in Hl. injection Hl as <-. exact Hin. }
  assert (exists fixed, boundary_dofs a c = Some fixed) as (fixed & HB).
  { unfold boundary_dofs. rewrite Hlc. cbn [bindO]. destruct (c_rest lc); eauto. }
  assert (exists restr, expansion_dofs a c = Some restr) as (restr & HE).
  { unfold expansion_dofs, restraintDOF. rewrite Hlc. cbn [bindO]. rewrite Hr. cbn [bindO].
    destruct r; eauto. }
  destruct (boundary_sem ext ops w a c fixed NR eq_refl Ha HB) as (ND & S & B).
  destruct (expansion_sem ext ops w a c restr NR eq_refl Ha HE) as (ND' & B' & S' & _). rewrite HC in S'. specialize (S' US).
  assert (SZ : (node_count (a_model a) * 6)%nat = size (a_model a)) by (unfold size, node_count; lia).
  destruct (assemble_K_bil (x_ker ext) a K (fun _ => 0) (fun _ => 0) (proj1 Ga) HK) as (_ & RK).
  destruct (drop_matrix_free _ K fixed ND B RK) as (A0 & HM0 & _ & EA).
  destruct (c17_vector (size (a_model a)) f fixed _ (free_lists _ fixed)) as (_ & LV & DV).
  set (n := size (a_model a)) in *.
  assert (FR : free n restr = free n fixed) by (apply free_same; intros q; rewrite S', S; reflexivity).
  set (F := free n fixed) in *.
  assert (HKs : stiffness ext w = Some K) by (unfold stiffness; rewrite Ha; exact HK).
  assert (Eq : equations w = n) by (unfold equations; rewrite Hm; reflexivity).
  assert (EG : forall i j, (i < List.length F)%nat -> (j < List.length F)%nat -> coo_get (symmetrise A0) i j = stiff_at ext w (nth i F O) (nth j F O)).
  { intros i j Hi Hj. rewrite symmetrise_get, !EA by assumption. unfold stiff_at. rewrite HKs.
    rewrite (c22_symmetric ext (ops ++ [OpAssemble]) w (a_model a) K eq_refl Hm HKs (SY _ Hm) (nth j F O) (nth i F O)). field. }
  assert (NF : NoDup F) by (unfold F, free; apply NoDup_filter, seq_NoDup).
  set (A := fun i j => coo_get (symmetrise A0) i j).
  assert (SYM : forall i j, (i < List.length F)%nat -> (j < List.length F)%nat -> A i j = A j i).
  { intros i j Hi Hj. unfold A. rewrite !EG by assumption. apply (stiff_sym ext ops SY). }
  assert (PD : forall x, (exists i, (i < List.length F)%nat /\ x i <> 0) -> 0 < quad_form (List.length F) A x).
  { intros x (i0 & Hi0 & X0).
    set (at_ := fun q => fold_right (fun i v => if Nat.eqb (nth i F O) q then x i else v) 0 (seq 0 (List.length F))).
    assert (AT : forall i, (i < List.length F)%nat -> at_ (nth i F O) = x i).
    { intros i Hi. unfold at_.
      assert (Z : forall l, (forall k, In k l -> (k < List.length F)%nat) -> In i l ->
        fold_right (fun i1 v => if Nat.eqb (nth i1 F O) (nth i F O) then x i1 else v) 0 l = x i).
      { induction l as [|k l IH]; intros Hl Hin; [destruct Hin|]. cbn [fold_right].
        destruct (Nat.eqb_spec (nth k F O) (nth i F O)) as [Q|Q].
        - f_equal. apply (proj1 (NoDup_nth F O) NF); [apply Hl; left; reflexivity|exact Hi|exact Q].
        - apply IH; [intros; apply Hl; right; assumption|]. destruct Hin as [<-|Hin]; [congruence|exact Hin]. }
      apply Z; [intros k; rewrite in_seq; lia|]. rewrite in_seq. lia. }
    assert (AZ : forall q, ~ In q F -> at_ q = 0).
    { intros q Nq. unfold at_.
      assert (Z : forall l, (forall k, In k l -> (k < List.length F)%nat) -> fold_right (fun i1 v => if Nat.eqb (nth i1 F O) q then x i1 else v) 0 l = 0).
      { induction l as [|k l IH]; intros Hl; [reflexivity|]. cbn [fold_right].
        destruct (Nat.eqb_spec (nth k F O) q) as [Q|Q]; [|apply IH; intros; apply Hl; right; assumption].
        exfalso. apply Nq. rewrite <- Q. apply nth_In, Hl. left; reflexivity. }
      apply Z. intros k. rewrite in_seq. lia. }
    assert (FZ : forall q, In q fixed -> at_ q = 0) by (intros q Hq; apply AZ; unfold F; rewrite free_in; tauto).
    assert (EE : energy ext w at_ at_ = quad_form (List.length F) A x).
    { unfold energy, work_of, holding. rewrite Eq. rewrite (rsum_free n fixed).
      - fold F. unfold quad_form. apply rsum_ext. intros i Hi. cbn beta. rewrite (rsum_free n fixed).
        + fold F. rewrite <- rsum_scal_r. apply rsum_ext. intros j Hj. unfold A. rewrite EG, !AT by assumption. ring.
        + intros q Hq. rewrite (FZ q Hq). ring.
      - intros q Hq. rewrite (FZ q Hq). ring. }
    rewrite <- EE. destruct (Rle_lt_or_eq_dec _ _ (energy_nonneg ext ops EL at_)) as [H|H]; [exact H|]. exfalso. apply X0.
    rewrite <- (AT i0 Hi0). apply (ST at_).
    - intros q Hq Rq. apply FZ, S, Rq.
    - symmetry. exact H.
    - rewrite Eq. assert (I : In (nth i0 F O) F) by (apply nth_In, Hi0). unfold F in I. apply free_in in I as [I _]. exact I. }
  assert (SO : exists x, x_spsolve ext (List.length F) (symmetrise A0) (drop_vector n f fixed) = Some x /\ List.length x = List.length F).
  { destruct (AB (List.length F) (symmetrise A0) (drop_vector n f fixed)) as (x & Hx).
    - destruct (spd_solvable _ A SYM PD (fun i => nth i (drop_vector n f fixed) 0)) as (x & Hx).
      exists (map x (seq 0 (List.length F))).
      assert (NX : forall j, (j < List.length F)%nat -> nth j (map x (seq 0 (List.length F))) 0 = x j).
      { intros j Hj. rewrite (nth_map_lt x (seq 0 (List.length F)) j) by (rewrite seq_length; exact Hj). rewrite seq_nth by exact Hj. reflexivity. }
      split; [rewrite map_length, seq_length; reflexivity|]. split.
      + intros i Hi. rewrite <- (Hx i Hi). apply rsum_ext. intros j Hj. rewrite NX by exact Hj. reflexivity.
      + intros y Ly Hy. apply nth_ext with (d := 0) (d' := 0); [rewrite map_length, seq_length; exact Ly|].
        intros i Hi. rewrite Ly in Hi. rewrite (NX i Hi). apply (spd_unique (List.length F) A (fun j => nth j y 0) x PD); [|exact Hi].
        intros k Hk. rewrite (Hx k Hk). exact (Hy k Hk).
    - exists x. split; [exact Hx|]. exact (proj1 (EX _ _ _ _ Hx)). }
  destruct SO as (x & SX & LX).
  unfold answer. cbn [step]. unfold do_solve_static. rewrite Ha, HK. unfold solve_linear, reduced_system.
  rewrite HK. cbn [bindO]. rewrite HF. cbn [bindO]. rewrite HB. cbn [bindO]. rewrite SZ. fold n. rewrite HM0. cbn [bindO fst snd].
  rewrite LV, Nat.eqb_refl. cbn [bindO]. fold F. rewrite SX. cbn [bindO].
  rewrite HE. cbn [bindO].
  destruct (expand_sort n restr x ND' B') as (d' & HE' & _); [rewrite FR; exact LX|]. rewrite HE'. reflexivity.
Qed.
End Run.

Lemma m113_solved ext ops c d : never_readds_nodes ext ops -> let w := final ext init (ops ++ [OpAssemble]) in
  exact_solver ext -> able_solver ext -> symmetric_elements ext w -> elastic ext w -> stable ext w c ->
  answer ext w (OpNodeRestraints (Some c)) = RFlags d -> names_nodes ext w (RFlags d) -> usable (RFlags d) ->
  answer ext w (OpSolveStatic c) = RBool true.
Proof. intros NR w EX AB SY EL ST HC HN US. apply (c113_solved ext ops (told_guard _ _ NR) c d EX AB SY EL ST HC HN US). Qed.

Lemma m113_clamped ext ops c m d : never_readds_nodes ext ops -> let w := final ext init (ops ++ [OpAssemble]) in
  exact_solver ext -> able_solver ext -> assembled_model w = Some m -> f_shells m = [] ->
  (forall k b, In (k, b) (f_beams m) -> props_pos (b_prop b)) ->
  (forall k n, In (k, n) (f_nodes m) -> carried ext w c m k) ->
  answer ext w (OpNodeRestraints (Some c)) = RFlags d -> names_nodes ext w (RFlags d) -> usable (RFlags d) ->
  answer ext w (OpSolveStatic c) = RBool true.
Proof.
  intros NR w EX AB Hm NS PP CA HC HN US.
  assert (MU : forall k b, In (k, b) (f_beams m) -> 1 + poisson (b_prop b) <> 0).
  { intros k b I. specialize (PP k b I). unfold props_pos in PP. destruct (b_prop b); cbn; lra. }
  destruct (c21_defined ext (ops ++ [OpAssemble]) w m eq_refl (told_guard _ _ NR) Hm MU) as (K & HK).
  assert (SY : symmetric_elements ext w) by (intros m0 E; rewrite Hm in E; apply some_inj in E; subst m0; left; exact NS).
  assert (EL : elastic ext w).
  { intros m0 E. rewrite Hm in E. apply some_inj in E. subst m0. split; [|left; exact NS].
    intros k b I. specialize (PP k b I). unfold props_pos in PP. unfold props_nonneg. destruct (b_prop b); repeat split; lra. }
  apply (m113_solved ext ops c d NR EX AB SY EL); auto.
  apply (m107_clamped ext ops c m NR Hm); auto. fold w. rewrite HK. discriminate.
Qed.

(** Without stability the answer is one of many: whatever is free of strain can be added. *)
Lemma strainless ext ops x : never_readds_nodes ext (ops ++ [OpAssemble]) -> let w := final ext init (ops ++ [OpAssemble]) in
  symmetric_elements ext w -> elastic ext w -> energy ext w x x = 0 -> forall q, (q < equations w)%nat -> holding ext w x q = 0.
Proof.
  intros NR w SY EL Z q Hq. set (e := fun p => if Nat.eqb q p then 1 else 0).
  assert (E1 : energy ext w e x = holding ext w x q).
  { unfold energy, work_of. rewrite (rsum_ext _ _ (fun p => if Nat.eqb q p then holding ext w x p else 0)).
    - apply rsum_delta, Hq.
    - intros p Hp. unfold e. destruct (Nat.eqb q p); ring. }
  pose proof (energy_sym ext w x e (stiff_sym ext ops SY)) as E2.
  assert (Q : forall t, 0 <= energy ext w e e - 2 * t * holding ext w x q).
  { intros t. pose proof (energy_nonneg ext ops EL (fun p => e p - t * x p)) as P. fold w in P. rewrite energy_sub in P.
    assert (F1 : energy ext w e (fun p => t * x p) = t * energy ext w e x).
    { unfold energy, work_of. rewrite <- rsum_scal. apply rsum_ext. intros p Hp. rewrite holding_scal. ring. }
    assert (F2 : energy ext w (fun p => t * x p) e = t * energy ext w x e) by (unfold energy; apply work_scal).
    assert (F3 : energy ext w (fun p => t * x p) (fun p => t * x p) = t * t * energy ext w x x).
    { unfold energy at 1. rewrite work_scal. change (work_of w (holding ext w (fun p => t * x p)) x) with (energy ext w x (fun p => t * x p)).
      rewrite (energy_sym ext w x _ (stiff_sym ext ops SY)). unfold energy. rewrite work_scal. ring. }
    rewrite F1, F2, F3, Z, E2, E1 in P. lra. }
  destruct (Req_dec (holding ext w x q) 0) as [H|H]; [exact H|]. exfalso.
  pose proof (Q ((energy ext w e e + 1) / (2 * holding ext w x q))) as P.
  replace (energy ext w e e - 2 * ((energy ext w e e + 1) / (2 * holding ext w x q)) * holding ext w x q) with (-1) in P by (field; exact H). lra.
Qed.
Lemma m113_unstable ext ops c x : never_readds_nodes ext ops -> let w := final ext init (ops ++ [OpAssemble]) in
  solved ext w c -> symmetric_elements ext w -> elastic ext w -> permitted ext w c x -> energy ext w x x = 0 ->
  permitted ext w c (fun q => solution ext w c q + x q) /\ balanced ext w c (fun q => solution ext w c q + x q).
Proof.
  intros NR w SV SY EL P Z. destruct (solved_facts ext ops (told_guard _ _ NR) c SV SY) as [P0 B0]. fold w in P0, B0. split.
  - intros q Hq R0. rewrite (P q Hq R0), (P0 q Hq R0). ring.
  - intros q Hq R0. pose proof (strainless ext ops x (told_guard _ _ NR) SY EL Z q Hq) as HX. fold w in HX. rewrite holding_add, HX, (B0 q Hq R0). ring.
Qed.
