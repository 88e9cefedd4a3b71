(** Proofs about modal frequencies, damping, time integration and modal combination. *)
From Coq Require Import Reals Lra Lia List String Arith Bool ZArith Psatz.
From Verif Require Import Base BaseFacts Csys Sections Element Load FeModel Assembly Solver AsmProofs Dynamic SpecDyn.
Import ListNotations.
Local Open Scope R_scope.

(** ** C49 *)
Lemma two_pi_pos : 0 < 2 * PI.
Proof. pose proof PI_RGT_0. lra. Qed.
Lemma c49_reported_partial o i lambda : nth_error o i = Some lambda -> 0 < lambda ->
  exists f T, nth_error (resolve_modal_frequency o) i = Some (lambda, f, T)
    /\ List.length (resolve_modal_frequency o) = List.length o
    /\ 0 < f /\ 0 < T /\ f * T = 1 /\ 2 * PI * f = lambda.
Proof.
  intros H P. pose proof two_pi_pos as PP. exists (1 / (2 * PI / lambda)), (2 * PI / lambda). split.
  - unfold resolve_modal_frequency. rewrite (map_nth_error _ _ _ H). reflexivity.
  - assert (PT : 0 < 2 * PI / lambda) by (apply Rdiv_lt_0_compat; lra).
    unfold resolve_modal_frequency. rewrite map_length. split; [reflexivity|].
    split; [apply Rdiv_lt_0_compat; lra|]. split; [exact PT|]. split; field; lra.
Qed.
Lemma c49_iff o i lambda om f T : nth_error o i = Some lambda -> 0 < lambda ->
  nth_error (resolve_modal_frequency o) i = Some (om, f, T) ->
  (true_frequency lambda f T <-> lambda = 1).
Proof.
  intros H P HR. destruct (c49_reported_partial o i lambda H P) as (f' & T' & HR' & _ & Hf & HT & HFT & E).
  rewrite HR in HR'. apply some_inj in HR'. pose proof (f_equal (fun x => snd (fst x)) HR') as E1. pose proof (f_equal snd HR') as E2. cbn [fst snd] in E1, E2. subst f' T'.
  unfold true_frequency. split.
  - intros (A & _). rewrite E in A. assert (Q : lambda * lambda = lambda).
    { rewrite A at 1 2. apply sqrt_sqrt. lra. }
    nra.
  - intros ->. rewrite sqrt_1. auto.
Qed.

(** ** C50 *)
Lemma c50_ratio xi_i xi_j wi wj : 0 < wi -> 0 < wj -> wi <> wj ->
  let a := rayleigh xi_i xi_j wi wj in
  damping_ratio (fst a) (snd a) wi = xi_i /\ damping_ratio (fst a) (snd a) wj = xi_j.
Proof.
  intros Pi Pj N. assert (D : wj^2 - wi^2 <> 0).
  { replace (wj^2 - wi^2) with ((wj - wi) * (wj + wi)) by ring. apply Rmult_integral_contrapositive_currified; lra. }
  unfold rayleigh, damping_ratio; cbn [fst snd]. split; field; lra.
Qed.
Lemma coo_get_app A B i j : coo_get (A ++ B) i j = coo_get A i j + coo_get B i j.
Proof. induction A as [|[[r c] v] A IH]; cbn [app coo_get]; [ring|rewrite IH; ring]. Qed.
Lemma coo_get_scale k A i j : coo_get (coo_scale k A) i j = k * coo_get A i j.
Proof. induction A as [|[[r c] v] A IH]; cbn [coo_scale map coo_get]; [ring|]. unfold coo_scale in IH. rewrite IH. destruct (_ && _)%bool; ring. Qed.
Lemma damping_get M K i j : coo_get (damping_matrix M K) i j = fst code_damping * coo_get M i j + snd code_damping * coo_get K i j.
Proof. unfold damping_matrix. rewrite coo_get_app, !coo_get_scale. reflexivity. Qed.
Lemma c50_matrix N M K w x : mode_of N (coo_get K) (coo_get M) w x -> w <> 0 ->
  (w = 2 * PI / 2 -> forall i, (i < N)%nat -> rsum N (fun j => coo_get (damping_matrix M K) i j * x j) = 2 * (5/100) * w * rsum N (fun j => coo_get M i j * x j))
  /\ (w = 2 * PI / 1 -> forall i, (i < N)%nat -> rsum N (fun j => coo_get (damping_matrix M K) i j * x j) = 2 * (2/100) * w * rsum N (fun j => coo_get M i j * x j)).
Proof.
  intros H W. pose proof PI_RGT_0 as PP.
  assert (E : forall i, (i < N)%nat -> rsum N (fun j => coo_get (damping_matrix M K) i j * x j)
            = (fst code_damping + snd code_damping * w^2) * rsum N (fun j => coo_get M i j * x j)).
  { intros i Hi. rewrite (rsum_ext N _ (fun j => fst code_damping * (coo_get M i j * x j) + snd code_damping * (coo_get K i j * x j)))
      by (intros; rewrite damping_get; ring).
    rewrite rsum_plus, !rsum_scal, (H i Hi). ring. }
  destruct (c50_ratio (5/100) (2/100) (2 * PI / 2) (2 * PI / 1)) as (A & B); [lra|lra|lra|]. fold code_damping in A, B.
  unfold damping_ratio in A, B.
  split; intros -> i Hi; rewrite (E i Hi); f_equal.
  - rewrite <- A. field. lra.
  - rewrite <- B. field. lra.
Qed.

(** ** C51 *)
Section Integration.
Variables (ext : externals) (N : nat) (K_ M_ C_ : coo) (dt : R) (load : nat -> option (list R)).
Let step := integration_step (x_cg ext) N K_ M_ C_ dt load.
Let loop := integration_loop (x_cg ext) N K_ M_ C_ dt load.

Lemma nth_map_seq (f : nat -> R) n i : (i < n)%nat -> nth i (map f (seq 0 n)) 0 = f i.
Proof.
  intros H. rewrite (nth_indep _ 0 (f O)) by (rewrite map_length, seq_length; exact H). rewrite (map_nth f), seq_nth by exact H. reflexivity.
Qed.
Lemma nth_coo_dot A x i : (i < N)%nat -> nth i (coo_dot N A x) 0 = rsum N (fun j => coo_get A i j * nth j x 0).
Proof. intros H. unfold coo_dot. rewrite nth_map_seq by exact H. reflexivity. Qed.

(** what one pass guarantees *)
Lemma step_some t u u' : exact_cg ext -> step t u = Some u' -> dt <> 0 ->
  exists f d, load t = Some f /\ List.length f = 6%nat /\ u' = u ++ [d] /\ List.length d = N
    /\ central_difference N (coo_get M_) (coo_get C_) (coo_get K_) dt f (row_before t u) (nth t u []) d.
Proof.
  intros EX H D. unfold step, integration_step in H. destruct (load t) as [f|]; [|discriminate]. cbn [bindO] in H.
  destruct (Nat.eqb (List.length f) 6) eqn:L6; [|discriminate]. apply Nat.eqb_eq in L6.
  destruct (x_cg _ _ _ _) as [d|] eqn:E; [|discriminate]. cbn [bindO] in H. apply some_inj in H. subst u'.
  destruct (EX _ _ _ _ E) as (LD & ED). exists f, d. split; [reflexivity|]. split; [exact L6|]. split; [reflexivity|]. split; [exact LD|].
  intros i Hi. specialize (ED i Hi). rewrite nth_map_seq in ED by exact Hi. rewrite !nth_coo_dot in ED by exact Hi.
  assert (EF : nth i f 0 = rsum N (fun j => coo_get (coo_scale (1 / dt / dt) M_ ++ coo_scale (1 / 2 / dt) C_) i j * nth j d 0)
     + rsum N (fun j => coo_get (K_ ++ coo_scale (- (2 * (1 / dt / dt))) M_) i j * nth j (nth t u []) 0)
     + rsum N (fun j => coo_get (coo_scale (1 / dt / dt) M_ ++ coo_scale (- (1 / 2 / dt)) C_) i j * nth j (row_before t u) 0)) by (rewrite ED; ring).
  rewrite EF. rewrite <- !rsum_plus. apply rsum_ext. intros j Hj. rewrite !coo_get_app, !coo_get_scale. field. exact D.
Qed.

Lemma loop_some k : forall t u u', exact_cg ext -> loop t k u = Some u' -> dt <> 0 -> List.length u = (t + 2)%nat ->
  List.length u' = (t + k + 2)%nat /\ firstn (t + 2) u' = u
  /\ forall s, (t <= s < t + k)%nat -> exists f, load s = Some f /\ List.length f = 6%nat
       /\ central_difference N (coo_get M_) (coo_get C_) (coo_get K_) dt f
            (match s with O => nth 1 u' [] | S s' => nth s' u' [] end) (nth s u' []) (nth (s + 2) u' []).
Proof.
  induction k as [|k IH]; intros t u u' EX H D L; cbn in H.
  - apply some_inj in H. subst u'. split; [lia|]. split; [rewrite <- L; apply firstn_all|]. intros; lia.
  - fold (step t u) in H. destruct (step t u) as [u1|] eqn:E; [|discriminate]. cbn [bindO] in H. fold (loop (S t) k u1) in H.
    destruct (step_some t u u1 EX E D) as (f & d & HL & L6 & E1 & LD & CD).
    assert (L1 : List.length u1 = (S t + 2)%nat) by (rewrite E1, app_length; cbn; lia).
    destruct (IH (S t) u1 u' EX H D L1) as (LU & FU & REST).
    assert (AT : forall q, (q < S t + 2)%nat -> nth q u' [] = nth q u1 []).
    { intros q Hq. rewrite <- FU. rewrite <- (firstn_skipn (S t + 2) u') at 1. apply app_nth1. rewrite FU, L1. exact Hq. }
    split; [lia|]. split.
    + replace (t + 2)%nat with (Nat.min (t + 2) (S t + 2)) by lia. rewrite <- firstn_firstn, FU, E1.
      rewrite <- L. rewrite firstn_app, firstn_all, Nat.sub_diag. cbn. apply app_nil_r.
    + intros s Hs. destruct (Nat.eq_dec s t) as [->|NE]; [|apply REST; lia].
      exists f. split; [exact HL|]. split; [exact L6|].
      assert (Q1 : nth t u' [] = nth t u []) by (rewrite AT by lia; rewrite E1; apply app_nth1; lia).
      assert (Q2 : nth (t + 2) u' [] = d).
      { rewrite AT by lia. rewrite E1, app_nth2 by lia. rewrite L, Nat.sub_diag. reflexivity. }
      assert (Q3 : (match t with O => nth 1 u' [] | S s' => nth s' u' [] end) = row_before t u).
      { destruct t as [|t']; cbn [row_before].
        - rewrite AT by lia. rewrite E1. destruct u as [|x [|y [|]]]; cbn in L; try lia. reflexivity.
        - rewrite AT by lia. rewrite E1. apply app_nth1. lia. }
      rewrite Q1, Q2, Q3. exact CD.
Qed.
End Integration.

(** what direct time integration stores *)
Lemma nth_repeat0 j N : nth j (repeat 0 N) 0 = 0.
Proof. revert j; induction N; destruct j; cbn; auto. Qed.

Lemma solve_direct_some ext a c p s : exact_cg ext -> dp_step p <> 0 -> solve_direct ext a c p = Some s ->
  exists N K_ M_ C_ lc tmin u, free_system ext a c N K_ M_ C_ /\ dget c (a_cases a) = Some lc /\ snd (case_max_min_step lc) = Some tmin
    /\ s = tl u /\ List.length u = (tmin + 2)%nat /\ (forall j, nth j (nth 0 u []) 0 = 0) /\ (forall j, nth j (nth 1 u []) 0 = 0)
    /\ List.length (nth 0 u []) = N /\ List.length (nth 1 u []) = N
    /\ forall t, (t < tmin)%nat -> exists f, free_load a c t f /\ List.length f = N /\ N = 6%nat
        /\ central_difference N (coo_get M_) (coo_get C_) (coo_get K_) (dp_step p) f
             (match t with O => nth 1 u [] | S t' => nth t' u [] end) (nth t u []) (nth (t + 2) u []).
Proof.
  intros EX D H. unfold solve_direct in H.
  destruct (assemble_K (x_ker ext) a) as [K|] eqn:HK; [|discriminate]. cbn [bindO] in H.
  destruct (assemble_M a None) as [M|] eqn:HM; [|discriminate]. cbn [bindO] in H.
  destruct (boundary_dofs a c) as [fixed|] eqn:HB; [|discriminate]. cbn [bindO] in H.
  destruct (drop_matrix _ K fixed) as [[N K_]|] eqn:HK_; [|discriminate]. cbn [bindO] in H.
  destruct (drop_matrix _ M fixed) as [[N2 M_]|] eqn:HM_; [|discriminate]. cbn [bindO] in H.
  destruct (drop_matrix _ (damping_matrix M K) fixed) as [[N3 C_]|] eqn:HC_; [|discriminate]. cbn [bindO fst snd] in H.
  destruct (dget c (a_cases a)) as [lc|] eqn:HD; [|discriminate]. cbn [bindO] in H.
  destruct (snd (case_max_min_step lc)) as [tmin|] eqn:HT; [|discriminate].
  set (load := fun t => bindO (assemble_f a c t) _) in H.
  match type of H with bindO ?X _ = _ => destruct X as [u|] eqn:HU; [|discriminate] end. cbn [bindO] in H. apply some_inj in H.
  destruct (loop_some ext N K_ M_ C_ (dp_step p) load tmin 0 _ u EX HU D eq_refl) as (LU & FU & REL).
  assert (R0 : forall q, (q < 2)%nat -> nth q u [] = nth q (firstn 2 u) []).
  { intros q Hq. rewrite <- (firstn_skipn 2 u) at 1. apply app_nth1. rewrite firstn_length. lia. }
  cbn [Nat.add] in FU. rewrite FU in R0.
  exists N, K_, M_, C_, lc, tmin, u. split.
  { exists K, M, fixed. cbv zeta. repeat split; try assumption; eexists; eassumption. }
  split; [reflexivity|]. split; [exact HT|]. split; [symmetry; exact H|]. split; [cbn in LU; exact LU|].
  rewrite !R0 by lia. cbn [nth].
  split. { intros j. destruct (Nat.lt_ge_cases j N) as [J|J].
    - rewrite nth_map_seq by exact J. rewrite nth_repeat0. ring.
    - apply nth_overflow. rewrite map_length, seq_length. exact J. }
  split; [intros; apply nth_repeat0|]. split; [rewrite map_length, seq_length; reflexivity|]. split; [apply repeat_length|].
  intros t Ht. destruct (REL t ltac:(lia)) as (f & HL & L6 & CD). unfold load in HL.
  destruct (assemble_f a c t) as [v|] eqn:HF; [|discriminate]. cbn [bindO] in HL.
  destruct (Nat.eqb _ N) eqn:LN; [|discriminate]. apply Nat.eqb_eq in LN. apply some_inj in HL. subst f.
  eexists. split; [exists fixed, v; repeat split; reflexivity || assumption|]. split; [exact LN|]. split; [lia|].
  rewrite (R0 1%nat) in CD by lia. cbn [nth] in CD. exact CD.
Qed.

Lemma row_at_u u z : (forall j, nth j (nth 0 u []) 0 = 0) ->
  forall j, nth j (row_at (tl u) z) 0 = nth j (if Z.ltb z (-1) then [] else nth (Z.to_nat (z + 1)) u []) 0.
Proof.
  intros Z0 j. unfold row_at. destruct (Z.ltb_spec z 0), (Z.ltb_spec z (-1)); try lia; try reflexivity.
  - replace z with (-1)%Z by lia. cbn [Z.add Z.to_nat]. change (Z.to_nat (-1+1)) with O. rewrite Z0. destruct j; reflexivity.
  - replace (Z.to_nat (z + 1)) with (S (Z.to_nat z)) by lia. destruct u; [destruct (Z.to_nat z); reflexivity|reflexivity].
Qed.
Lemma central_ext N M C K dt f p q r p' q' r' : (forall j, nth j p 0 = nth j p' 0) -> (forall j, nth j q 0 = nth j q' 0) -> (forall j, nth j r 0 = nth j r' 0) ->
  central_difference N M C K dt f p q r -> central_difference N M C K dt f p' q' r'.
Proof.
  intros P Q T H i Hi. rewrite <- (H i Hi). f_equal; [f_equal|]; apply rsum_ext; intros j _; rewrite ?P, ?Q, ?T; reflexivity.
Qed.

Lemma c51_actual ext a c p s : exact_cg ext -> dp_step p <> 0 -> solve_direct ext a c p = Some s ->
  exists N K_ M_ C_ lc steps, free_system ext a c N K_ M_ C_ /\ dget c (a_cases a) = Some lc /\ snd (case_max_min_step lc) = Some steps
    /\ List.length s = S steps /\ (forall j, nth j (nth 0 s []) 0 = 0)
    /\ integrates N (coo_get M_) (coo_get C_) (coo_get K_) (dp_step p) (Nat.min 1 steps) (free_load a c) s
    /\ forall t, (t < steps)%nat -> exists f, free_load a c t f
         /\ central_difference N (coo_get M_) (coo_get C_) (coo_get K_) (dp_step p) f
              (row_at s (Z.of_nat t - 2)) (row_at s (Z.of_nat t - 1)) (row_at s (Z.of_nat t + 1)).
Proof.
  intros EX D H. destruct (solve_direct_some ext a c p s EX D H) as (N & K_ & M_ & C_ & lc & steps & u & FS & HD & HT & -> & LU & Z0 & Z1 & L0 & L1 & REL).
  assert (ALL : forall t, (t < steps)%nat -> exists f, free_load a c t f
         /\ central_difference N (coo_get M_) (coo_get C_) (coo_get K_) (dp_step p) f
              (row_at (tl u) (Z.of_nat t - 2)) (row_at (tl u) (Z.of_nat t - 1)) (row_at (tl u) (Z.of_nat t + 1))).
  { intros t Ht. destruct (REL t Ht) as (f & FL & _ & _ & CD). exists f. split; [exact FL|]. revert CD.
    apply central_ext; intros j; rewrite row_at_u by exact Z0.
    - destruct t as [|[|t]].
      + rewrite Z1. cbn. destruct j; reflexivity.
      + reflexivity.
      + destruct (Z.ltb_spec (Z.of_nat (S (S t)) - 2) (-1)); [lia|]. do 2 f_equal. lia.
    - destruct (Z.ltb_spec (Z.of_nat t - 1) (-1)); [lia|]. do 2 f_equal. lia.
    - destruct (Z.ltb_spec (Z.of_nat t + 1) (-1)); [lia|]. do 2 f_equal. lia. }
  assert (S0 : forall j, nth j (nth 0 (tl u) []) 0 = 0).
  { intros j. destruct u as [|x u']; [cbn in LU; lia|]. exact (Z1 j). }
  exists N, K_, M_, C_, lc, steps. split; [exact FS|]. split; [exact HD|]. split; [exact HT|].
  split. { destruct u; cbn in *; lia. }
  split; [exact S0|]. split; [|exact ALL].
  intros t Ht. assert (t = O) by lia. subst t. destruct (ALL O ltac:(lia)) as (f & FL & CD). exists f. split; [exact FL|]. revert CD.
  apply central_ext; intros j; try reflexivity.
  cbn. rewrite S0. destruct j; reflexivity.
Qed.

Lemma c51_only_six ext a c p s N K_ M_ C_ lc k : free_system ext a c N K_ M_ C_ -> dget c (a_cases a) = Some lc ->
  snd (case_max_min_step lc) = Some (S k) -> N <> 6%nat -> solve_direct ext a c p <> Some s.
Proof.
  intros (K & M & fixed & HK & HM & HB & HK_ & (N2 & HM_) & (N3 & HC_)) HD HT NE H. unfold solve_direct in H.
  rewrite HK in H. cbn [bindO] in H. rewrite HM in H. cbn [bindO] in H. rewrite HB in H. cbn [bindO] in H. rewrite HK_ in H. cbn [bindO] in H.
  rewrite HM_ in H. cbn [bindO] in H. rewrite HC_ in H. cbn [bindO] in H. rewrite HD in H. cbn [bindO] in H. rewrite HT in H.
  cbn [integration_loop fst snd] in H. unfold integration_step in H.
  destruct (assemble_f a c 0) as [v|]; [|discriminate]. cbn [bindO] in H.
  destruct (Nat.eqb _ N) eqn:LN; [|discriminate]. cbn [bindO] in H. apply Nat.eqb_eq in LN. rewrite LN in H.
  destruct (Nat.eqb N 6) eqn:E6; [|discriminate]. apply Nat.eqb_eq in E6. exact (NE E6).
Qed.

Lemma c65_ignored ext a c dt d1 d2 : solve_direct ext a c (Direct dt d1) = solve_direct ext a c (Direct dt d2).
Proof. reflexivity. Qed.

(** ** C52 *)
Lemma implicit_motion N solve K M C b s f s' : exact_linear solve -> implicit_step N solve K M C b s f = Some s' -> in_motion N M C K f s'.
Proof.
  intros EX H. unfold implicit_step in H. destruct (solve _ _ _) as [ut|] eqn:E; [|discriminate]. cbn [bindO] in H. apply some_inj in H. subst s'.
  intros i Hi. cbn [mu_ mv_ ma_]. pose proof (EX _ _ _ _ E i Hi) as EQ. unfold mulv in EQ.
  assert (EF : f i = rsum N (fun j => (K i j + b4 b * C i j + b1 b * M i j) * ut j)
     - rsum N (fun j => M i j * (b1 b * mu_ s j - b2 b * mv_ s j - b3 b * ma_ s j))
     - rsum N (fun j => C i j * (b4 b * mu_ s j - b5 b * mv_ s j - b6 b * ma_ s j))) by (rewrite EQ; ring).
  rewrite EF. rewrite <- !rsum_minus, <- !rsum_plus. apply rsum_ext. intros j _. ring.
Qed.
Lemma implicit_velocity N solve K M C b1' b2' b3' gamma dt s f s' :
  implicit_step N solve K M C (BC b1' b2' b3' (gamma * dt * b1') (1 + gamma * dt * b2') (dt * (1 + gamma * b3' - gamma))) s f = Some s' ->
  velocity_relation gamma dt s s'.
Proof.
  intros H. unfold implicit_step in H. destruct (solve _ _ _) as [ut|] eqn:E; [|discriminate]. cbn [bindO] in H. apply some_inj in H. subst s'.
  intros i. cbn [mv_ ma_ b1 b2 b3 b4 b5 b6]. ring.
Qed.
Lemma implicit_displacement N solve K M C beta gamma dt s f s' : beta <> 0 -> dt <> 0 ->
  implicit_step N solve K M C (newmark_coef beta gamma dt) s f = Some s' ->
  forall i, mu_ s' i = mu_ s i + dt * mv_ s i + dt^2 * (- (1/2 - beta) * ma_ s i + beta * ma_ s' i).
Proof.
  intros HB HD H. unfold implicit_step in H. destruct (solve _ _ _) as [ut|] eqn:E; [|discriminate]. cbn [bindO] in H. apply some_inj in H. subst s'.
  intros i. cbn [mu_ ma_]. unfold newmark_coef; cbn [b1 b2 b3]. field. split; assumption.
Qed.
Lemma displacement_iff beta dt s s' : dt <> 0 ->
  (forall i, mu_ s' i = mu_ s i + dt * mv_ s i + dt^2 * (- (1/2 - beta) * ma_ s i + beta * ma_ s' i)) ->
  (displacement_relation beta dt s s' <-> beta = 1/2 \/ forall i, ma_ s i = 0).
Proof.
  intros D H. split.
  - intros R. destruct (Req_dec beta (1/2)) as [E|E]; [left; exact E|right]. intros i. specialize (R i). rewrite (H i) in R.
    assert (Q : dt^2 * (2 * (1/2 - beta)) * ma_ s i = 0) by lra.
    apply Rmult_integral in Q as [Q|Q]; [|exact Q]. exfalso. apply Rmult_integral in Q as [Q|Q]; [|lra].
    apply (pow_nonzero dt 2 D Q).
  - intros [->|Z] i; rewrite (H i); [field|]. rewrite (Z i). ring.
Qed.

Lemma newmark_loop_some N solve K M C b : forall F s r, newmark_loop N solve K M C b F s = Some r ->
  List.length r = List.length F /\ forall i s1 s2, nth_error (s :: r) i = Some s1 -> nth_error (s :: r) (S i) = Some s2 ->
    exists f, nth_error F i = Some f /\ implicit_step N solve K M C b s1 f = Some s2.
Proof.
  induction F as [|f F IH]; intros s r H; cbn [newmark_loop] in H.
  - apply some_inj in H. subst r. split; [reflexivity|]. intros i s1 s2 _ H2. destruct i; discriminate.
  - destruct (implicit_step _ _ _ _ _ _ _ _) as [s'|] eqn:E; [|discriminate]. cbn [bindO] in H.
    destruct (newmark_loop _ _ _ _ _ _ F s') as [r'|] eqn:E2; [|discriminate]. cbn [bindO] in H. apply some_inj in H. subst r.
    destruct (IH s' r' E2) as (L & I). split; [cbn; lia|]. intros i s1 s2 H1 H2. destruct i as [|i].
    + cbn in H1, H2. apply some_inj in H1, H2. subst. exists f. auto.
    + exact (I i s1 s2 H1 H2).
Qed.
Lemma nth_error_combine_some {A B} (l : list A) (m : list B) i x y : nth_error (combine l m) i = Some (x, y) ->
  nth_error l i = Some x /\ nth_error m i = Some y.
Proof.
  revert m i. induction l as [|a l IH]; intros m i H; [destruct i; discriminate|]. destruct m as [|b m]; [destruct i; discriminate|].
  destruct i; cbn in *; [apply some_inj in H; split; congruence|]. apply IH. exact H.
Qed.
Lemma nth_error_firstn_some {A} (l : list A) n i x : nth_error (firstn n l) i = Some x -> nth_error l i = Some x.
Proof. revert n i; induction l as [|a l IH]; intros [|n] [|i]; cbn; try discriminate; auto. apply IH. Qed.

(** Everything that holds between two consecutive states that are answered. *)
Lemma newmark_pair N solve K M C beta gamma T F s0 out i t s t' s' : newmark N solve K M C beta gamma T F s0 = Some out ->
  nth_error out i = Some (t, s) -> nth_error out (S i) = Some (t', s') ->
  exists f dt, nth_error T i = Some t' /\ nth_error F i = Some f /\ (exists T0 T1 r, T = T0 :: T1 :: r /\ dt = T1 - T0)
     /\ implicit_step N solve K M C (newmark_coef beta gamma dt) s f = Some s'.
Proof.
  intros H H1 H2. unfold newmark in H. destruct T as [|T0 [|T1 T]]; try discriminate. set (TT := T0 :: T1 :: T) in *.
  set (m := Nat.min _ _) in H. destruct (newmark_loop _ _ _ _ _ _ _ _) as [r|] eqn:E; [|discriminate]. cbn [bindO] in H. apply some_inj in H. subst out.
  destruct (newmark_loop_some _ _ _ _ _ _ _ _ _ E) as (L & I).
  apply nth_error_combine_some in H1 as (A1 & A2). apply nth_error_combine_some in H2 as (B1 & B2).
  destruct (I i s s' A2 B2) as (f & HF & HS). exists f, (T1 - T0).
  split; [cbn [nth_error] in B1; apply nth_error_firstn_some in B1; exact B1|]. split; [apply nth_error_firstn_some in HF; exact HF|].
  split; [exists T0, T1, T; split; reflexivity|exact HS].
Qed.

Lemma c52_partial N solve K M C beta gamma T0 T1 T F s0 out i t s t' s' : exact_linear solve -> beta <> 0 -> T0 <> T1 ->
  newmark N solve K M C beta gamma (T0 :: T1 :: T) F s0 = Some out ->
  nth_error out i = Some (t, s) -> nth_error out (S i) = Some (t', s') ->
  exists f, nth_error F i = Some f /\ in_motion N M C K f s' /\ velocity_relation gamma (T1 - T0) s s'
    /\ (displacement_relation beta (T1 - T0) s s' <-> beta = 1/2 \/ forall i, ma_ s i = 0).
Proof.
  intros EX B D H H1 H2. destruct (newmark_pair _ _ _ _ _ _ _ _ _ _ _ _ _ _ _ _ H H1 H2) as (f & dt & HT & HF & (T0' & T1' & r & E & ->) & HS).
  injection E as <- <- <-. exists f. split; [exact HF|]. split; [exact (implicit_motion _ _ _ _ _ _ _ _ _ EX HS)|].
  split; [exact (implicit_velocity _ _ _ _ _ _ _ _ _ _ _ _ _ HS)|].
  apply displacement_iff; [lra|]. apply (implicit_displacement N solve K M C beta gamma (T1 - T0) s f s' B); [lra|exact HS].
Qed.

(** ** C53 *)

Lemma rpower_32 r : 0 < r -> Rpower r (3/2) = sqrt r ^ 3.
Proof.
  intros H. replace (3/2) with (1 + /2) by lra. rewrite Rpower_plus, Rpower_1, Rpower_sqrt by exact H.
  pose proof (sqrt_sqrt r ltac:(lra)) as Q. rewrite <- Q at 1. ring.
Qed.
Lemma rho_sq xi q : 0 < q -> cqc_rho xi (q^2) = 8 * xi^2 * (1 + q^2) * q^3 / ((1 - q^4)^2 + 4 * xi^2 * q^2 * (1 + q^2)^2).
Proof.
  intros H. unfold cqc_rho. rewrite rpower_32 by (apply pow_lt; exact H). replace (sqrt (q^2)) with q by (rewrite sqrt_pow2; lra).
  replace ((q^2)^2) with (q^4) by ring. reflexivity.
Qed.
Lemma den_pos xi q : 0 < xi -> 0 < q -> 0 < (1 - q^4)^2 + 4 * xi^2 * q^2 * (1 + q^2)^2.
Proof.
  intros X Q. pose proof (pow2_ge_0 (1 - q^4)). assert (0 < 4 * xi^2 * q^2 * (1 + q^2)^2); [|lra].
  pose proof (pow_lt xi 2 X). pose proof (pow_lt q 2 Q). pose proof (pow_lt (1 + q^2) 2 ltac:(lra)).
  apply Rmult_lt_0_compat; [apply Rmult_lt_0_compat; lra|assumption].
Qed.
Lemma c53_range xi r : 0 < xi -> 0 < r -> 0 < cqc_rho xi r <= 1.
Proof.
  intros X R. pose proof (sqrt_lt_R0 r R) as Q. rewrite <- (pow2_sqrt r) by lra. set (q := sqrt r) in *. rewrite rho_sq by exact Q.
  pose proof (den_pos xi q X Q) as D. pose proof (pow_lt xi 2 X) as X2. pose proof (pow_lt q 2 Q) as Q2. pose proof (pow_lt q 3 Q) as Q3. split.
  - apply Rdiv_lt_0_compat; [|exact D]. apply Rmult_lt_0_compat; [|exact Q3]. apply Rmult_lt_0_compat; lra.
  - apply Rmult_le_reg_r with (1 := D). unfold Rdiv. rewrite Rmult_assoc, Rinv_l, Rmult_1_r, Rmult_1_l by lra.
    assert (E : (1 - q^4)^2 + 4 * xi^2 * q^2 * (1 + q^2)^2 - 8 * xi^2 * (1 + q^2) * q^3 = (1 - q^4)^2 + 4 * xi^2 * (1 + q^2) * (q * (1 - q))^2) by ring.
    assert (0 <= (1 - q^4)^2 + 4 * xi^2 * (1 + q^2) * (q * (1 - q))^2); [|lra].
    apply Rplus_le_le_0_compat; [apply pow2_ge_0|]. apply Rmult_le_pos; [|apply pow2_ge_0]. apply Rmult_le_pos; lra.
Qed.
Lemma c53_symmetric xi r : 0 < xi -> 0 < r -> cqc_rho xi (1 / r) = cqc_rho xi r.
Proof.
  intros X R. pose proof (sqrt_lt_R0 r R) as Q. rewrite <- (pow2_sqrt r) by lra. set (q := sqrt r) in *.
  assert (IQ : 0 < 1 / q) by (apply Rdiv_lt_0_compat; lra).
  replace (1 / q^2) with ((1/q)^2) by (field; lra). rewrite !rho_sq by assumption.
  pose proof (den_pos xi q X Q) as D. pose proof (den_pos xi (1/q) X IQ) as D'.
  assert (ED : (1 - (1/q)^4)^2 + 4 * xi^2 * (1/q)^2 * (1 + (1/q)^2)^2 = ((1 - q^4)^2 + 4 * xi^2 * q^2 * (1 + q^2)^2) / q^8) by (field; lra).
  assert (EN : 8 * xi^2 * (1 + (1/q)^2) * (1/q)^3 = (8 * xi^2 * (1 + q^2) * q^3) / q^8) by (field; lra).
  rewrite ED, EN. set (n := 8 * xi^2 * (1 + q^2) * q^3). set (d := (1 - q^4)^2 + _) in *. field. split; lra.
Qed.
Lemma c53_equal xi : xi <> 0 -> cqc_rho xi 1 = 1.
Proof.
  intros X. unfold cqc_rho. replace (Rpower 1 (3/2)) with 1. { field. exact X. }
  rewrite rpower_32 by lra. rewrite sqrt_1. ring.
Qed.
Lemma sum_diag n (S : nat -> R) : rsum n (fun i => rsum n (fun j => (if Nat.eqb i j then 1 else 0) * S i * S j)) = rsum n (fun i => S i ^ 2).
Proof.
  apply rsum_ext. intros i Hi. rewrite (rsum_single n i) by (try exact Hi; intros j _ NE; apply Nat.eqb_neq in NE; rewrite Nat.eqb_sym, NE; ring).
  rewrite Nat.eqb_refl. ring.
Qed.
Lemma c53_srss n xi T S : (forall i j, (i < n)%nat -> (j < n)%nat -> i <> j -> cqc_rho xi (T i / T j) = 0) -> cqc n xi T S = srss n S.
Proof.
  intros Z. unfold cqc, srss. f_equal. rewrite <- sum_diag. apply rsum_ext. intros i Hi. apply rsum_ext. intros j Hj.
  destruct (Nat.eqb_spec i j) as [E|NE]; [reflexivity|]. rewrite (Z i j Hi Hj NE). reflexivity.
Qed.
Lemma rho_bounds n xi T i j : 0 < xi -> (forall i, (i < n)%nat -> 0 < T i) -> (i < n)%nat -> (j < n)%nat ->
  0 <= (if Nat.eqb i j then 1 else cqc_rho xi (T i / T j)) <= 1.
Proof.
  intros X P Hi Hj. destruct (Nat.eqb i j); [lra|]. pose proof (c53_range xi (T i / T j) X ltac:(apply Rdiv_lt_0_compat; auto)). lra.
Qed.
Lemma rsum_le n f g : (forall i, (i < n)%nat -> f i <= g i) -> rsum n f <= rsum n g.
Proof. induction n; cbn; intros H; [lra|]. pose proof (H n ltac:(lia)). pose proof (IHn (fun i Hi => H i ltac:(lia))). lra. Qed.
Lemma sum_square n (S : nat -> R) : rsum n (fun i => rsum n (fun j => S i * S j)) = rsum n S ^ 2.
Proof.
  rewrite (rsum_ext n _ (fun i => rsum n S * S i)) by (intros i _; rewrite rsum_scal; ring). rewrite rsum_scal. ring.
Qed.
Lemma c53_below_abs n xi T S : 0 < xi -> (forall i, (i < n)%nat -> 0 < T i) ->
  cqc_sum n xi T S <= (rsum n (fun i => Rabs (S i)))^2 /\ cqc n xi T S <= rsum n (fun i => Rabs (S i)).
Proof.
  intros X P. assert (A : cqc_sum n xi T S <= (rsum n (fun i => Rabs (S i)))^2).
  { rewrite <- sum_square. apply rsum_le. intros i Hi. apply rsum_le. intros j Hj.
    pose proof (rho_bounds n xi T i j X P Hi Hj) as [B1 B2]. set (c := if Nat.eqb i j then _ else _) in *.
    rewrite <- Rabs_mult, Rmult_assoc. pose proof (Rle_abs (S i * S j)). pose proof (Rabs_pos (S i * S j)).
    apply Rle_trans with (c * Rabs (S i * S j)); [apply Rmult_le_compat_l; assumption|]. nra. }
  split; [exact A|]. unfold cqc. fold (cqc_sum n xi T S). rewrite <- (sqrt_pow2 (rsum n (fun i => Rabs (S i)))).
  - apply sqrt_le_1_alt. exact A.
  - apply rsum_nonneg. intros i _. apply Rabs_pos.
Qed.
Lemma c53_above_srss n xi T S : 0 < xi -> (forall i, (i < n)%nat -> 0 < T i) -> (forall i j, (i < n)%nat -> (j < n)%nat -> 0 <= S i * S j) ->
  srss n S <= cqc n xi T S.
Proof.
  intros X P SS. unfold srss, cqc. apply sqrt_le_1_alt. rewrite <- sum_diag. apply rsum_le. intros i Hi. apply rsum_le. intros j Hj.
  pose proof (rho_bounds n xi T i j X P Hi Hj) as [B1 B2]. pose proof (SS i j Hi Hj). rewrite !Rmult_assoc.
  apply Rmult_le_compat_r; [assumption|]. destruct (Nat.eqb i j); lra.
Qed.

(** ** the period used by the response spectrum *)
Lemma c64_iff lambda : 0 < lambda -> (true_period lambda (spectrum_period lambda) <-> lambda = 1).
Proof.
  intros P. pose proof two_pi_pos as PP. pose proof (sqrt_lt_R0 lambda P) as S1. pose proof (sqrt_lt_R0 _ S1) as S2. unfold true_period, spectrum_period. split.
  - intros H. assert (E : sqrt lambda = sqrt (sqrt lambda)).
    { apply Rmult_eq_reg_l with (2 * PI); [|lra]. rewrite <- H at 2. field. lra. }
    assert (sqrt lambda = 1). { pose proof (sqrt_sqrt (sqrt lambda) ltac:(lra)). rewrite <- E in H0. nra. }
    pose proof (sqrt_sqrt lambda ltac:(lra)). rewrite H0 in H1. lra.
  - intros ->. rewrite !sqrt_1. field.
Qed.

(** ** Wilson's method *)
Lemma wilson_parts N solve K M C beta gamma theta dt s f s' : exact_linear solve -> theta <> 0 ->
  wilson_step N solve K M C beta gamma theta dt s f = Some s' ->
  exists s_, in_motion N M C K f s_ /\ velocity_relation gamma (theta * dt) s s_
    /\ (forall i, ma_ s' i = ma_ s i + (ma_ s_ i - ma_ s i) / theta)
    /\ velocity_relation gamma dt s s' /\ displacement_relation beta dt s s'.
Proof.
  intros EX TH H. unfold wilson_step in H. destruct (implicit_step _ _ _ _ _ _ _ _) as [s_|] eqn:E; [|discriminate]. cbn [bindO] in H. apply some_inj in H. subst s'.
  exists s_. split; [exact (implicit_motion _ _ _ _ _ _ _ _ _ EX E)|]. split; [exact (implicit_velocity _ _ _ _ _ _ _ _ _ _ _ _ _ E)|].
  split; [intros i; cbn [ma_]; field; exact TH|]. split; intros i; cbn [mu_ mv_ ma_]; field; exact TH.
Qed.
Lemma motion_ext N M C K f s s' : (forall i, mu_ s i = mu_ s' i) -> (forall i, mv_ s i = mv_ s' i) -> (forall i, ma_ s i = ma_ s' i) ->
  in_motion N M C K f s -> in_motion N M C K f s'.
Proof.
  intros U V A H i Hi. rewrite <- (H i Hi). f_equal; [f_equal|]; apply rsum_ext; intros j _; rewrite ?U, ?V, ?A; reflexivity.
Qed.
Lemma c63_partial N solve K M C beta gamma theta dt s f s' : exact_linear solve -> theta <> 0 -> beta <> 0 -> dt <> 0 ->
  wilson_step N solve K M C beta gamma theta dt s f = Some s' ->
  velocity_relation gamma dt s s' /\ displacement_relation beta dt s s'
  /\ (beta = 1/2 \/ (forall i, ma_ s i = 0) -> in_motion N M C K f (extrapolated beta gamma theta dt s s')).
Proof.
  intros EX TH B D H. unfold wilson_step in H. destruct (implicit_step _ _ _ _ _ _ _ _) as [s_|] eqn:E; [|discriminate]. cbn [bindO] in H. apply some_inj in H. subst s'.
  split; [intros i; cbn [mu_ mv_ ma_]; field; exact TH|]. split; [intros i; cbn [mu_ mv_ ma_]; field; exact TH|]. intros Z.
  pose proof (implicit_motion _ _ _ _ _ _ _ _ _ EX E) as MO. pose proof (implicit_velocity _ _ _ _ _ _ _ _ _ _ _ _ _ E) as VR.
  assert (E' : implicit_step N solve K M C (newmark_coef beta gamma (theta * dt)) s f = Some s_).
  { rewrite <- E. f_equal. unfold newmark_coef, wilson_coef. assert (Q : theta * dt <> 0) by (apply Rmult_integral_contrapositive_currified; assumption).
    f_equal; try (field; repeat split; assumption). }
  pose proof (implicit_displacement N solve K M C beta gamma (theta * dt) s f s_ B ltac:(apply Rmult_integral_contrapositive_currified; assumption) E') as DI.
  revert MO. apply motion_ext; intros i; unfold extrapolated; cbn [mu_ mv_ ma_].
  - rewrite (DI i). destruct Z as [->|Z]; [field; exact TH|]. rewrite (Z i). field. exact TH.
  - rewrite (VR i). field. exact TH.
  - field. exact TH.
Qed.

(** the whole history of Wilson's method *)
Lemma wilson_loop_some N solve K M C beta gamma theta dt : forall F s r, wilson_loop N solve K M C beta gamma theta dt F s = Some r ->
  List.length r = List.length F /\ forall i s1 s2, nth_error (s :: r) i = Some s1 -> nth_error (s :: r) (S i) = Some s2 ->
    exists f, nth_error F i = Some f /\ wilson_step N solve K M C beta gamma theta dt s1 f = Some s2.
Proof.
  induction F as [|f F IH]; intros s r H; cbn [wilson_loop] in H.
  - apply some_inj in H. subst r. split; [reflexivity|]. intros i s1 s2 _ H2. destruct i; discriminate.
  - destruct (wilson_step _ _ _ _ _ _ _ _ _ _ _) as [s'|] eqn:E; [|discriminate]. cbn [bindO] in H.
    destruct (wilson_loop _ _ _ _ _ _ _ _ _ F s') as [r'|] eqn:E2; [|discriminate]. cbn [bindO] in H. apply some_inj in H. subst r.
    destruct (IH s' r' E2) as (L & I). split; [cbn; lia|]. intros i s1 s2 H1 H2. destruct i as [|i].
    + cbn in H1, H2. apply some_inj in H1, H2. subst. exists f. auto.
    + exact (I i s1 s2 H1 H2).
Qed.
Lemma wilson_tail_nth theta : forall F k f, nth_error (wilson_tail theta F) k = Some f -> wilson_load theta F (S k) f.
Proof.
  induction F as [|f0 F IH]; intros k f H; [destruct k; discriminate|]. destruct F as [|f1 F]; [destruct k; discriminate|].
  destruct k as [|k].
  - cbn in H. apply some_inj in H. subst f. exists f0, f1. split; [reflexivity|]. split; reflexivity.
  - exact (IH k f H).
Qed.
Lemma wilson_loads_nth theta F i f : nth_error (wilson_loads theta F) i = Some f -> wilson_load theta F i f.
Proof.
  unfold wilson_loads. destruct F as [|f0 F]; [destruct i; discriminate|]. destruct i as [|i]; [exact (fun H => H)|apply wilson_tail_nth].
Qed.
Lemma wilson_tail_length theta : forall f0 F, List.length (wilson_tail theta (f0 :: F)) = List.length F.
Proof. intros f0 F. revert f0. induction F as [|f1 F IH]; intros f0; [reflexivity|]. cbn [wilson_tail List.length]. f_equal. apply IH. Qed.
Lemma c63_history N solve K M C beta gamma theta T0 T1 T F s0 out : exact_linear solve -> theta <> 0 -> beta <> 0 -> T0 <> T1 ->
  wilson N solve K M C beta gamma theta (T0 :: T1 :: T) F s0 = Some out ->
  List.length out = S (Nat.min (List.length (T0 :: T1 :: T)) (List.length F)) /\ nth_error out 0 = Some (0, s0)
  /\ forall i t s t' s', nth_error out i = Some (t, s) -> nth_error out (S i) = Some (t', s') ->
     nth_error (T0 :: T1 :: T) i = Some t' /\ velocity_relation gamma (T1 - T0) s s' /\ displacement_relation beta (T1 - T0) s s'
     /\ exists f, wilson_load theta F i f
        /\ (beta = 1/2 \/ (forall i, ma_ s i = 0) -> in_motion N M C K f (extrapolated beta gamma theta (T1 - T0) s s')).
Proof.
  intros EX TH B D H. unfold wilson in H. destruct F as [|f0 F]; [discriminate|]. set (TT := T0 :: T1 :: T) in *. set (FF := f0 :: F) in *.
  set (m := Nat.min _ _) in *. destruct (wilson_loop _ _ _ _ _ _ _ _ _ _ _) as [r|] eqn:E; [|discriminate]. cbn [bindO] in H. apply some_inj in H. subst out.
  destruct (wilson_loop_some _ _ _ _ _ _ _ _ _ _ _ _ E) as (L & I).
  assert (LW : List.length (wilson_loads theta FF) = List.length FF) by (cbn [wilson_loads FF List.length]; f_equal; apply wilson_tail_length).
  assert (LR : List.length r = m) by (rewrite L, firstn_length, LW; unfold m; lia).
  split; [rewrite combine_length; cbn [List.length]; rewrite firstn_length, LR; unfold m; lia|]. split; [reflexivity|].
  intros i t s t' s' H1 H2. apply nth_error_combine_some in H1 as (A1 & A2). apply nth_error_combine_some in H2 as (B1 & B2).
  destruct (I i s s' A2 B2) as (f & HF & HS).
  split; [cbn [nth_error] in B1; apply nth_error_firstn_some in B1; exact B1|].
  destruct (c63_partial N solve K M C beta gamma theta (T1 - T0) s f s' EX TH B ltac:(lra) HS) as (V & U & MO).
  split; [exact V|]. split; [exact U|]. exists f. split; [apply wilson_loads_nth; apply nth_error_firstn_some in HF; exact HF|exact MO].
Qed.

(** ** the times answered by the Newmark routine *)
Lemma c66_label N solve K M C beta gamma T F s0 out T0 dt i t s : newmark N solve K M C beta gamma T F s0 = Some out ->
  (forall k x, nth_error T k = Some x -> x = T0 + INR k * dt) ->
  nth_error out (S i) = Some (t, s) -> (t = INR (S i) * dt <-> T0 = dt).
Proof.
  intros H U HN. unfold newmark in H. destruct T as [|Ta [|Tb T]]; try discriminate. set (TT := Ta :: Tb :: T) in *.
  set (m := Nat.min _ _) in H. destruct (newmark_loop _ _ _ _ _ _ _ _) as [r|] eqn:E; [|discriminate]. cbn [bindO] in H. apply some_inj in H. subst out.
  apply nth_error_combine_some in HN as (A & _). cbn [nth_error] in A. apply nth_error_firstn_some in A. apply U in A.
  rewrite S_INR. subst t. split; intros; lra.
Qed.

(** ** the frequencies of a modal case *)
Lemma c49_pipeline_partial ker eigsh a c st modes o i lambda x : exact_eigen eigsh -> solve_eigen ker eigsh a c st = Some (modes, o) ->
  nth_error o i = Some lambda -> nth_error modes i = Some x -> 0 < lambda ->
  exists N K_ M_ f T, free_pair ker a c N K_ M_ /\ (exists j, (j < N)%nat /\ nth j x 0 <> 0)
    /\ mode_of N (coo_get K_) (coo_get M_) (sqrt lambda) (fun j => nth j x 0)
    /\ nth_error (resolve_modal_frequency o) i = Some (lambda, f, T) /\ 0 < f /\ 0 < T /\ f * T = 1 /\ 2 * PI * f = lambda.
Proof.
  intros EX H HO HX P. unfold solve_eigen in H. destruct (ms_base st); [discriminate|].
  destruct (assemble_K ker a) as [K|] eqn:HK; [|discriminate]. cbn [bindO] in H.
  destruct (assemble_M a None) as [M|] eqn:HM; [|discriminate]. cbn [bindO] in H.
  destruct (boundary_dofs a c) as [fixed|] eqn:HB; [|discriminate]. cbn [bindO] in H.
  destruct (drop_matrix _ K fixed) as [[N K_]|] eqn:HK_; [|discriminate]. cbn [bindO] in H.
  destruct (drop_matrix _ M fixed) as [[N2 M_]|] eqn:HM_; [|discriminate]. cbn [bindO fst snd] in H.
  destruct (eigsh _ _ _ _) as [[o' modes']|] eqn:HE; [|discriminate]. cbn [bindO fst snd] in H.
  destruct (Nat.eqb _ _); [|discriminate]. apply some_inj in H. assert (modes' = modes) by congruence. assert (o' = o) by congruence. subst.
  destruct (EX _ _ _ _ _ _ HE i lambda x HO HX) as (NZ & EQ).
  destruct (c49_reported_partial o i lambda HO P) as (f & T & R & _ & F1 & T1 & FT & W).
  exists N, K_, M_, f, T. split. { exists K, M, fixed. cbv zeta. repeat split; try assumption. exists N2. exact HM_. }
  split; [exact NZ|]. split. { intros r Hr. rewrite (EQ r Hr). rewrite pow2_sqrt by lra. reflexivity. }
  auto.
Qed.
