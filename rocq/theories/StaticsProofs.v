(** Proofs about static answers as a whole (C106, C107, C108). *)
From Coq Require Import Reals Lra Lia List String Arith Bool ZArith Sorting.Permutation.
From Verif Require Import Base BaseFacts Csys Sections Element Load FeModel Assembly Solver Post Api
  SpecApi ApiFacts WfFacts HidFacts ApiProofs1 LoadFacts SpecElim ElimFacts SpecGeom CsysFacts SpecBeam BeamFacts AsmFacts SpecAsm AsmProofs
  AsmTotal AsmProofs2 SpecLoad LoadProofs SpecSolve AsmSolve SpecMass MassProofs ShellFacts SpecStatics.
Import ListNotations.
Local Open Scope R_scope.

(** ** Work and energy are bilinear *)
Lemma work_add w f x y : work_of w f (fun q => x q + y q) = work_of w f x + work_of w f y.
Proof. unfold work_of. rewrite <- rsum_plus. apply rsum_ext; intros; ring. Qed.
Lemma work_sub w f x y : work_of w f (fun q => x q - y q) = work_of w f x - work_of w f y.
Proof. unfold work_of. rewrite <- rsum_minus. apply rsum_ext; intros; ring. Qed.
Lemma work_scal w f k x : work_of w f (fun q => k * x q) = k * work_of w f x.
Proof. unfold work_of. rewrite <- rsum_scal. apply rsum_ext; intros; ring. Qed.
Lemma work_ext w f g x y : (forall q, (q < equations w)%nat -> f q * x q = g q * y q) -> work_of w f x = work_of w g y.
Proof. intros H. apply rsum_ext; intros; auto. Qed.
Lemma holding_add ext w x y q : holding ext w (fun q => x q + y q) q = holding ext w x q + holding ext w y q.
Proof. unfold holding. rewrite <- rsum_plus. apply rsum_ext; intros; ring. Qed.
Lemma holding_sub ext w x y q : holding ext w (fun q => x q - y q) q = holding ext w x q - holding ext w y q.
Proof. unfold holding. rewrite <- rsum_minus. apply rsum_ext; intros; ring. Qed.
Lemma holding_scal ext w k x q : holding ext w (fun q => k * x q) q = k * holding ext w x q.
Proof. unfold holding. rewrite <- rsum_scal. apply rsum_ext; intros; ring. Qed.
Lemma energy_sym ext w x y : (forall p q, stiff_at ext w p q = stiff_at ext w q p) -> energy ext w x y = energy ext w y x.
Proof.
  intros H. unfold energy, work_of, holding.
  transitivity (rsum (equations w) (fun q => rsum (equations w) (fun p => stiff_at ext w q p * y p * x q))).
  { apply rsum_ext; intros. rewrite <- rsum_scal_r. reflexivity. }
  rewrite rsum_swap. apply rsum_ext; intros i Hi. rewrite <- rsum_scal_r. apply rsum_ext; intros j Hj. rewrite (H j i). ring.
Qed.
Lemma energy_sub_r ext w z x y : energy ext w z (fun q => x q - y q) = energy ext w z x - energy ext w z y.
Proof.
  unfold energy, work_of. rewrite <- rsum_minus. apply rsum_ext; intros. rewrite holding_sub. ring.
Qed.
Lemma energy_sub ext w x y : energy ext w (fun q => x q - y q) (fun q => x q - y q)
  = energy ext w x x - energy ext w x y - energy ext w y x + energy ext w y y.
Proof.
  rewrite energy_sub_r. unfold energy. rewrite !work_sub. ring.
Qed.
Lemma energy_form ext w m K x y : assembled_model w = Some m -> stiffness ext w = Some K -> energy ext w x y = form (size m) K x y.
Proof.
  intros Hm HK. unfold energy, work_of, holding, form, equations, stiff_at. rewrite Hm, HK. apply rsum_ext; intros; ring.
Qed.
Lemma holding_row ext w m K x q : assembled_model w = Some m -> stiffness ext w = Some K -> holding ext w x q = row (size m) K x q.
Proof. intros Hm HK. unfold holding, row, equations, stiff_at. rewrite Hm, HK. reflexivity. Qed.

Lemma cross_zero v : cross zero3 v = zero3.
Proof. apply vec3_eq; cbn; ring. Qed.
Lemma vadd_zero v : vadd v zero3 = v.
Proof. apply vec3_eq; cbn; ring. Qed.
Lemma good_ends m k b : good m -> In (k, b) (f_beams m) ->
  In (n_name (b_ni b)) (dkeys (f_nodes m)) /\ In (n_name (b_nj b)) (dkeys (f_nodes m)).
Proof.
  intros G Hb. destruct G as (_ & _ & B & _). destruct (B k b Hb) as [(n1 & H1 & _) (n2 & H2 & _)].
  split; apply dget_in_keys; eauto.
Qed.

Section Run.
Variable ext : externals.
Variable ops : list op.
Hypothesis NR : never_readds_nodes ext (ops ++ [OpAssemble]).
Let w := final ext init (ops ++ [OpAssemble]).

Lemma stiff_sym : symmetric_elements ext w -> forall p q, stiff_at ext w p q = stiff_at ext w q p.
Proof.
  intros SY p q. unfold stiff_at. destruct (stiffness ext w) as [K|] eqn:HK; [|reflexivity].
  destruct (assembled_model w) as [m|] eqn:Hm.
  - apply (c22_symmetric ext (ops ++ [OpAssemble]) w m K eq_refl Hm HK (SY m Hm)).
  - unfold assembled_model, stiffness in *. destruct (read_asb w); discriminate.
Qed.

Lemma energy_nonneg : elastic ext w -> forall x, 0 <= energy ext w x x.
Proof.
  intros EL x. destruct (stiffness ext w) as [K|] eqn:HK.
  - destruct (assembled_model w) as [m|] eqn:Hm.
    + rewrite (energy_form ext w m K x x Hm HK). destruct (EL m Hm) as [E1 E2].
      apply (c23_psd ext (ops ++ [OpAssemble]) w m K eq_refl Hm HK E1 E2).
    + unfold assembled_model, stiffness in *. destruct (read_asb w); discriminate.
  - unfold energy, work_of. rewrite rsum_0; [lra|]. intros q _. unfold holding. rewrite rsum_0; [ring|].
    intros p _. unfold stiff_at. rewrite HK. ring.
Qed.

(** What a successful solve stores. *)
Lemma solved_facts c : solved ext w c -> symmetric_elements ext w ->
  permitted ext w c (solution ext w c) /\ balanced ext w c (solution ext w c).
Proof.
  intros [S1 S2 S3] SY. destruct (c19_equilibrium_partial ext ops c NR S1 S2 S3) as (m & K & f & Hm & HK & HF & Z & EQ).
  fold w in Hm, HK, HF, Z, EQ. split.
  - intros q _ Hq. apply Z, Hq.
  - intros q Hq NQ. rewrite (holding_row _ _ _ _ _ _ Hm HK). unfold load_at. rewrite HF.
    unfold equations in Hq. rewrite Hm in Hq. apply (EQ (SY m Hm) q Hq NQ).
Qed.

Lemma restrained_dec c q : restrained_for ext w c q \/ ~ restrained_for ext w c q.
Proof.
  destruct (assembled_now ext ops NR) as (_ & a & Ha & Em & Eh & Ec & Wc & _ & G & _). fold w in Ha, Em, Eh, Ec, G, Wc.
  unfold restrained_for. set (x := governing ext w c). set (l := dkeys (f_nodes (k_fem (w_core w)))).
  change (answer ext w OpNodeNames) with (RNames l).
  assert (H : restrained_in (RNames l) x q <->
     exists k, nth_error l (q / 6) = Some k /\ flag x k (q mod 6) = true).
  { split.
    - intros (l0 & k & i & j & E & Hk & Hj & Eq & F). injection E as <-. exists k. subst q.
      rewrite div6, mod6 by exact Hj. auto.
    - intros (k & Hk & F). exists l, k, (q / 6)%nat, (q mod 6)%nat. repeat split; auto.
      + apply Nat.mod_upper_bound. discriminate.
      + apply Nat.div_mod. discriminate. }
  rewrite H. destruct (nth_error l (q / 6)) as [k|]; [|right; intros (k & E & _); discriminate].
  destruct (flag x k (q mod 6)) eqn:F; [left; eauto|right]. intros (k' & E & F'). injection E as <-. congruence.
Qed.

(** Forces that agree at the free equations do the same work on permitted displacements. *)
Lemma work_free c f g x : permitted ext w c x ->
  (forall q, (q < equations w)%nat -> ~ restrained_for ext w c q -> f q = g q) -> work_of w f x = work_of w g x.
Proof.
  intros P H. apply work_ext. intros q Hq. destruct (restrained_dec c q) as [R|R].
  - rewrite (P q Hq R). ring.
  - rewrite (H q Hq R). reflexivity.
Qed.

Lemma balanced_work c u x : permitted ext w c x -> balanced ext w c u -> energy ext w x u = work_of w (load_at w c) x.
Proof. intros P B. unfold energy. apply (work_free c); assumption. Qed.

(** ** C106 *)
Lemma c106_minimum c x : solved ext w c -> symmetric_elements ext w -> elastic ext w -> permitted ext w c x ->
  potential ext w c (solution ext w c) <= potential ext w c x.
Proof.
  intros SV SY EL P. destruct (solved_facts c SV SY) as [P0 B0]. set (u := solution ext w c) in *.
  unfold potential. rewrite <- (balanced_work c u x P B0), <- (balanced_work c u u P0 B0).
  pose proof (energy_nonneg EL (fun q => x q - u q)) as N. rewrite energy_sub in N.
  rewrite (energy_sym ext w u x (stiff_sym SY)) in N. lra.
Qed.

Lemma c106_unique c x : solved ext w c -> symmetric_elements ext w -> stable ext w c ->
  permitted ext w c x -> balanced ext w c x -> forall q, (q < equations w)%nat -> x q = solution ext w c q.
Proof.
  intros SV SY ST P B q Hq. destruct (solved_facts c SV SY) as [P0 B0]. set (u := solution ext w c) in *.
  assert (P1 : permitted ext w c (fun q => x q - u q)).
  { intros p Hp Rp. rewrite (P p Hp Rp), (P0 p Hp Rp). ring. }
  enough (x q - u q = 0) by lra. apply (ST (fun q => x q - u q) P1); [|exact Hq].
  unfold energy. unfold work_of. apply rsum_0. intros p Hp.
  destruct (restrained_dec c p) as [R|R]; [rewrite (P p Hp R), (P0 p Hp R); ring|].
  rewrite holding_sub, (B p Hp R), (B0 p Hp R). ring.
Qed.

Lemma permitted_same a b x : same_supports ext w a b -> permitted ext w a x -> permitted ext w b x.
Proof. intros S P q Hq R. apply P; [exact Hq|]. apply S, R. Qed.

Lemma load_applied c : load_vector w c <> None -> exists m, assembled_model w = Some m
  /\ forall q, load_at w c q = lsum (map (fun fp => fst fp * pattern_power m (snd fp) (delta q)) (applied w c)).
Proof.
  intros H. unfold load_at. destruct (load_vector w c) as [f|] eqn:HF; [|congruence].
  destruct (assembled_model w) as [m|] eqn:Hm.
  2:{ unfold load_vector, assembled_model in *. destruct (read_asb w); discriminate. }
  exists m. split; [reflexivity|]. intros q.
  destruct (load_inv ext (ops ++ [OpAssemble]) w m c f eq_refl Hm HF) as (_ & _ & E). rewrite <- E, <- bil_delta. reflexivity.
Qed.

Lemma lsum_perm l l' : Permutation l l' -> lsum l = lsum l'.
Proof. intros P. induction P; cbn [lsum]; lra. Qed.
Lemma lsum_times k h l : lsum (map (fun fp : R * pattern => fst fp * h (snd fp)) (times k l)) = k * lsum (map (fun fp => fst fp * h (snd fp)) l).
Proof.
  unfold times. rewrite map_map. cbn [fst snd]. rewrite <- lsum_map_scal. apply lsum_map_ext. intros; ring.
Qed.

Lemma solved_loads c : solved ext w c -> load_vector w c <> None.
Proof.
  intros [S1 S2 S3]. destruct (c19_equilibrium_partial ext ops c NR S1 S2 S3) as (m & K & f & _ & _ & HF & _).
  fold w in HF. rewrite HF. discriminate.
Qed.

Lemma loads_combine a b c ka kb : solved ext w a -> solved ext w b -> solved ext w c ->
  Permutation (applied w c) (times ka (applied w a) ++ times kb (applied w b)) ->
  forall q, load_at w c q = ka * load_at w a q + kb * load_at w b q.
Proof.
  intros SA SB SC P q.
  destruct (load_applied a (solved_loads a SA)) as (m & Hm & ->). destruct (load_applied b (solved_loads b SB)) as (m' & Hm' & ->).
  destruct (load_applied c (solved_loads c SC)) as (m2 & Hm2 & ->).
  assert (m' = m) by congruence. assert (m2 = m) by congruence. subst m' m2.
  rewrite (lsum_perm _ _ (Permutation_map _ P)), map_app, lsum_app, !(lsum_times _ (fun p => pattern_power m p (delta q))). reflexivity.
Qed.

Lemma c106_superpose a b c ka kb : solved ext w a -> solved ext w b -> solved ext w c ->
  symmetric_elements ext w -> same_supports ext w a c -> same_supports ext w b c -> stable ext w c ->
  Permutation (applied w c) (times ka (applied w a) ++ times kb (applied w b)) ->
  forall q, (q < equations w)%nat -> solution ext w c q = ka * solution ext w a q + kb * solution ext w b q.
Proof.
  intros SA SB SC SY Sa Sb ST P q Hq. symmetry. destruct (solved_facts a SA SY) as [Pa Ba]. destruct (solved_facts b SB SY) as [Pb Bb].
  apply (c106_unique c (fun q => ka * solution ext w a q + kb * solution ext w b q) SC SY ST); [| |exact Hq].
  - intros p Hp R. rewrite (Pa p Hp), (Pb p Hp) by (first [apply Sa|apply Sb]; exact R). ring.
  - intros p Hp R. rewrite (loads_combine a b c ka kb SA SB SC P).
    rewrite (holding_add ext w (fun q => ka * solution ext w a q) (fun q => kb * solution ext w b q)), !holding_scal.
    rewrite (Ba p Hp), (Bb p Hp); [reflexivity| |]; intros R'; apply R; first [apply Sa; exact R'|apply Sb; exact R'].
Qed.

Lemma c106_reciprocal a b : solved ext w a -> solved ext w b -> symmetric_elements ext w -> same_supports ext w a b ->
  work_of w (load_at w a) (solution ext w b) = work_of w (load_at w b) (solution ext w a).
Proof.
  intros SA SB SY S. destruct (solved_facts a SA SY) as [Pa Ba]. destruct (solved_facts b SB SY) as [Pb Bb].
  rewrite <- (balanced_work a (solution ext w a) (solution ext w b)); [|apply (permitted_same b a); [intros q; symmetry; apply S|exact Pb]|exact Ba].
  rewrite <- (balanced_work b (solution ext w b) (solution ext w a)); [|apply (permitted_same a b _ S Pa)|exact Bb].
  apply energy_sym, stiff_sym, SY.
Qed.

(** Clapeyron: the loads do twice the strain energy as work. *)
Lemma c106_clapeyron c : solved ext w c -> symmetric_elements ext w ->
  work_of w (load_at w c) (solution ext w c) = energy ext w (solution ext w c) (solution ext w c).
Proof. intros S SY. destruct (solved_facts c S SY) as [P B]. symmetry. apply balanced_work; assumption. Qed.

(** ** C107: connection with a clamped node *)
Lemma props_pos_stiff p : props_pos p -> stiff_pos (props p).
Proof.
  unfold props_pos, stiff_pos, props. destruct p as [s|E mu A I2 I3 J rho]; cbn [EA GJ EI2 EI3];
    intros (H1 & H2 & H3 & H4 & H5 & H6); (split; [|split; [|split]]);
    try (apply Rmult_lt_0_compat; assumption); apply Rmult_lt_0_compat; try assumption; apply Rdiv_lt_0_compat; lra.
Qed.
Lemma props_pos_nonneg p : props_pos p -> props_nonneg p.
Proof. destruct p; cbn; lra. Qed.

Lemma along_inj ex ey ez v : frame ex ey ez -> along ex ey ez v = zero3 -> v = zero3.
Proof.
  intros F H. apply dot_ext. intros t. rewrite <- (along_dot ex ey ez t v F), H. unfold dot3, zero3; cbn [vx vy vz]; ring.
Qed.

Lemma lsum_zero_each {A} (g : A -> R) l : (forall x, In x l -> 0 <= g x) -> lsum (map g l) = 0 -> forall x, In x l -> g x = 0.
Proof.
  induction l as [|a l IH]; intros N Z x [].
  - subst a. cbn [map lsum] in Z. pose proof (N x (or_introl eq_refl)).
    pose proof (lsum_nonneg g l (fun y Hy => N y (or_intror Hy))). lra.
  - apply IH; [intros; apply N; right; assumption| |assumption]. cbn [map lsum] in Z.
    pose proof (N a (or_introl eq_refl)). pose proof (lsum_nonneg g l (fun y Hy => N y (or_intror Hy))). lra.
Qed.

Lemma node_block m k x q : good m -> In k (dkeys (f_nodes m)) -> nth_error (dkeys (f_nodes m)) (q / 6) = Some k ->
  disp_at x (num m k) = zero3 -> rot_at x (num m k) = zero3 -> x q = 0.
Proof.
  intros G Hk E D1 D2.
  assert (num m k = (q / 6)%nat) as N.
  { unfold dkeys in E. rewrite nth_error_map in E. destruct (nth_error (f_nodes m) (q / 6)) as [[k' n]|] eqn:E'; [|discriminate].
    injection E as <-. apply (num_nth m _ _ _ G E'). }
  rewrite N in *. clear N E Hk.
  pose proof (Nat.mod_upper_bound q 6 ltac:(discriminate)) as B. pose proof (Nat.div_mod q 6 ltac:(discriminate)) as Q.
  unfold disp_at, rot_at, zero3 in *. injection D1 as A0 A1 A2. injection D2 as A3 A4 A5.
  rewrite Q. destruct (q mod 6)%nat as [|[|[|[|[|[|]]]]]]; rewrite ?Nat.add_0_r; try assumption. lia.
Qed.

Lemma c107_clamped c m : assembled_model w = Some m -> stiffness ext w <> None ->
  (forall k b, In (k, b) (f_beams m) -> props_pos (b_prop b)) ->
  (f_shells m = [] \/ psd_kernels (x_ker ext) /\ (forall k s, In (k, s) (f_shells m) -> shell_admissible s)) ->
  (forall k n, In (k, n) (f_nodes m) -> carried ext w c m k) -> stable ext w c.
Proof.
  intros Hm HK PB PS CA x P Z.
  destruct (stiffness ext w) as [K|] eqn:EK; [clear HK|congruence].
  pose proof (assembled_good ext _ w m eq_refl NR Hm) as G.
  destruct (stiffness_inv ext (ops ++ [OpAssemble]) w m K eq_refl Hm EK) as (a & Ha & Ea & _ & W).
  rewrite (energy_form ext w m K x x Hm EK) in Z.
  rewrite (c21_energy ext (ops ++ [OpAssemble]) w m K x x eq_refl Hm EK) in Z.
  assert (NB : forall b, In b (dvals (f_beams m)) -> 0 <= beam_work m x x b).
  { intros b Hb. apply in_dvals_ex in Hb as [k Hk]. apply member_nonneg.
    - apply props_nonneg_stiff, props_pos_nonneg. eapply PB; exact Hk.
    - eapply beam_dist_pos. apply (wf_beam _ W), Hk. }
  assert (NS : 0 <= lsum (map (shell_work (x_ker ext) m x x) (dvals (f_shells m)))).
  { apply lsum_nonneg. intros s Hs. apply in_dvals_ex in Hs as [k Hk]. destruct PS as [E|[PK A]]; [rewrite E in Hk; destruct Hk|].
    unfold shell_work. apply (shell_form_psd (x_ker ext) s _ PK (A _ _ Hk)).
    eapply shell_nodes_34. apply (wf_shell _ W), Hk. }
  pose proof (lsum_nonneg _ _ NB) as NB'.
  assert (ZB : forall b, In b (dvals (f_beams m)) -> beam_work m x x b = 0).
  { apply lsum_zero_each; [exact NB|]. lra. }
  assert (NN : answer ext w OpNodeNames = RNames (dkeys (f_nodes m))).
  { destruct (assembled_now ext ops NR) as (_ & a' & Ha' & Em & _). fold w in Ha', Em.
    rewrite Ha in Ha'. apply some_inj in Ha'. subst a'. unfold answer; cbn [step snd]. rewrite <- Em, Ea. reflexivity. }
  (* the two ends of a member *)
  assert (EB : forall k b, In (k, b) (f_beams m) -> exists t r,
     let ex := axis_x (n_loc (b_ni b)) (n_loc (b_nj b)) in let ey := axis_y (n_loc (b_ni b)) (n_loc (b_nj b)) in
     let ez := axis_z (n_loc (b_ni b)) (n_loc (b_nj b)) in frame ex ey ez
     /\ ends_along ex ey ez (beam_ends m b x) = rigid_ends t r (distance (n_loc (b_ni b)) (n_loc (b_nj b)))).
  { intros k b Hb. pose proof (wf_beam _ W _ _ Hb) as OB.
    destruct (frame_axes _ _ _ (bo_csys _ _ _ OB)) as (F & _ & L).
    assert (I : In b (dvals (f_beams m))) by (unfold dvals; apply in_map_iff; exists (k, b); auto).
    specialize (ZB b I). unfold beam_work in ZB. apply member_zero in ZB as (t & r & E); [|apply props_pos_stiff; eapply PB; exact Hb|exact L].
    exists t, r. cbv zeta. split; [exact F|exact E]. }
  assert (ALL : forall k, carried ext w c m k -> In k (dkeys (f_nodes m)) ->
     disp_at x (num m k) = zero3 /\ rot_at x (num m k) = zero3).
  { intros k H. induction H as [k CL|k b Hb H IH|k b Hb H IH]; intros Hk.
    - apply In_nth_error in Hk as [i Hi].
      assert (num m k = i) as ->.
      { pose proof Hi as Hi'. unfold dkeys in Hi'. rewrite nth_error_map in Hi'. destruct (nth_error (f_nodes m) i) as [[k' n]|] eqn:E'; [|discriminate].
        injection Hi' as <-. apply (num_nth m _ _ _ G E'). }
      assert (X : forall j, (j < 6)%nat -> x (6 * i + j)%nat = 0).
      { intros j Hj. apply P.
        - unfold equations. rewrite Hm. apply nth_error_lt in Hi. unfold dkeys in Hi. rewrite map_length in Hi. unfold size. lia.
        - exists (dkeys (f_nodes m)), k, i, j. split; [exact NN|]. split; [exact Hi|]. split; [exact Hj|]. split; [reflexivity|apply CL, Hj]. }
      split; [unfold disp_at|unfold rot_at]; apply vec3_eq; cbn [vx vy vz zero3]; 
        first [exact (eq_trans (f_equal x (eq_sym (Nat.add_0_r _))) (X 0%nat ltac:(lia)))|apply X; lia].
    - destruct (good_ends m k b G Hb) as (C1 & C2). destruct (IH C2) as [D1 D2].
      destruct (EB k b Hb) as (t & r & F & E). unfold ends_along, beam_ends, ends_at, rigid_ends in E. cbn [d_i r_i d_j r_j] in E.
      pose proof (f_equal d_i E) as E1. pose proof (f_equal r_i E) as E2. pose proof (f_equal d_j E) as E3. pose proof (f_equal r_j E) as E4.
      clear E. cbn [d_i r_i d_j r_j] in E1, E2, E3, E4. rewrite D1, along_zero in E3. rewrite D2, along_zero in E4. rewrite <- E4 in E1, E2, E3.
      unfold moved in E1, E3. rewrite cross_zero, vadd_zero in E1, E3. rewrite <- E3 in E1.
      split; apply (along_inj _ _ _ _ F); assumption.
    - destruct (good_ends m k b G Hb) as (C1 & C2). destruct (IH C1) as [D1 D2].
      destruct (EB k b Hb) as (t & r & F & E). unfold ends_along, beam_ends, ends_at, rigid_ends in E. cbn [d_i r_i d_j r_j] in E.
      pose proof (f_equal d_i E) as E1. pose proof (f_equal r_i E) as E2. pose proof (f_equal d_j E) as E3. pose proof (f_equal r_j E) as E4.
      clear E. cbn [d_i r_i d_j r_j] in E1, E2, E3, E4. rewrite D1, along_zero in E1. rewrite D2, along_zero in E2. rewrite <- E2 in E1, E3, E4.
      unfold moved in E1, E3. rewrite cross_zero, vadd_zero in E1, E3. rewrite <- E1 in E3.
      split; apply (along_inj _ _ _ _ F); assumption. }
  intros q Hq. unfold equations in Hq. rewrite Hm in Hq. unfold size in Hq.
  assert (q / 6 < List.length (dkeys (f_nodes m)))%nat as B.
  { unfold dkeys. rewrite map_length. apply Nat.div_lt_upper_bound; [discriminate|exact Hq]. }
  destruct (nth_error (dkeys (f_nodes m)) (q / 6)) as [k|] eqn:E; [|apply nth_error_None in E; lia].
  assert (I : In k (dkeys (f_nodes m))) by (eapply nth_error_In; exact E).
  pose proof I as I'. unfold dkeys in I'. apply in_map_iff in I' as ([k' n] & Ek & I'). cbn in Ek. subst k'.
  destruct (ALL k (CA k n I') I) as [D1 D2]. apply (node_block m k x q G I E D1 D2).
Qed.
End Run.
