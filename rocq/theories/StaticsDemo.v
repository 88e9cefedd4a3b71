(** Concrete solved models: instances for C106 to C111.
    (Examples only; nothing here is part of the model.) *)
From Coq Require Import Reals Lra Lia List String Arith Bool ZArith Sorting.Permutation.
From Verif Require Import Base BaseFacts Csys Sections Element Load FeModel Assembly Solver Post Api
  SpecApi ApiFacts WfFacts HidFacts ApiProofs1 LoadFacts SpecElim ElimFacts SpecGeom CsysFacts SpecBeam BeamFacts AsmFacts SpecAsm AsmProofs
  AsmTotal AsmProofs2 SpecLoad LoadProofs AsmProofs3 SpecSolve AsmSolve Demo SolveDemo SpecStatics StaticsProofs StaticsProofs2 SameProofs SameProofs2.
Import ListNotations.
Local Open Scope string_scope.
Local Open Scope list_scope.
Local Open Scope R_scope.

(** A solver that looks for the solution in a list. *)
Definition tries_on (ker : kernels) (xs : list (list R)) : externals :=
  Ext ker (fun N A b => find (fun x => solvesb x N A b) xs) (fun N A b => find (fun x => solvesb x N A b) xs).
Definition tries (xs : list (list R)) : externals := tries_on zero_ker xs.
Lemma tries_exact ker xs : exact_solver (tries_on ker xs).
Proof. intros N A b y H. cbn [tries_on x_spsolve] in H. apply find_some in H as [_ H]. apply solvesb_true. exact H. Qed.

Lemma holding_energy ext w m K x q : assembled_model w = Some m -> stiffness ext w = Some K -> (q < size m)%nat ->
  holding ext w x q = energy ext w (delta q) x.
Proof.
  intros Hm HK Hq. unfold energy, work_of, equations. rewrite Hm.
  rewrite (rsum_ext _ _ (fun i => delta q i * holding ext w x i)) by (intros; ring). symmetry.
  rewrite (rsum_single _ q) by (auto; intros i _ N; rewrite delta_other by exact N; ring). rewrite delta_same. ring.
Qed.

Lemma tries_on_solved ker xs ops c d fixed0 u : let ext := tries_on ker xs in never_readds_nodes ext (ops ++ [OpAssemble]) ->
  let w := final ext init (ops ++ [OpAssemble]) in
  (forall m, assembled_model w = Some m -> (f_shells m = [] \/ symmetric_kernels ker) /\ forall k b, In (k, b) (f_beams m) -> 1 + poisson (b_prop b) <> 0) ->
  answer ext w (OpNodeRestraints (Some c)) = RFlags d -> names_nodes ext w (RFlags d) -> usable (RFlags d) ->
  permitted ext w c u -> balanced ext w c u ->
  (forall q, In q fixed0 <-> restrained_for ext w c q) -> In (map u (free (equations w) fixed0)) xs ->
  solved ext w c.
Proof.
  intros ext NR w HP HC HN US PU BU FX IN.
  split; [|apply tries_exact|fold w; rewrite HC; exact US].
  destruct (assembled_now ext ops NR) as (_ & a & Ha & Em & Eh & Ec & Wc & Hh & G & RD & _). fold w in Ha, Em, Eh, Ec, Wc, Hh, G.
  assert (Hm : assembled_model w = Some (a_model a)) by (unfold assembled_model; rewrite Ha; reflexivity).
  destruct (HP _ Hm) as [NS HPm'].
  assert (exists lc, dget c (a_cases a) = Some lc /\ c_rest lc = d) as (lc & Hlc & Ed).
  { unfold answer in HC; cbn [step] in HC. unfold ret in HC; cbn [snd] in HC. rewrite <- Ec in HC.
    destruct (dget c (a_cases a)) as [lc|]; cbn [bindO] in HC; [|discriminate]. injection HC as HC. eauto. }
  assert (HPm : forall k b, In (k, b) (f_beams (a_model a)) -> 1 + bp_mu (b_prop b) <> 0).
  { intros k b I. specialize (HPm' k b I). destruct (b_prop b); exact HPm'. }
  destruct (sem_tables ext ops w a c lc NR eq_refl Ha Hlc) as (A1 & A2 & A3 & T1 & T2 & Ga & CO & HO).
  destruct (assemble_K_total (x_ker ext) a Ga HPm) as (K & HK).
  destruct (assemble_f_total a c lc Ga Hlc CO HO HPm) as (f & HF).
  assert (exists r, rest_dofs (a_model a) (c_rest lc) = Some r) as (r & Hr).
  { destruct (rest_dofs_spec (a_model a) (c_rest lc) Ga (proj1 T2)) as (r & Hr & _); [|eauto].
    intros k fl I. split; [|eapply T2; exact I].
    destruct (HN d k eq_refl) as (l & Hl & Hin). { subst d. unfold dkeys. apply in_map_iff. exists (k, fl). auto. }
    rewrite A1 in Hl. injection Hl as <-. exact Hin. }
  assert (exists fixed, boundary_dofs a c = Some fixed) as (fixed & HB).
  { unfold boundary_dofs. rewrite Hlc. cbn [bindO]. destruct (c_rest lc); eauto. }
  assert (exists restr, expansion_dofs a c = Some restr) as (restr & HE).
  { unfold expansion_dofs, restraintDOF. rewrite Hlc. cbn [bindO]. rewrite Hr. cbn [bindO].
    destruct r; eauto. }
  destruct (boundary_sem ext ops w a c fixed NR eq_refl Ha HB) as (ND & S & B).
  destruct (expansion_sem ext ops w a c restr NR eq_refl Ha HE) as (ND' & B' & S' & _). rewrite HC in S'. specialize (S' US).
  assert (SZ : (node_count (a_model a) * 6)%nat = size (a_model a)) by (unfold size, node_count; lia).
  destruct (assemble_K_bil (x_ker ext) a K (fun _ => 0) (fun _ => 0) (proj1 Ga) HK) as (_ & RK).
  destruct (drop_matrix_free _ K fixed ND B RK) as (A0 & HM0 & _ & EA).
  destruct (c17_vector (size (a_model a)) f fixed _ (free_lists _ fixed)) as (_ & LV & DV).
  set (n := size (a_model a)) in *.
  assert (FF : free n fixed0 = free n fixed) by (apply free_same; intros q; rewrite FX, S; reflexivity).
  assert (FR : free n restr = free n fixed) by (apply free_same; intros q; rewrite S', S; reflexivity).
  unfold equations in IN. rewrite Hm in IN. fold n in IN. rewrite FF in IN. set (F := free n fixed) in *.
  assert (SO : exists x, find (fun x => solvesb x (List.length F) (symmetrise A0) (drop_vector n f fixed)) xs = Some x /\ List.length x = List.length F).
  { destruct (find _ xs) as [x|] eqn:E.
    - exists x. split; [reflexivity|]. apply find_some in E as [_ E]. apply solvesb_true in E as [E _]. exact E.
    - exfalso. pose proof (find_none _ _ E _ IN) as X. cbn beta in X. enough (Y : solvesb (map u F) (List.length F) (symmetrise A0) (drop_vector n f fixed) = true) by congruence.
      apply solvesb_true. split; [apply map_length|]. intros i Hi. rewrite DV by exact Hi.
      assert (IQ : In (nth i F O) F) by (apply nth_In, Hi). apply free_in in IQ as [Hq NQ].
      assert (NQ' : ~ restrained_for ext w c (nth i F O)) by (rewrite <- S; exact NQ).
      assert (HKs : stiffness ext w = Some K) by (unfold stiffness; rewrite Ha; exact HK).
      assert (HFs : load_vector w c = Some f) by (unfold load_vector; rewrite Ha; exact HF).
      assert (BQ : holding ext w u (nth i F O) = load_at w c (nth i F O)) by (apply BU; [unfold equations; rewrite Hm; exact Hq|exact NQ']).
      unfold load_at in BQ. rewrite HFs in BQ. rewrite <- BQ. rewrite (holding_row _ _ _ _ _ _ Hm HKs). unfold row. fold n.
      rewrite (rsum_free n fixed).
      + fold F. apply rsum_ext. intros j Hj. rewrite symmetrise_get, !EA by assumption.
        rewrite (nth_map_lt u F j Hj).
        rewrite (c22_symmetric ext (ops ++ [OpAssemble]) w (a_model a) K eq_refl Hm HKs NS (nth j F O) (nth i F O)). field.
      + intros p Hp. apply S in Hp as Hp'. rewrite (PU p); [ring| |exact Hp']. unfold equations. rewrite Hm. apply B, Hp. }
  destruct SO as (x & SX & LX).
  unfold answer. fold w. cbn [step]. unfold do_solve_static. rewrite Ha, HK. unfold solve_linear, reduced_system.
  rewrite HK. cbn [bindO]. rewrite HF. cbn [bindO]. rewrite HB. cbn [bindO]. rewrite SZ. fold n. rewrite HM0. cbn [bindO fst snd].
  rewrite LV, Nat.eqb_refl. cbn [bindO]. unfold ext at 1. cbn [tries_on x_spsolve]. fold F. rewrite SX. cbn [bindO].
  rewrite HE. cbn [bindO].
  destruct (expand_sort n restr x ND' B') as (d' & HE' & _); [rewrite FR; exact LX|]. rewrite HE'. reflexivity.
Qed.

Lemma tries_solved xs ops c d fixed0 u : let ext := tries xs in never_readds_nodes ext (ops ++ [OpAssemble]) ->
  let w := final ext init (ops ++ [OpAssemble]) in
  (forall m, assembled_model w = Some m -> f_shells m = [] /\ forall k b, In (k, b) (f_beams m) -> 1 + poisson (b_prop b) <> 0) ->
  answer ext w (OpNodeRestraints (Some c)) = RFlags d -> names_nodes ext w (RFlags d) -> usable (RFlags d) ->
  permitted ext w c u -> balanced ext w c u ->
  (forall q, In q fixed0 <-> restrained_for ext w c q) -> In (map u (free (equations w) fixed0)) xs ->
  solved ext w c.
Proof.
  intros ext NR w HP. apply (tries_on_solved zero_ker xs ops c d fixed0 u NR). intros m Hm. destruct (HP m Hm) as [A B]. auto.
Qed.

(** Displacements given by names that balance the loads by names. *)
Lemma balanced_named ext ops c m K y : never_readds_nodes ext (ops ++ [OpAssemble]) -> let w := final ext init (ops ++ [OpAssemble]) in
  assembled_model w = Some m -> stiffness ext w = Some K ->
  (forall x, (forall k j, In k (dkeys (f_nodes m)) -> (j < 6)%nat -> flag (governing ext w c) k j = true -> x k j = 0) ->
    energy ext w (spread m x) (spread m y) = work_of w (load_at w c) (spread m x)) -> balanced ext w c (spread m y).
Proof.
  intros NR w Hm HK H q Hq NQ. pose proof (assembled_good ext _ w m eq_refl NR Hm) as G.
  assert (Hq' : (q < size m)%nat) by (unfold equations in Hq; rewrite Hm in Hq; exact Hq).
  rewrite (holding_energy _ _ _ _ _ _ Hm HK Hq').
  assert (SD : forall p, (p < size m)%nat -> spread m (named m (delta q)) p = delta q p) by (intros; apply spread_named; assumption).
  specialize (H (named m (delta q))).
  assert (E1 : energy ext w (spread m (named m (delta q))) (spread m y) = energy ext w (delta q) (spread m y)).
  { unfold energy. apply work_ext. intros p Hp. unfold equations in Hp. rewrite Hm in Hp. rewrite (SD p Hp). reflexivity. }
  rewrite <- E1, H.
  - unfold work_of, equations. rewrite Hm. rewrite (rsum_single _ q); [rewrite (SD q Hq'), delta_same; ring|exact Hq'|].
    intros i Hi N. rewrite (SD i Hi), delta_other by exact N. ring.
  - intros k j Hk Hj F. unfold named. apply delta_other. intros E. apply NQ. exists (dkeys (f_nodes m)), k, (num m k), j.
    destruct (assembled_now ext ops NR) as (_ & a & Ha & Em & _). fold w in Ha, Em.
    assert (Emm : m = a_model a) by (unfold assembled_model in Hm; rewrite Ha in Hm; apply some_inj in Hm; auto).
    repeat split; auto; [|apply key_num; assumption]. rewrite Emm, Em. reflexivity.
Qed.

(** ** Bars between A and B, clamped at A, pulled at B along their axis *)
Definition tip (v : vec3) : string -> nat -> R := fun k j =>
  if String.eqb k "B" then nth j [vx v; vy v; vz v; 0; 0; 0] 0 else 0.

Section Bars.
Variables (ext : externals) (ops : list op) (c : string) (m : fem) (pA pB : vec3) (T dx : R) (K f : coo).
Hypothesis NR : never_readds_nodes ext (ops ++ [OpAssemble]).
Let w := final ext init (ops ++ [OpAssemble]).
Hypothesis Hm : assembled_model w = Some m.
Hypothesis HK : stiffness ext w = Some K.
Hypothesis HF : load_vector w c = Some f.
Hypothesis KA : In "A" (dkeys (f_nodes m)).
Hypothesis KB : In "B" (dkeys (f_nodes m)).
Hypothesis NS : f_shells m = [].
Hypothesis BE : forall k b, In (k, b) (f_beams m) -> n_name (b_ni b) = "A" /\ n_name (b_nj b) = "B" /\ n_loc (b_ni b) = pA /\ n_loc (b_nj b) = pB.
Hypothesis WS : well_separated pA pB.
Hypothesis FA : forall j, (j < 6)%nat -> flag (governing ext w c) "A" j = true.
Hypothesis LO : forall x, dvec x "A" = zero3 -> rvec x "A" = zero3 ->
  lsum (map (fun fp => fst fp * pattern_power m (snd fp) (spread m x)) (applied w c)) = T * dot3 (axis_x pA pB) (dvec x "B").
Hypothesis EQ : lsum (map (fun b => EA (props (b_prop b)) / distance pA pB) (dvals (f_beams m))) * dx = T.

Lemma bars_balanced : balanced ext w c (spread m (tip (vscale dx (axis_x pA pB)))).
Proof.
  pose proof (assembled_good ext _ w m eq_refl NR Hm) as G.
  apply (balanced_named ext ops c m K _ NR Hm HK). fold w. intros x P.
  assert (XA : dvec x "A" = zero3 /\ rvec x "A" = zero3).
  { split; apply vec3_eq; cbn; (apply P; [exact KA|lia|apply FA; lia]). }
  destruct XA as [XA RA].
  rewrite (energy_named ext _ w m K _ _ eq_refl Hm HK), NS. cbn [dvals map lsum]. rewrite Rplus_0_r.
  rewrite (work_named ext _ w m f c _ eq_refl Hm HF), (LO x XA RA), <- EQ.
  transitivity (dx * dot3 (axis_x pA pB) (dvec x "B") * lsum (map (fun b => EA (props (b_prop b)) / distance pA pB) (dvals (f_beams m)))); [|ring].
  rewrite <- lsum_map_scal. apply lsum_map_ext. intros b Hb. unfold dvals in Hb. apply in_map_iff in Hb as ([k b0] & E & Hb). cbn in E. subst b0.
  destruct (BE k b Hb) as (N1 & N2 & L1 & L2). unfold beam_work, beam_ends, ends_at. rewrite N1, N2, L1, L2.
  destruct (spread_disp m x _ G KA) as [-> ->]. destruct (spread_disp m x _ G KB) as [-> ->].
  destruct (spread_disp m (tip (vscale dx (axis_x pA pB))) _ G KA) as [-> ->]. destruct (spread_disp m (tip (vscale dx (axis_x pA pB))) _ G KB) as [-> ->].
  rewrite XA, RA.
  destruct (line_csys pA pB) as [cs|] eqn:EC; [|apply line_csys_none in EC; contradiction].
  destruct (frame_axes _ _ _ EC) as (((X1 & Y1 & Z1 & XY & YZ & ZX) & _) & _ & DP).
  assert (D0 : distance pA pB <> 0) by lra.
  set (ex := axis_x pA pB) in *. set (ey := axis_y pA pB) in *. set (ez := axis_z pA pB) in *.
  assert (T1 : dvec (tip (vscale dx ex)) "B" = vscale dx ex) by (apply vec3_eq; reflexivity).
  assert (T2 : rvec (tip (vscale dx ex)) "B" = zero3) by (apply vec3_eq; reflexivity).
  assert (T3 : dvec (tip (vscale dx ex)) "A" = zero3) by (apply vec3_eq; reflexivity).
  assert (T4 : rvec (tip (vscale dx ex)) "A" = zero3) by (apply vec3_eq; reflexivity).
  rewrite T1, T2, T3, T4.
  assert (A1 : along ex ey ez (vscale dx ex) = V3 dx 0 0).
  { unfold along. apply vec3_eq; cbn [vx vy vz].
    - transitivity (dx * dot3 ex ex); [unfold dot3, vscale; cbn [vx vy vz]; ring|]. rewrite X1. ring.
    - transitivity (dx * dot3 ex ey); [unfold dot3, vscale; cbn [vx vy vz]; ring|]. rewrite XY. ring.
    - transitivity (dx * dot3 ez ex); [unfold dot3, vscale; cbn [vx vy vz]; ring|]. rewrite ZX. ring. }
  assert (A0 : along ex ey ez zero3 = zero3) by (apply vec3_eq; unfold along, dot3; cbn; ring).
  unfold ends_along. cbn [d_i r_i d_j r_j]. rewrite A1, A0. unfold member_work, bend. cbn [d_i r_i d_j r_j vx vy vz zero3].
  replace (vx (along ex ey ez (dvec x "B"))) with (dot3 ex (dvec x "B")) by reflexivity. field. exact D0.
Qed.
End Bars.
