(** Answers of frames are those of beam theory (C119). *)
From Coq Require Import Reals Lra Lia List String Arith Bool ZArith Sorting.Permutation.
From Verif Require Import Base BaseFacts Csys Sections Element Load FeModel Assembly Solver Post Api
  SpecApi ApiFacts WfFacts HidFacts ApiProofs1 ApiProofs2 LoadFacts SpecElim ElimFacts SpecGeom CsysFacts SpecBeam BeamFacts MemberLoads AsmFacts SpecAsm AsmProofs
  AsmTotal AsmProofs2 SpecLoad LoadProofs AsmProofs3 SpecSolve AsmSolve SpecMass MassProofs ShellFacts SpecStatics StaticsProofs StaticsProofs2
  SpecTold ToldProofs SpecToldLoad ToldLoadProofs SpecPost PostProofs SpecSame SameProofs SameProofs2 StifferProofs SpecCut CutFacts CutProofs StaticsMain SpecTheory TheoryFacts.
Import ListNotations.
Local Open Scope R_scope.

(** ** Loads of a case on a member *)
Lemma dist_lin l k a1 a2 a3 a4 a5 a6 a7 a8 b1 b2 b3 b4 b5 b6 b7 b8 g x :
  dist_work l (k * a1 + b1) (k * a2 + b2) (k * a3 + b3) (k * a4 + b4) (k * a5 + b5) (k * a6 + b6) (k * a7 + b7) (k * a8 + b8) g x
  = k * dist_work l a1 a2 a3 a4 a5 a6 a7 a8 g x + dist_work l b1 b2 b3 b4 b5 b6 b7 b8 g x.
Proof. unfold dist_work, ramp_int, Rdiv. ring. Qed.
Lemma dist_none l g x : dist_work l 0 0 0 0 0 0 0 0 g x = 0.
Proof. unfold dist_work, ramp_int, Rdiv. ring. Qed.
Lemma dist_row row l g : l <> 0 -> beam_field g -> work12 (vnth (dist_f row l)) (ends_of_field g l)
  = dist_work l (nth 0 row 0) (nth 6 row 0) (nth 1 row 0) (nth 7 row 0) (nth 2 row 0) (nth 8 row 0) (nth 3 row 0) (nth 9 row 0) g l
    - dist_work l (nth 0 row 0) (nth 6 row 0) (nth 1 row 0) (nth 7 row 0) (nth 2 row 0) (nth 8 row 0) (nth 3 row 0) (nth 9 row 0) g 0.
Proof. intros L B. rewrite <- (dist_f_work l _ _ _ _ _ _ _ _ g L B). reflexivity. Qed.
Lemma conc_row row l g : l <> 0 -> beam_field g -> work12 (vnth (conc_f row l)) (ends_of_field g l)
  = point_work (V3 (nth 0 row 0) (nth 1 row 0) (nth 2 row 0)) (V3 (nth 3 row 0) (nth 4 row 0) (nth 5 row 0)) g (nth 6 row 0 * l).
Proof. intros L B. rewrite <- (conc_work _ _ _ _ _ _ _ l g L B). reflexivity. Qed.

Definition line_work (l : R) (e : nat -> R) (g : field) (x : R) : R :=
  dist_work l (e 0%nat) (e 6%nat) (e 1%nat) (e 7%nat) (e 2%nat) (e 8%nat) (e 3%nat) (e 9%nat) g x.
Lemma case_work (L : list (R * pattern)) k l g : l <> 0 -> beam_field g ->
  lsum (map (fun fp => fst fp * work12 (vnth (pat_beam_f (snd fp) k l)) (ends_of_field g l)) L)
  = (line_work l (fun i => lsum (map (fun fp => fst fp * load_entry (p_dist (snd fp)) k i) L)) g l
     - line_work l (fun i => lsum (map (fun fp => fst fp * load_entry (p_dist (snd fp)) k i) L)) g 0)
    + points_work g (flat_map (fun fp => match dget k (p_conc (snd fp)) with
                      | Some v => [PointLoad (nth 6 v 0 * l) (vscale (fst fp) (triple (p_conc (snd fp)) k 0)) (vscale (fst fp) (triple (p_conc (snd fp)) k 3))]
                      | None => [] end) L).
Proof.
  intros NL B. induction L as [|[f p] L IH].
  - unfold line_work, points_work; cbn [map lsum flat_map]. rewrite !dist_none. ring.
  - cbn [map lsum flat_map fst snd]. rewrite IH, beam_power. unfold line_work. rewrite !dist_lin.
    unfold points_work. rewrite map_app, lsum_app. fold (points_work g).
    assert (E1 : match dget k (p_dist p) with Some row => work12 (vnth (dist_f row l)) (ends_of_field g l) | None => 0 end
      = line_work l (load_entry (p_dist p) k) g l - line_work l (load_entry (p_dist p) k) g 0).
    { unfold line_work, load_entry. destruct (dget k (p_dist p)) as [row|]; [apply dist_row; assumption|]. rewrite !dist_none. ring. }
    rewrite E1. unfold line_work.
    assert (E2 : f * match dget k (p_conc p) with Some row => work12 (vnth (conc_f row l)) (ends_of_field g l) | None => 0 end
      = points_work g (match dget k (p_conc p) with
                      | Some v => [PointLoad (nth 6 v 0 * l) (vscale f (triple (p_conc p) k 0)) (vscale f (triple (p_conc p) k 3))]
                      | None => [] end)).
    { unfold points_work, triple, load_entry. destruct (dget k (p_conc p)) as [row|]; cbn [map lsum pt_x pt_F pt_M Nat.add]; [|ring].
      rewrite (conc_row row l g NL B). unfold point_work, dot3, vscale; cbn [vx vy vz]. ring. }
    rewrite Rmult_plus_distr_l, E2. unfold points_work. ring.
Qed.

(** ** Numbers and names *)
Lemma lsum_nothing l : (forall y, In y l -> y = 0) -> lsum l = 0.
Proof. induction l as [|y l IH]; intros H; [reflexivity|]. cbn [lsum]. rewrite (H y), IH; [ring| |left; reflexivity]. intros; apply H; right; assumption. Qed.
Lemma dot_global ex ey ez a v : dot3 a (along ex ey ez v) = dot3 (to_global ex ey ez a) v.
Proof. unfold along, to_global, dot3, vadd, vscale; cbn [vx vy vz]. ring. Qed.
Lemma unit_dot F M i i' j : (j < 6)%nat ->
  dot3 F (disp_at (delta (6 * i + j)) i') + dot3 M (rot_at (delta (6 * i + j)) i') = if Nat.eqb i' i then among F M j else 0.
Proof.
  intros Hj. unfold dot3, disp_at, rot_at, delta; cbn [vx vy vz].
  destruct (Nat.eqb_spec i' i) as [->|N].
  - do 6 (destruct j as [|j]; [repeat match goal with |- context[Nat.eqb ?a ?b] => destruct (Nat.eqb_spec a b); try lia end; cbn; ring|]). lia.
  - repeat match goal with |- context[Nat.eqb ?a ?b] => destruct (Nat.eqb_spec a b); try lia end. ring.
Qed.
Lemma among_add F M F' M' j : among (vadd F F') (vadd M M') j = among F M j + among F' M' j.
Proof. unfold among. do 6 (destruct j as [|j]; [reflexivity|]). destruct j; cbn; ring. Qed.
Lemma among_zero j : among zero3 zero3 j = 0.
Proof. unfold among. do 6 (destruct j as [|j]; [reflexivity|]). destruct j; reflexivity. Qed.
Lemma among_scale k F M j : among (vscale k F) (vscale k M) j = k * among F M j.
Proof. unfold among. do 6 (destruct j as [|j]; [reflexivity|]). destruct j; cbn; ring. Qed.
Lemma among_sum {A} (F M : A -> vec3) L j : among (vsum (map F L)) (vsum (map M L)) j = lsum (map (fun x => among (F x) (M x) j) L).
Proof. induction L as [|x L IH]; cbn [map vsum fold_right lsum]; [apply among_zero|]. rewrite <- IH, <- among_add. reflexivity. Qed.

Section Model.
Variables (m : fem).
Hypothesis G : good m.
Lemma same_number k k' : In k (dkeys (f_nodes m)) -> In k' (dkeys (f_nodes m)) -> Nat.eqb (num m k') (num m k) = String.eqb k' k.
Proof.
  intros H H'. pose proof (key_num m k G H) as E. pose proof (key_num m k' G H') as E'.
  destruct (String.eqb_spec k' k) as [->|N]; [apply Nat.eqb_refl|]. apply Nat.eqb_neq. intros X. rewrite X in E'. congruence.
Qed.
(** End actions against the unit displacement of one direction of one node. *)
Lemma acts_unit acts k j : In k (dkeys (f_nodes m)) -> (j < 6)%nat ->
  lsum (map (fun kb => let b := snd kb in let s := n_loc (b_ni b) in let e := n_loc (b_nj b) in
               ends_dot (acts (fst kb)) (ends_along (axis_x s e) (axis_y s e) (axis_z s e) (beam_ends m b (delta (6 * num m k + j))))) (f_beams m))
  = among (exerted_force m acts k) (exerted_moment m acts k) j.
Proof.
  intros Hk Hj. unfold exerted_force, exerted_moment. rewrite among_sum. apply lsum_map_ext. intros [i b] Hb. cbn [fst snd].
  destruct (good_ends m i b G Hb) as [C1 C2]. unfold ends_dot, ends_along, beam_ends, ends_at; cbn [d_i r_i d_j r_j]. rewrite !dot_global.
  rewrite among_add. pose proof (unit_dot (global_of b (d_i (acts i))) (global_of b (r_i (acts i))) (num m k) (num m (n_name (b_ni b))) j Hj) as E1.
  pose proof (unit_dot (global_of b (d_j (acts i))) (global_of b (r_j (acts i))) (num m k) (num m (n_name (b_nj b))) j Hj) as E2.
  rewrite (same_number k _ Hk C1) in E1. rewrite (same_number k _ Hk C2) in E2.
  assert (Z : among zero3 zero3 j = 0) by apply among_zero.
  unfold global_of in *. cbv zeta in *.
  destruct (String.eqb (n_name (b_ni b)) k), (String.eqb (n_name (b_nj b)) k); rewrite ?Z; lra.
Qed.
Lemma nodes_unit L k j : In k (dkeys (f_nodes m)) -> (j < 6)%nat ->
  lsum (map (fun fp : R * pattern => fst fp * lsum (map (node_power m (snd fp) (delta (6 * num m k + j))) (dkeys (f_nodes m)))) L)
  = among (vsum (map (fun fp => vscale (fst fp) (node_force (snd fp) k)) L)) (vsum (map (fun fp => vscale (fst fp) (node_moment (snd fp) k)) L)) j.
Proof.
  intros Hk Hj. rewrite among_sum. apply lsum_map_ext. intros [f p] _. cbn [fst snd]. rewrite among_scale. f_equal.
  assert (E : forall i, In i (dkeys (f_nodes m)) -> node_power m p (delta (6 * num m k + j)) i = if String.eqb i k then among (node_force p i) (node_moment p i) j else 0).
  { intros i Hi. unfold node_power. rewrite <- (same_number k i Hk Hi), <- (unit_dot (node_force p i) (node_moment p i) (num m k) (num m i) j Hj).
    unfold dot3. ring. }
  assert (N : NoDup (dkeys (f_nodes m))) by apply G.
  rewrite (lsum_map_ext _ (fun i => if String.eqb i k then among (node_force p k) (node_moment p k) j else 0)).
  2:{ intros i Hi. rewrite (E i Hi). destruct (String.eqb_spec i k) as [->|]; reflexivity. }
  clear E. revert N Hk. generalize (dkeys (f_nodes m)). induction l as [|i l IH]; intros N Hk; [destruct Hk|]. inversion N as [|? ? NI N']; subst. cbn [map lsum].
  destruct (String.eqb_spec i k) as [->|NE].
  - rewrite lsum_nothing; [ring|]. intros y Hy. apply in_map_iff in Hy as (z & <- & Hz). destruct (String.eqb_spec z k) as [->|]; [contradiction|reflexivity].
  - destruct Hk as [X|Hk]; [congruence|]. rewrite (IH N' Hk). ring.
Qed.
End Model.

(** ** The frame *)
Section Run.
Variable ext : externals.
Variable ops : list op.
Hypothesis NR : never_readds_nodes ext (ops ++ [OpAssemble]).
Let w := final ext init (ops ++ [OpAssemble]).
Variables (c : string) (m : fem) (K : coo).
Hypothesis Hm : assembled_model w = Some m.
Hypothesis HK : stiffness ext w = Some K.
Hypothesis HF : load_vector w c <> None.
Hypothesis NS : f_shells m = [].
Definition theory_at (U : nat -> R) (acts : string -> ends) (kb : string * beam) : Prop :=
  let b := snd kb in let s := n_loc (b_ni b) in let e := n_loc (b_nj b) in let l := distance s e in
    bar_theory (props (b_prop b)) l (case_line w c (fst kb) l) (case_points w c (fst kb) l)
      (ends_along (axis_x s e) (axis_y s e) (axis_z s e) (beam_ends m b U)) (acts (fst kb)).

Lemma member_balance U acts k b x : fem_wf m -> In (k, b) (f_beams m) -> theory_at U acts (k, b) ->
  let s := n_loc (b_ni b) in let e := n_loc (b_nj b) in
  ends_dot (acts k) (ends_along (axis_x s e) (axis_y s e) (axis_z s e) (beam_ends m b x))
  = beam_work m x U b - lsum (map (fun fp => fst fp * member_power m (snd fp) x (k, b)) (applied w c)).
Proof.
  intros W Hb T s e. unfold theory_at in T; cbn [fst snd] in T; cbv zeta in T. fold s e in T.
  pose proof (beam_dist_pos m k b (wf_beam _ W _ _ Hb)) as L. fold s e in L. set (l := distance s e) in *.
  set (d' := ends_along (axis_x s e) (axis_y s e) (axis_z s e) (beam_ends m b x)).
  pose proof (through_ends l d' ltac:(lra)) as TE. pose proof (through_beam l d') as TB. set (g := through l d') in *. clearbody g.
  assert (DW : forall y, derivable_pt_lim (line_work l (entry_sum w c k) g) y (power (case_line w c k l) g y)).
  { intros y. exact (dist_work_derivable l _ _ _ _ _ _ _ _ g y ltac:(lra)). }
  pose proof (bar_work _ _ _ _ _ _ _ g L TB DW T) as E. rewrite TE in E. rewrite E.
  unfold beam_work. fold s e. fold l. fold d'. rewrite (work_sym _ _ d').
  assert (P : lsum (map (fun fp => fst fp * member_power m (snd fp) x (k, b)) (applied w c))
    = lsum (map (fun fp => fst fp * work12 (vnth (pat_beam_f (snd fp) k l)) (ends_of_field g l)) (applied w c))).
  { rewrite TE. reflexivity. }
  rewrite P, (case_work (applied w c) k l g ltac:(lra) TB). unfold case_points, entry_sum. ring.
Qed.

(** What is out of balance at a node is what is out of balance in the equations. *)
Lemma node_balance U acts k j : (forall kb, In kb (f_beams m) -> theory_at U acts kb) -> In k (dkeys (f_nodes m)) -> (j < 6)%nat ->
  among (exerted_force m acts k) (exerted_moment m acts k) j - among (case_force w c k) (case_moment w c k) j
  = holding ext w U (6 * num m k + j) - load_at w c (6 * num m k + j).
Proof.
  intros T Hk Hj. pose proof (assembled_good ext _ w m eq_refl NR Hm) as G. set (q := (6 * num m k + j)%nat).
  destruct (load_applied ext ops c HF) as (m' & Hm' & LA). fold w in Hm', LA. assert (m' = m) as -> by congruence.
  rewrite (LA q).
  destruct (stiffness_inv ext (ops ++ [OpAssemble]) w m K eq_refl Hm HK) as (a & Ha & Ea & EK & W).
  assert (RK : coo_inrange (size m) (size m) K = true).
  { rewrite <- Ea. destruct (assemble_K_bil (x_ker ext) a K (fun _ => 0) (fun _ => 0)) as (_ & R); [rewrite Ea; exact W|exact EK|exact R]. }
  assert (HQ : holding ext w U q = lsum (map (beam_work m (delta q) U) (dvals (f_beams m)))).
  { rewrite (holding_row ext w m K U q Hm HK). rewrite (row_bil (size m) K U q RK), <- Ea.
    destruct (assemble_K_bil (x_ker ext) a K (delta q) U) as (-> & _); [rewrite Ea; exact W|exact EK|]. rewrite Ea, NS. cbn. ring. }
  rewrite HQ. unfold dvals. rewrite map_map. unfold pattern_power.
  rewrite <- (acts_unit m G acts k j Hk Hj). unfold case_force, case_moment. rewrite <- (nodes_unit m G (applied w c) k j Hk Hj). fold q.
  rewrite (lsum_map_ext (fun kb : string * beam => let b := snd kb in let s := n_loc (b_ni b) in let e := n_loc (b_nj b) in
               ends_dot (acts (fst kb)) (ends_along (axis_x s e) (axis_y s e) (axis_z s e) (beam_ends m b (delta q)))) (fun kb => beam_work m (delta q) U (snd kb)
     - lsum (map (fun fp => fst fp * member_power m (snd fp) (delta q) kb) (applied w c)))).
  2:{ intros [i b] Hb. exact (member_balance U acts i b (delta q) W Hb (T _ Hb)). }
  assert (SW : lsum (map (fun kb => lsum (map (fun fp => fst fp * member_power m (snd fp) (delta q) kb) (applied w c))) (f_beams m))
    = lsum (map (fun fp => fst fp * lsum (map (member_power m (snd fp) (delta q)) (f_beams m))) (applied w c))).
  { generalize (applied w c) as L. induction L as [|fp L IH]; cbn [map lsum].
    - apply lsum_nothing. intros y Hy. apply in_map_iff in Hy as (? & <- & _). reflexivity.
    - rewrite <- IH. rewrite lsum_plus. rewrite lsum_map_scal. reflexivity. }
  rewrite (lsum_map_ext (fun fp : R * pattern => fst fp * (lsum (map (node_power m (snd fp) (delta q)) (dkeys (f_nodes m))) + lsum (map (member_power m (snd fp) (delta q)) (f_beams m)))) (fun fp => fst fp * lsum (map (node_power m (snd fp) (delta q)) (dkeys (f_nodes m))) + fst fp * lsum (map (member_power m (snd fp) (delta q)) (f_beams m)))) by (intros; ring).
  rewrite lsum_plus, <- SW.
  assert (SUB : forall (f h : string * beam -> R) l, lsum (map (fun x => f x - h x) l) = lsum (map f l) - lsum (map h l)).
  { intros f h l. induction l as [|x l IH]; cbn; [ring|]. rewrite IH. ring. }
  rewrite SUB. ring.
Qed.
End Run.

Lemma ends_dot_eq e e' : (forall d, ends_dot e d = ends_dot e' d) -> e = e'.
Proof.
  intros H. destruct e as [[a1 a2 a3] [a4 a5 a6] [a7 a8 a9] [b1 b2 b3]], e' as [[c1 c2 c3] [c4 c5 c6] [c7 c8 c9] [d1 d2 d3]].
  assert (X : forall y1 y2 y3 y4 y5 y6 y7 y8 y9 z1 z2 z3, ends_dot (Ends (V3 a1 a2 a3) (V3 a4 a5 a6) (V3 a7 a8 a9) (V3 b1 b2 b3)) (Ends (V3 y1 y2 y3) (V3 y4 y5 y6) (V3 y7 y8 y9) (V3 z1 z2 z3))
    = ends_dot (Ends (V3 c1 c2 c3) (V3 c4 c5 c6) (V3 c7 c8 c9) (V3 d1 d2 d3)) (Ends (V3 y1 y2 y3) (V3 y4 y5 y6) (V3 y7 y8 y9) (V3 z1 z2 z3))) by (intros; apply H).
  clear H. unfold ends_dot, dot3 in X; cbn [d_i r_i d_j r_j vx vy vz] in X.
  pose proof (X 1 0 0 0 0 0 0 0 0 0 0 0). pose proof (X 0 1 0 0 0 0 0 0 0 0 0 0). pose proof (X 0 0 1 0 0 0 0 0 0 0 0 0). pose proof (X 0 0 0 1 0 0 0 0 0 0 0 0).
  pose proof (X 0 0 0 0 1 0 0 0 0 0 0 0). pose proof (X 0 0 0 0 0 1 0 0 0 0 0 0). pose proof (X 0 0 0 0 0 0 1 0 0 0 0 0). pose proof (X 0 0 0 0 0 0 0 1 0 0 0 0).
  pose proof (X 0 0 0 0 0 0 0 0 1 0 0 0). pose proof (X 0 0 0 0 0 0 0 0 0 1 0 0). pose proof (X 0 0 0 0 0 0 0 0 0 0 1 0). pose proof (X 0 0 0 0 0 0 0 0 0 0 0 1).
  clear X. repeat f_equal; lra.
Qed.
Lemma bar_unique s l w c k pts d e e' : 0 < l ->
  bar_theory s l (case_line w c k l) pts d e -> bar_theory s l (case_line w c k l) pts d e' -> e = e'.
Proof.
  intros L A B. apply ends_dot_eq. intros d'. rewrite <- (through_ends l d') by lra. pose proof (through_beam l d') as TB. set (g := through l d') in *. clearbody g.
  assert (DW : forall y, derivable_pt_lim (line_work l (entry_sum w c k) g) y (power (case_line w c k l) g y)).
  { intros y. exact (dist_work_derivable l _ _ _ _ _ _ _ _ g y ltac:(lra)). }
  rewrite (bar_work _ _ _ _ _ _ _ g L TB DW A), (bar_work _ _ _ _ _ _ _ g L TB DW B). reflexivity.
Qed.
Lemma choose_acts {A} (P : string * A -> ends -> Prop) (d : dict A) : NoDup (dkeys d) -> (forall kb, In kb d -> exists e, P kb e) ->
  exists acts : string -> ends, forall kb, In kb d -> P kb (acts (fst kb)).
Proof.
  induction d as [|[k b] d IH]; intros N H.
  - exists (fun _ => Ends zero3 zero3 zero3 zero3). intros ? [].
  - unfold dkeys in N; cbn [map fst] in N. inversion N as [|? ? NI N']; subst. destruct IH as (acts & Ha); [exact N'|intros; apply H; right; assumption|].
    destruct (H (k, b) (or_introl eq_refl)) as (e & He). exists (fun i => if String.eqb i k then e else acts i).
    intros [i b'] [E|I]; cbn [fst].
    + injection E as <- <-. rewrite String.eqb_refl. exact He.
    + destruct (String.eqb_spec i k) as [->|]; [|apply (Ha _ I)]. exfalso. apply NI. apply in_map_iff. exists (k, b'). auto.
Qed.

Lemma m119_answers ext ops c m : never_readds_nodes ext ops -> let w := final ext init (ops ++ [OpAssemble]) in
  solved ext w c -> assembled_model w = Some m -> f_shells m = [] ->
  (forall k b, In (k, b) (f_beams m) -> props_pos (b_prop b)) -> on_members w c m ->
  exists acts, frame_theory ext w c m (solution ext w c) acts.
Proof.
  intros NR w S Hm NS PP OM. pose proof (told_guard _ _ NR) as NR'.
  assert (SY : symmetric_elements ext w) by (intros m' Hm'; left; congruence).
  destruct (solved_facts ext ops NR' c S SY) as [P B]. fold w in P, B.
  pose proof (solved_loads ext ops NR' c S) as HF. fold w in HF.
  assert (exists K, stiffness ext w = Some K) as (K & HK).
  { destruct S as [S1 S2 S3]. destruct (c19_equilibrium_partial ext ops c NR' S1 S2 S3) as (_ & K & _ & _ & HK & _). eauto. }
  pose proof (assembled_good ext _ w m eq_refl NR' Hm) as G.
  destruct (choose_acts (fun kb e => theory_at ext ops c m (solution ext w c) (fun _ => e) kb) (f_beams m)) as (acts & HA).
  { apply G. }
  { intros [k b] Hb. unfold theory_at; cbn [fst snd]. fold w. set (l := distance (n_loc (b_ni b)) (n_loc (b_nj b))).
    pose proof (beam_dist_pos m k b (wf_beam _ (proj1 G) _ _ Hb)) as L. fold l in L.
    apply bar_exists; [apply props_pos_stiff, (PP k b Hb)|exact L|].
    intros q Hq. unfold case_points in Hq. apply in_flat_map in Hq as (fp & If & Hq). destruct (dget k (p_conc (snd fp))) as [v|] eqn:Ev; [|destruct Hq].
    destruct Hq as [<-|[]]. cbn [pt_x]. pose proof (OM k b fp v Hb If Ev) as [O1 O2]. split; [apply Rmult_le_pos; lra|]. rewrite <- (Rmult_1_l l) at 2. apply Rmult_le_compat_r; lra. }
  exists acts. split.
  - exact P.
  - intros k b Hb. exact (HA (k, b) Hb).
  - intros k n j Hn Hj NQ. assert (Ik : In k (dkeys (f_nodes m))) by (unfold dkeys; apply in_map_iff; exists (k, n); auto).
    pose proof (node_balance ext ops NR' c m K Hm HK HF NS (solution ext w c) acts k j HA Ik Hj) as E. fold w in E.
    pose proof (key_num m k G Ik) as KN. apply nth_error_lt in KN. unfold dkeys in KN. rewrite map_length in KN.
    rewrite (B (6 * num m k + j)%nat) in E; [lra| |exact NQ]. unfold equations. rewrite Hm. unfold size. lia.
Qed.
Lemma m119_unique ext ops c m U acts : never_readds_nodes ext ops -> let w := final ext init (ops ++ [OpAssemble]) in
  solved ext w c -> assembled_model w = Some m -> f_shells m = [] -> stable ext w c ->
  frame_theory ext w c m U acts -> forall q, (q < equations w)%nat -> solution ext w c q = U q.
Proof.
  intros NR w S Hm NS ST [TP TM TN] q Hq. pose proof (told_guard _ _ NR) as NR'.
  assert (SY : symmetric_elements ext w) by (intros m' Hm'; left; congruence).
  pose proof (solved_loads ext ops NR' c S) as HF. fold w in HF.
  assert (exists K, stiffness ext w = Some K) as (K & HK).
  { destruct S as [S1 S2 S3]. destruct (c19_equilibrium_partial ext ops c NR' S1 S2 S3) as (_ & K & _ & _ & HK & _). eauto. }
  pose proof (assembled_good ext _ w m eq_refl NR' Hm) as G.
  symmetry. refine (c106_unique ext ops NR' c U S SY ST TP _ q Hq). fold w.
  intros p Hp NP. unfold equations in Hp. rewrite Hm in Hp. unfold size in Hp.
  pose proof (Nat.mod_upper_bound p 6 ltac:(discriminate)) as MB. pose proof (Nat.div_mod p 6 ltac:(discriminate)) as DM.
  destruct (nth_error (f_nodes m) (p / 6)) as [[k n]|] eqn:E.
  2:{ apply nth_error_None in E. exfalso. assert (p / 6 < List.length (f_nodes m))%nat by (apply Nat.div_lt_upper_bound; lia). lia. }
  pose proof (num_nth m _ _ _ G E) as NU. apply nth_error_In in E.
  assert (Ik : In k (dkeys (f_nodes m))) by (unfold dkeys; apply in_map_iff; exists (k, n); auto).
  rewrite <- NU in DM. rewrite DM in NP |- *. specialize (TN k n _ E MB NP).
  assert (HA : forall kb, In kb (f_beams m) -> theory_at ext ops c m U acts kb) by (intros [i b] Hb; exact (TM i b Hb)).
  pose proof (node_balance ext ops NR' c m K Hm HK HF NS U acts k _ HA Ik MB) as EQ. fold w in EQ. lra.
Qed.
Lemma m119_actions ext ops c m U acts U' acts' : never_readds_nodes ext ops -> let w := final ext init (ops ++ [OpAssemble]) in
  solved ext w c -> assembled_model w = Some m -> f_shells m = [] -> stable ext w c ->
  frame_theory ext w c m U acts -> frame_theory ext w c m U' acts' -> forall k b, In (k, b) (f_beams m) -> acts k = acts' k.
Proof.
  intros NR w S Hm NS ST T T' k b Hb. pose proof (assembled_good ext _ w m eq_refl (told_guard _ _ NR) Hm) as G.
  pose proof (th_members _ _ _ _ _ _ T k b Hb) as A. pose proof (th_members _ _ _ _ _ _ T' k b Hb) as B. cbv zeta in A, B.
  assert (E : beam_ends m b U = beam_ends m b U').
  { assert (V : forall q, (q < equations w)%nat -> U q = U' q).
    { intros q Hq. rewrite <- (m119_unique ext ops c m U acts NR S Hm NS ST T q Hq). exact (m119_unique ext ops c m U' acts' NR S Hm NS ST T' q Hq). }
    destruct (good_ends m k b G Hb) as [C1 C2]. apply (key_num m _ G) in C1. apply (key_num m _ G) in C2.
    apply nth_error_lt in C1. apply nth_error_lt in C2. unfold dkeys in C1, C2. rewrite map_length in C1, C2.
    unfold equations in V. rewrite Hm in V. unfold size in V. unfold beam_ends, ends_at, disp_at, rot_at. rewrite !V by lia. reflexivity. }
  rewrite <- E in B. exact (bar_unique _ _ _ _ _ _ _ _ _ (beam_dist_pos m k b (wf_beam _ (proj1 G) _ _ Hb)) A B).
Qed.
