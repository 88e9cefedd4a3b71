(** Proofs about the load queries of patterns and cases. *)
From Coq Require Import Reals Lra Lia List String Arith Bool.
From Verif Require Import Base BaseFacts Csys Sections Element Load FeModel Assembly Solver Post Api SpecApi ApiFacts
  WfFacts HidFacts ApiProofs1 LoadFacts SpecGeom SpecBeam SpecAsm SpecLoad AsmTotal LoadProofs SpecPost.
Import ListNotations.
Local Open Scope R_scope.

(** ** C30 *)
Lemma pat_do_dist c p b : ~ line_load_on b c -> dget b (p_dist (pat_do c p)) = dget b (p_dist p).
Proof.
  destruct c as [n [[[[[a1 a2] a3] a4] a5] a6]|n [[[[[a1 a2] a3] a4] a5] a6]|b' pi pj q1 q2 q3 q4 t1 t2|b' [[[[[a1 a2] a3] a4] a5] a6] r];
    cbn; intros H; try reflexivity. apply dget_dset_neq. congruence.
Qed.
Lemma pat_run_dist l p b : (forall c, In c l -> ~ line_load_on b c) -> dget b (p_dist (pat_run l p)) = dget b (p_dist p).
Proof.
  revert p; induction l as [|c l IH]; intros p H; [reflexivity|]. cbn [pat_run]. rewrite IH by (intros; apply H; now right).
  apply pat_do_dist, H. now left.
Qed.
Lemma c30_line p b pi pj qi2 qj2 qi3 qj3 ti tj later :
  (forall c, In c later -> ~ line_load_on b c) ->
  exists v, pat_get_distributed (pat_run (PLineLoad b pi pj qi2 qj2 qi3 qj3 ti tj :: later) p) b = Some v
  /\ List.length v = 12%nat
  /\ nth 0 v 0 = pi /\ nth 1 v 0 = qi2 /\ nth 2 v 0 = qi3 /\ nth 3 v 0 = ti /\ nth 4 v 0 = 0 /\ nth 5 v 0 = 0
  /\ nth 6 v 0 = pj /\ nth 7 v 0 = qj2 /\ nth 8 v 0 = qj3 /\ nth 9 v 0 = tj /\ nth 10 v 0 = 0 /\ nth 11 v 0 = 0.
Proof.
  intros H. cbn [pat_run pat_do]. unfold pat_get_distributed. rewrite pat_run_dist by exact H.
  unfold pat_set_beam_dist; cbn [p_dist]. rewrite dget_dset_eq. eexists. split; [reflexivity|].
  repeat (split; [reflexivity|]). reflexivity.
Qed.
Lemma c30_point_other p b : pat_get_concentrated p b = pat_get_distributed p b.
Proof. reflexivity. Qed.
Lemma c30_refuted b F r : exists p, pat_get_concentrated (pat_run [PPointLoad b F r] p) b = None
  /\ exists q v, pat_get_concentrated (pat_run [PPointLoad b F r] q) b = Some v /\ List.length v = 12%nat.
Proof.
  destruct F as [[[[[a1 a2] a3] a4] a5] a6].
  exists (new_pattern "P"). split; [reflexivity|].
  exists (pat_run [PLineLoad b 1 1 1 1 1 1 1 1] (new_pattern "P")). cbn. rewrite String.eqb_refl. eexists; split; reflexivity.
Qed.

(** ** C31 *)
Definition grow (factor : R) (acc : option (list R)) (load : option (list R)) : option (list R) :=
  match load, acc with
  | None, _ => acc
  | Some f, Some old => Some (ladd old (lscale factor f))
  | Some _, None => Some (zeros 6)
  end.
Definition fill_step (c : lcase) (k : string) (acc2 : option (dict (list R))) (nl : string * list R) :=
  bindO acc2 (fun res2 =>
          match dget (fst nl) res2 with
          | Some old => bindO (dget k (c_factor c)) (fun factor =>
                        Some (dset (fst nl) (ladd old (lscale factor (snd nl))) res2))
          | None => Some (dset (fst nl) (zeros 6) res2)
          end).
Lemma fill_table c k factor tab : dget k (c_factor c) = Some factor -> NoDup (dkeys tab) -> forall res,
  exists t, fold_left (fill_step c k) tab (Some res) = Some t
  /\ forall n, dget n t = grow factor (dget n res) (dget n tab).
Proof.
  intros Hk. induction tab as [|[q f] tab IH]; intros ND res.
  - exists res. split; [reflexivity|]. intros n. reflexivity.
  - cbn [dkeys map fst] in ND. apply NoDup_cons_iff in ND as [NI ND]. cbn [fold_left].
    unfold fill_step at 2. cbn [bindO fst snd].
    assert (exists res', (match dget q res with
          | Some old => bindO (dget k (c_factor c)) (fun factor => Some (dset q (ladd old (lscale factor f)) res))
          | None => Some (dset q (zeros 6) res) end) = Some res'
          /\ forall n, dget n res' = if String.eqb n q then grow factor (dget q res) (Some f) else dget n res) as (res' & -> & R).
    { destruct (dget q res) as [old|] eqn:E; [rewrite Hk; cbn [bindO]|]; (eexists; split; [reflexivity|]; intros n; rewrite dget_dset; reflexivity). }
    destruct (IH ND res') as (t & T1 & T2). exists t. split; [exact T1|]. intros n. rewrite T2, R.
    cbn [dget]. destruct (String.eqb_spec n q) as [->|NE]; [|reflexivity].
    destruct (dget q tab) as [v|] eqn:E; [|reflexivity]. exfalso. apply NI. apply dget_some_in in E. apply (in_map fst) in E. exact E.
Qed.

(** patterns in order, each with its factor *)
Definition outer_step (heap : list pattern) (c : lcase) (acc : option (dict (list R))) (kv : string * nat) :=
  bindO acc (fun res => bindO (nth_error heap (snd kv)) (fun pat => fold_left (fill_step c (fst kv)) (p_nodal pat) (Some res))).
Definition grown (n : string) (L : list (R * pattern)) (acc : option (list R)) : option (list R) :=
  fold_left (fun acc fp => grow (fst fp) acc (dget n (p_nodal (snd fp)))) L acc.
Lemma fill_all heap c pats L : heap_ok heap ->
  Forall2 (fun kv fp => dget (fst kv) (c_factor c) = Some (fst fp) /\ nth_error heap (snd kv) = Some (snd fp)) pats L ->
  forall res, exists t, fold_left (outer_step heap c) pats (Some res) = Some t /\ forall n, dget n t = grown n L (dget n res).
Proof.
  intros HO H. induction H as [|kv fp pats L [H1 H2] _ IH]; intros res.
  - exists res. split; reflexivity.
  - cbn [fold_left]. unfold outer_step at 2. cbn [bindO]. rewrite H2. cbn [bindO].
    destruct (HO _ _ H2) as (_ & _ & _ & _ & ND & _).
    destruct (fill_table c (fst kv) (fst fp) (p_nodal (snd fp)) H1 ND res) as (r1 & E1 & R1). rewrite E1.
    destruct (IH r1) as (t & T1 & T2). exists t. split; [exact T1|]. intros n. rewrite T2, R1. reflexivity.
Qed.

Lemma grown_some n L : (forall fp, In fp L -> pat_ok (snd fp)) -> forall v, List.length v = 6%nat ->
  exists e, grown n L (Some v) = Some e /\ List.length e = 6%nat
  /\ forall i, nth i e 0 = nth i v 0 + lsum (map (fun fp => fst fp * load_entry (p_nodal (snd fp)) n i) L).
Proof.
  induction L as [|fp L IH]; intros OK v Hv.
  - exists v. split; [reflexivity|]. split; [exact Hv|]. intros i. cbn. lra.
  - unfold grown. cbn [fold_left map lsum]. unfold load_entry at 1. destruct (dget n (p_nodal (snd fp))) as [f|] eqn:E; cbn [grow].
    + destruct (OK fp (or_introl eq_refl)) as (W & _). pose proof (W _ _ (dget_some_in _ _ _ E)) as Lf.
      destruct (IH (fun fp' H => OK fp' (or_intror H)) (ladd v (lscale (fst fp) f))) as (e & E1 & E2 & E3).
      { rewrite ladd_length; rewrite ?lscale_length; lia. }
      exists e. split; [exact E1|]. split; [exact E2|]. intros i. rewrite E3, ladd_nth, lscale_nth by (rewrite lscale_length; lia). lra.
    + destruct (IH (fun fp' H => OK fp' (or_intror H)) v Hv) as (e & E1 & E2 & E3).
      exists e. split; [exact E1|]. split; [exact E2|]. intros i. rewrite E3. lra.
Qed.
Lemma grown_skip n pre L acc : (forall fp, In fp pre -> ~ loads_node n (snd fp)) -> grown n (pre ++ L) acc = grown n L acc.
Proof.
  revert acc; induction pre as [|fp pre IH]; intros acc H; [reflexivity|]. cbn [app]. unfold grown. cbn [fold_left].
  replace (grow (fst fp) acc (dget n (p_nodal (snd fp)))) with acc.
  - apply IH. intros; apply H; now right.
  - destruct (dget n (p_nodal (snd fp))) eqn:E; [|reflexivity]. exfalso. apply (H fp (or_introl eq_refl)).
    apply dget_some_in in E. apply (in_map fst) in E. exact E.
Qed.

Lemma pats_applied heap k c : case_ok heap k c ->
  Forall2 (fun kv fp => dget (fst kv) (c_factor c) = Some (fst fp) /\ nth_error heap (snd kv) = Some (snd fp))
    (c_pats c) (applied_in heap c).
Proof.
  intros OK. unfold applied_in. destruct OK as [_ ND PK _ CP _ _ _].
  assert (NDP : NoDup (dkeys (c_pats c))) by (rewrite PK; exact ND).
  assert (G : forall P F, dkeys P = dkeys F -> incl P (c_pats c) -> incl F (c_factor c) ->
    Forall2 (fun kv fp => dget (fst kv) (c_factor c) = Some (fst fp) /\ nth_error heap (snd kv) = Some (snd fp)) P
      (flat_map (fun kf => match dget (fst kf) (c_pats c) with
                      | Some ad => match nth_error heap ad with Some p => [(snd kf, p)] | None => [] end
                      | None => [] end) F)).
  { induction P as [|[k1 a] P IH]; intros [|[k2 f] F] E IP IF; try discriminate; [constructor|].
    cbn [dkeys map fst] in E. injection E as E1 E2. subst k2. cbn [flat_map fst].
    rewrite (in_dget_nodup _ _ _ NDP (IP _ (or_introl eq_refl))).
    destruct (CP _ _ (IP _ (or_introl eq_refl))) as (pt & Hpt & _). rewrite Hpt. cbn [app snd]. constructor.
    - cbn [fst snd]. split; [|exact Hpt]. apply (in_dget_nodup _ _ _ ND). apply IF. now left.
    - apply IH; [exact E2|intros x Hx; apply IP; now right|intros x Hx; apply IF; now right]. }
  apply G; [exact PK|apply incl_refl|apply incl_refl].
Qed.

Lemma case_load_applied heap k c n : case_ok heap k c -> heap_ok heap ->
  exists v, case_nodal_f heap c n 0 = Some v /\ List.length v = 6%nat
  /\ forall i, nth i v 0 = lsum (map (fun fp => fst fp * load_entry (p_nodal (snd fp)) n i) (applied_in heap c)).
Proof.
  intros OK HO.
  destruct (case_nodal_f_sum heap c n 0) as (v & E1 & E2 & E3).
  - intros p Hp. destruct (case_deref _ _ _ OK HO p Hp) as (pat & D & W & _). exists pat. auto.
  - intros p Hp. apply (case_curve _ _ _ 0%nat OK); auto.
  - exists v. split; [exact E1|]. split; [exact E2|]. intros i. rewrite E3.
    rewrite <- (lsum_applied heap c (fun p => nodal_comp heap c n i p) (fun p => load_entry (p_nodal p) n i)).
    + apply lsum_map_ext. intros kv Hkv. assert (Hk : In (fst kv) (dkeys (c_factor c))) by (apply (in_map fst) in Hkv; exact Hkv).
      destruct (case_curve _ _ _ 0%nat OK ltac:(lia) _ Hk) as (_ & ->). ring.
    + intros p Hp. destruct (case_deref _ _ _ OK HO p Hp) as (pat & D & _). exists pat. split; [exact D|].
      unfold nodal_comp. rewrite D. reflexivity.
Qed.

Lemma c31_table_partial ext ops c lc : let w := final ext init ops in
  dget c (k_cases (w_core w)) = Some lc ->
  exists t, case_nodal_f_dict (k_heap (w_core w)) lc = Some t
  /\ forall n, exists v, case_load w c n = Some v /\ List.length v = 6%nat
     /\ ((forall fp, In fp (applied_in (k_heap (w_core w)) lc) -> ~ loads_node n (snd fp)) ->
         dget n t = None /\ v = zeros 6)
     /\ (forall pre f p post, applied_in (k_heap (w_core w)) lc = pre ++ (f, p) :: post ->
         (forall fp, In fp pre -> ~ loads_node n (snd fp)) -> loads_node n p ->
         exists e, dget n t = Some e /\ List.length e = 6%nat
           /\ forall i, nth i v 0 = nth i e 0 + f * load_entry (p_nodal p) n i).
Proof.
  intros w Hc. destruct (whp_reach ext ops) as ((W & HO) & _). fold w in W, HO.
  pose proof (cw_cases _ W _ _ (dget_some_in _ _ _ Hc)) as OK.
  assert (POK : forall fp, In fp (applied_in (k_heap (w_core w)) lc) -> pat_ok (snd fp)).
  { intros fp Hfp. unfold applied_in in Hfp. apply in_flat_map in Hfp as (kf & _ & Hfp).
    destruct (dget (fst kf) (c_pats lc)) as [ad|]; [|easy]. destruct (nth_error _ ad) as [p|] eqn:E; [|easy].
    destruct Hfp as [<-|[]]. apply (HO _ _ E). }
  destruct (fill_all (k_heap (w_core w)) lc _ _ HO (pats_applied _ _ _ OK) []) as (t & T1 & T2).
  exists t. split; [exact T1|]. intros n.
  destruct (case_load_applied _ _ _ n OK HO) as (v & V1 & V2 & V3). exists v.
  split; [unfold case_load; rewrite Hc; exact V1|]. split; [exact V2|]. split.
  - intros H. split.
    + rewrite T2. rewrite <- (app_nil_r (applied_in _ _)). rewrite grown_skip by exact H. reflexivity.
    + apply list_eq_nth; [rewrite zeros_length; exact V2|]. intros i _. rewrite V3, zeros_nth. apply lsum_zero.
      intros fp Hfp. unfold load_entry. destruct (dget n (p_nodal (snd fp))) eqn:E; [|ring]. exfalso. apply (H fp Hfp).
      apply dget_some_in in E. apply (in_map fst) in E. exact E.
  - intros pre f p post E NP LP.
    assert (EG : dget n t = grown n post (Some (zeros 6))).
    { rewrite T2, E, grown_skip by exact NP. unfold grown. cbn [fold_left fst snd].
      destruct (dget n (p_nodal p)) eqn:Ep; [reflexivity|]. exfalso. apply in_map_iff in LP as ([k0 v0] & <- & LP).
      apply dget_none_notin in Ep. apply Ep. apply (in_map fst) in LP. exact LP. }
    destruct (grown_some n post (fun fp H => POK fp ltac:(rewrite E; apply in_or_app; right; right; exact H)) (zeros 6) (zeros_length 6)) as (e & E1 & E2 & E3).
    exists e. split; [congruence|]. split; [exact E2|]. intros i. rewrite V3, E3, E, zeros_nth, map_app, lsum_app. cbn [map lsum fst snd].
    rewrite (lsum_zero _ pre); [lra|]. intros fp Hfp. unfold load_entry. destruct (dget n (p_nodal (snd fp))) eqn:E4; [|ring]. exfalso. apply (NP fp Hfp).
      apply dget_some_in in E4. apply (in_map fst) in E4. exact E4.
Qed.

Lemma c31_refuted ext : exists ops c lc n t e v, let w := final ext init ops in
  dget c (k_cases (w_core w)) = Some lc /\ case_nodal_f_dict (k_heap (w_core w)) lc = Some t
  /\ dget n t = Some e /\ case_load w c n = Some v /\ e <> v.
Proof.
  exists [OpAddPattern "P"; OpSetNodalLoad "P" "A" (1, 0, 0, 0, 0, 0); OpAddStatic "S"; OpAddCasePattern "S" "P" 2]%string.
  exists "S"%string. eexists. exists "A"%string. do 3 eexists. cbn zeta.
  split; [reflexivity|]. split; [reflexivity|]. split; [reflexivity|]. split; [reflexivity|].
  cbn. intros E. injection E as E _. lra.
Qed.

(** ** C32 *)
Definition curve_max (cs : list (list R * list R)) (m : nat) : nat :=
  fold_left (fun m cv => Nat.max (List.length (snd cv)) m) cs m.
Lemma curve_max_ge cs : forall m, (m <= curve_max cs m)%nat /\ forall cv, In cv cs -> (List.length (snd cv) <= curve_max cs m)%nat.
Proof.
  induction cs as [|cv cs IH]; intros m; [split; [apply le_n|easy]|].
  cbn [curve_max fold_left]. fold (curve_max cs (Nat.max (List.length (snd cv)) m)).
  destruct (IH (Nat.max (List.length (snd cv)) m)) as (H1 & H2). split; [lia|].
  intros cv' [<-|H]; [lia|]. apply H2, H.
Qed.
Lemma curve_max_in cs : forall m, curve_max cs m = m \/ exists cv, In cv cs /\ List.length (snd cv) = curve_max cs m.
Proof.
  induction cs as [|cv cs IH]; intros m; [left; reflexivity|].
  cbn [curve_max fold_left]. fold (curve_max cs (Nat.max (List.length (snd cv)) m)).
  destruct (IH (Nat.max (List.length (snd cv)) m)) as [E|(cv' & H1 & H2)].
  - destruct (Nat.max_spec (List.length (snd cv)) m) as [[_ M]|[_ M]].
    + left. rewrite E. exact M.
    + right. exists cv. split; [now left|]. rewrite E. lia.
  - right. exists cv'. split; [now right|exact H2].
Qed.
Lemma longest_max c L : longest c L -> L = curve_max (dvals (c_curve c)) O.
Proof.
  intros (H1 & H2 & H3). destruct (curve_max_ge (dvals (c_curve c)) O) as (_ & G).
  destruct (c_curve c) as [|[k0 cv0] r] eqn:E.
  - rewrite H2 by reflexivity. reflexivity.
  - destruct H3 as (k & cv & HI & HL); [discriminate|].
    assert (L <= curve_max (dvals ((k0, cv0) :: r)) 0)%nat by (rewrite <- HL; apply G; unfold dvals; apply (in_map snd) in HI; exact HI).
    destruct (curve_max_in (dvals ((k0, cv0) :: r)) O) as [E0|(cv' & HI' & HL')]; [lia|].
    unfold dvals in HI'. apply in_map_iff in HI' as ([k' x] & Ex & HI'). cbn [snd] in Ex; subst x.
    specialize (H1 _ _ HI'). lia.
Qed.

Lemma add_outer_rows fn crv f factor fn' : add_outer fn crv f factor = Some fn' -> (List.length crv <> 1%nat \/ List.length fn = 1%nat) ->
  List.length crv = List.length fn /\ List.length fn' = List.length fn
  /\ forall t, (t < List.length fn)%nat -> nth t fn' [] = ladd (nth t fn []) (lscale factor (lscale (nth t crv 0) f)).
Proof.
  unfold add_outer. destruct (Nat.eqb_spec (List.length crv) (List.length fn)) as [E|NE]; intros H D.
  - injection H as <-. split; [exact E|]. split; [rewrite map_length, combine_length; lia|].
    intros t Ht. set (g := fun rw : list R * R => ladd (fst rw) (lscale factor (lscale (snd rw) f))).
    rewrite (nth_indep _ [] (g ([], 0))) by (rewrite map_length, combine_length; lia). rewrite map_nth, combine_nth by lia. reflexivity.
  - destruct crv as [|w [|? ?]]; try discriminate. exfalso. cbn in *. destruct D; lia.
Qed.

Definition hist_step heap c n (acc : option (list (list R))) pname :=
      bindO acc (fun fn =>
      bindO (deref heap c pname) (fun pat =>
      bindO (dget pname (c_factor c)) (fun factor =>
      bindO (dget pname (c_curve c)) (fun curve =>
      match pat_nodal_f pat n with
      | None => Some fn
      | Some f => add_outer fn (snd curve) f factor
      end)))).
Definition inst_step heap c n t (acc : option (list R)) (kv : string * R) :=
      bindO acc (fun fn =>
      bindO (deref heap c (fst kv)) (fun pat =>
      match pat_nodal_f pat n with
      | None => Some fn
      | Some f =>
          bindO (dget (fst kv) (c_curve c)) (fun curve =>
          bindO (nth_error (snd curve) t) (fun w =>
          Some (ladd fn (lscale w (lscale (snd kv) f)))))
      end)).
Lemma hist_none heap c n l : fold_left (hist_step heap c n) l None = None.
Proof. apply fold_none. reflexivity. Qed.
Lemma lscale_comm a b v : lscale a (lscale b v) = lscale b (lscale a v).
Proof. unfold lscale. rewrite !map_map. apply map_ext. intros; ring. Qed.

Lemma hist_fold heap c n L : forall l fn rows,
  (forall k v, In (k, v) l -> dget k (c_factor c) = Some v) ->
  (forall k p cv, In k (dkeys l) -> deref heap c k = Some p -> dget k (c_curve c) = Some cv -> loads_node n p ->
     List.length (snd cv) <> 1%nat \/ L = 1%nat) ->
  List.length fn = L ->
  fold_left (hist_step heap c n) (dkeys l) (Some fn) = Some rows ->
  List.length rows = L
  /\ (forall t, (t < L)%nat -> fold_left (inst_step heap c n t) l (Some (nth t fn [])) = Some (nth t rows []))
  /\ (forall k p cv, In k (dkeys l) -> deref heap c k = Some p -> dget k (c_curve c) = Some cv -> loads_node n p -> List.length (snd cv) = L).
Proof.
  induction l as [|[k v] l IH]; intros fn rows HF H1 HL HR.
  - cbn in HR. injection HR as <-. split; [exact HL|]. split; [reflexivity|]. easy.
  - cbn [dkeys map fst fold_left] in HR. unfold hist_step at 2 in HR. cbn [bindO] in HR.
    destruct (deref heap c k) as [p|] eqn:ED; cbn [bindO] in HR; [|rewrite hist_none in HR; discriminate].
    rewrite (HF k v (or_introl eq_refl)) in HR. cbn [bindO] in HR.
    destruct (dget k (c_curve c)) as [cv|] eqn:EC; cbn [bindO] in HR; [|rewrite hist_none in HR; discriminate].
    unfold pat_nodal_f in HR. destruct (dget n (p_nodal p)) as [f|] eqn:EF.
    + destruct (add_outer fn (snd cv) f v) as [fn'|] eqn:EA; [|rewrite hist_none in HR; discriminate].
      assert (LN : loads_node n p) by (apply dget_some_in in EF; apply (in_map fst) in EF; exact EF).
      destruct (add_outer_rows _ _ _ _ _ EA) as (A1 & A2 & A3).
      { rewrite HL. apply (H1 k p cv); auto. now left. }
      destruct (IH fn' rows) as (B1 & B2 & B3); [intros; apply HF; now right|intros k0 p0 cv0 Hk; apply H1; now right|lia|exact HR|].
      split; [exact B1|]. split.
      * intros t Ht. cbn [fold_left]. unfold inst_step at 2. cbn [bindO fst snd]. rewrite ED. cbn [bindO]. unfold pat_nodal_f. rewrite EF, EC. cbn [bindO].
        rewrite (nth_error_nth' (snd cv) 0) by lia. cbn [bindO]. rewrite <- (B2 t Ht), A3 by lia. rewrite lscale_comm. reflexivity.
      * intros k0 p0 cv0 [<-|Hk] D C N; [|apply (B3 k0 p0 cv0); auto]. cbn [fst] in *. congruence.
    + destruct (IH fn rows) as (B1 & B2 & B3); [intros; apply HF; now right|intros k0 p0 cv0 Hk; apply H1; now right|lia|exact HR|].
      split; [exact B1|]. split.
      * intros t Ht. cbn [fold_left]. unfold inst_step at 2. cbn [bindO fst snd]. rewrite ED. cbn [bindO]. unfold pat_nodal_f. rewrite EF. apply B2, Ht.
      * intros k0 p0 cv0 [<-|Hk] D C N; [|apply (B3 k0 p0 cv0); auto]. cbn [fst] in *. exfalso.
        assert (p0 = p) by congruence. subst p0. apply dget_none_notin in EF. apply EF. exact N.
Qed.

Lemma nth_repeat_in {A} (x d : A) n t : (t < n)%nat -> nth t (repeat x n) d = x.
Proof. revert t; induction n; intros [|t] H; cbn; try lia; auto. apply IHn. lia. Qed.

Lemma c32_rows_partial heap c n rows L : NoDup (map fst (c_factor c)) -> longest c L ->
  (forall k p factor values, history_of heap c k p factor values -> loads_node n p -> List.length values <> 1%nat \/ L = 1%nat) ->
  case_nodal_f_history heap c n = Some rows ->
  List.length rows = L
  /\ (forall t, (t < L)%nat -> case_nodal_f heap c n t = Some (nth t rows []))
  /\ (forall k p factor values, history_of heap c k p factor values -> loads_node n p -> List.length values = L).
Proof.
  intros ND HL H1 HR. unfold case_nodal_f_history in HR. fold (curve_max (dvals (c_curve c)) O) in HR. rewrite <- (longest_max _ _ HL) in HR.
  destruct (hist_fold heap c n L (c_factor c) (repeat (zeros 6) L) rows) as (B1 & B2 & B3).
  - intros k v Hk. apply in_dget_nodup; auto.
  - intros k p [times values] Hk D C N. unfold dkeys in Hk. apply in_map_iff in Hk as ([k0 v] & E & Hk). cbn in E; subst k0.
    cbn [snd]. unfold deref in D. apply bindO_some in D as (a & D1 & D2).
    apply (H1 k p v values); [|exact N]. split; [exact Hk|]. exists a, times. auto.
  - apply repeat_length.
  - exact HR.
  - split; [exact B1|]. split.
    + intros t Ht. rewrite <- (B2 t Ht). rewrite nth_repeat_in by exact Ht. reflexivity.
    + intros k p factor values (Hk & a & times & D1 & D2 & C) N. apply (B3 k p (times, values)); auto.
      * apply (in_map fst) in Hk. exact Hk.
      * unfold deref. rewrite D1. exact D2.
Qed.

Lemma hist_accept heap c n L : forall l fn,
  (forall k v, In (k, v) l -> dget k (c_factor c) = Some v) ->
  (forall k, In k (dkeys l) -> exists p cv, deref heap c k = Some p /\ dget k (c_curve c) = Some cv /\ (loads_node n p -> List.length (snd cv) = L)) ->
  List.length fn = L -> exists rows, fold_left (hist_step heap c n) (dkeys l) (Some fn) = Some rows.
Proof.
  induction l as [|[k v] l IH]; intros fn HF H HL; [exists fn; reflexivity|].
  cbn [dkeys map fst fold_left]. unfold hist_step at 2. cbn [bindO].
  destruct (H k (or_introl eq_refl)) as (p & cv & -> & -> & N). cbn [bindO]. rewrite (HF k v (or_introl eq_refl)). cbn [bindO].
  unfold pat_nodal_f. destruct (dget n (p_nodal p)) as [f|] eqn:EF.
  - assert (LN : loads_node n p) by (apply dget_some_in in EF; apply (in_map fst) in EF; exact EF).
    unfold add_outer. rewrite (N LN), HL, Nat.eqb_refl. apply IH; [intros; apply HF; now right|intros; apply H; now right|].
    rewrite map_length, combine_length, (N LN). lia.
  - apply IH; [intros; apply HF; now right|intros; apply H; now right|exact HL].
Qed.
Lemma c32_defined heap c n L : NoDup (map fst (c_factor c)) -> longest c L ->
  (forall k v, In (k, v) (c_factor c) -> exists p values, history_of heap c k p v values /\ (loads_node n p -> List.length values = L)) ->
  exists rows, case_nodal_f_history heap c n = Some rows.
Proof.
  intros ND HL H. unfold case_nodal_f_history. fold (curve_max (dvals (c_curve c)) O). rewrite <- (longest_max _ _ HL).
  apply (hist_accept heap c n L (c_factor c)).
  - intros k v Hk. apply in_dget_nodup; auto.
  - intros k Hk. unfold dkeys in Hk. apply in_map_iff in Hk as ([k0 v] & E & Hk). cbn in E; subst k0.
    destruct (H k v Hk) as (p & values & (_ & a & times & D1 & D2 & C) & N). exists p, (times, values).
    unfold deref. rewrite D1. cbn [bindO]. auto.
  - apply repeat_length.
Qed.
Lemma c32_rejected heap c n k p factor values L : NoDup (map fst (c_factor c)) -> longest c L ->
  history_of heap c k p factor values -> loads_node n p -> List.length values <> L -> List.length values <> 1%nat ->
  case_nodal_f_history heap c n = None.
Proof.
  intros ND HL (Hk & a & times & D1 & D2 & C) N NE N1. unfold case_nodal_f_history. fold (curve_max (dvals (c_curve c)) O). rewrite <- (longest_max _ _ HL).
  assert (G : forall l fn, In (k, factor) l -> List.length fn = L -> fold_left (hist_step heap c n) (dkeys l) (Some fn) = None).
  { induction l as [|[k1 v1] l IH]; intros fn HI LF; [easy|]. cbn [dkeys map fst fold_left].
    destruct HI as [E|HI].
    - injection E as -> ->. unfold hist_step at 2. cbn [bindO]. unfold deref. rewrite D1. cbn [bindO]. rewrite D2. cbn [bindO].
      destruct (dget k (c_factor c)) as [ff|]; cbn [bindO]; [|apply hist_none]. rewrite C. cbn [bindO]. unfold pat_nodal_f.
      destruct (dget n (p_nodal p)) as [f|] eqn:EF; [|exfalso; apply dget_none_notin in EF; apply EF; exact N].
      unfold add_outer. cbn [snd]. destruct (Nat.eqb_spec (List.length values) (List.length fn)); [lia|].
      destruct values as [|w [|? ?]]; [apply hist_none|cbn in N1; lia|apply hist_none].
    - destruct (hist_step heap c n (Some fn) k1) as [fn'|] eqn:E; [|apply hist_none]. apply (IH fn' HI).
      unfold hist_step in E. cbn [bindO] in E. apply bindO_some in E as (p1 & _ & E). apply bindO_some in E as (f1 & _ & E). apply bindO_some in E as (cv & _ & E).
      destruct (pat_nodal_f p1 n) as [f|]; [|congruence]. unfold add_outer in E.
      destruct (Nat.eqb_spec (List.length (snd cv)) (List.length fn)).
      + injection E as <-. rewrite map_length, combine_length. lia.
      + destruct (snd cv) as [|w [|? ?]]; try discriminate. injection E as <-. rewrite map_length. exact LF. }
  apply G; [exact Hk|apply repeat_length].
Qed.
Lemma c32_refuted : exists heap c n rows L, NoDup (map fst (c_factor c)) /\ longest c L
  /\ (forall k p factor values, history_of heap c k p factor values -> six_wide p)
  /\ case_nodal_f_history heap c n = Some rows /\ List.length rows = L
  /\ exists t, (t < L)%nat /\ case_nodal_f heap c n t = None.
Proof.
  set (P := pat_run [PNodalLoad "A" (1, 0, 0, 0, 0, 0)] (new_pattern "P")).
  set (Q := pat_run [PNodalLoad "A" (0, 1, 0, 0, 0, 0)] (new_pattern "Q")).
  set (c := case_add_pattern "P" 0 1 (Some ([0], [1])) (case_add_pattern "Q" 1 1 (Some ([0; 1], [1; 2])) (new_case KStatic "S"))).
  exists [P; Q], c, "A"%string. eexists. exists 2%nat.
  split; [repeat constructor; cbn; intuition discriminate|].
  split; [split; [|split]|].
  - cbn. intros k cv [E|[E|[]]]; injection E as <- <-; cbn; lia.
  - discriminate.
  - intros _. exists "Q"%string, ([0; 1], [1; 2]). split; [cbn; auto|reflexivity].
  - split; [|split; [reflexivity|split; [reflexivity|]]].
    + intros k p factor values (_ & a & times & _ & E & _) n v H.
      destruct a as [|[|a]]; [injection E as <-|injection E as <-|destruct a; discriminate];
        (destruct H as [H|[]]; injection H as <- <-; reflexivity).
    + exists 1%nat. split; [lia|reflexivity].
Qed.
