(** The model after the script has run (C82). *)
From Coq Require Import Reals Lra Lia List String Arith Bool ZArith.
From Verif Require Import Base BaseFacts Csys Sections Element Load FeModel Assembly Solver Post Api SpecApi ApiFacts WfFacts HidFacts LoadFacts
  SpecGeom CsysFacts SpecBeam BeamFacts AsmFacts SpecAsm AsmProofs AsmTotal AsmProofs2 AsmProofs3 SpecLoad LoadProofs SpecTold ToldProofs SpecToldLoad ToldLoadProofs
  Demo Grasshopper SpecGrasshopper SpecSection SectionProofs GrasshopperProofs GrasshopperProofs2.
Import ListNotations.
Local Open Scope R_scope.

(** ** Six decimals *)
Lemma fmt_six x : six_decimals x (fmt x).
Proof.
  unfold six_decimals, fmt. exists (Int_part (x * 1000000 + 1/2)). split; [reflexivity|].
  destruct (base_Int_part (x * 1000000 + 1/2)) as (A & B). lra.
Qed.
Lemma six_unique x y z : six_decimals x y -> six_decimals x z -> y = z.
Proof.
  intros (k & -> & A) (l & -> & B). assert (H : (k = l)%Z); [|now subst].
  assert (C : -1 < IZR k - IZR l < 1) by lra. rewrite <- minus_IZR in C. destruct C as (C1 & C2).
  apply lt_IZR in C1, C2. lia.
Qed.
Lemma six_gap k l : k <> l -> 1 / 1000000 <= Rabs (IZR k / 1000000 - IZR l / 1000000).
Proof.
  intros N. assert (H : 1 <= Rabs (IZR k - IZR l)).
  { rewrite <- minus_IZR, <- abs_IZR. apply IZR_le. lia. }
  replace (IZR k / 1000000 - IZR l / 1000000) with ((IZR k - IZR l) / 1000000) by field.
  unfold Rdiv. rewrite Rabs_mult, (Rabs_pos_eq (/ 1000000)) by lra. lra.
Qed.
Lemma written_separated sc p q p' q' : written sc p p' -> written sc q q' -> p' <> q' -> well_separated p' q'.
Proof.
  intros ((k1 & E1 & _) & (k2 & E2 & _) & (k3 & E3 & _)) ((l1 & F1 & _) & (l2 & F2 & _) & (l3 & F3 & _)) N.
  unfold well_separated, plan_offset, rise. rewrite E1, E2, E3, F1, F2, F3.
  destruct (Z.eq_dec k1 l1) as [<-|N1].
  - destruct (Z.eq_dec k2 l2) as [<-|N2].
    + right. split; [replace (_ - _) with 0 by ring; replace (_ - _) with 0 by ring; rewrite Rabs_R0, Rmax_left; lra|].
      assert (N3 : k3 <> l3). { intros <-. apply N. apply vec3_eq; congruence. }
      pose proof (six_gap _ _ N3). lra.
    + left. eapply Rle_trans; [|apply Rmax_r]. pose proof (six_gap _ _ N2). lra.
  - left. eapply Rle_trans; [|apply Rmax_l]. pose proof (six_gap _ _ N1). lra.
Qed.
Lemma written_close sc p q p' : 0 < sc -> written sc p p' -> written sc q p' -> distance p q < 2 / 1000000 / sc.
Proof.
  intros S ((k1 & _ & A1) & (k2 & _ & A2) & (k3 & _ & A3)) ((l1 & _ & B1) & (l2 & _ & B2) & (l3 & _ & B3)).
  assert (H : forall a b c, - (1/2) / 1000000 <= a * sc - c < 1/2 / 1000000 -> - (1/2) / 1000000 <= b * sc - c < 1/2 / 1000000 ->
              (a - b)^2 <= (1 / 1000000 / sc)^2).
  { intros a b c X Y. assert (Z : -(1/1000000) <= (a - b) * sc <= 1/1000000) by lra.
    assert (T : -(1/1000000/sc) <= a - b <= 1/1000000/sc).
    { split; apply (Rmult_le_reg_r sc); try lra; replace (1/1000000/sc*sc) with (1/1000000) by (field; lra);
        try (replace (-(1/1000000/sc)*sc) with (-(1/1000000)) by (field; lra)); lra. }
    nra. }
  pose proof (H _ _ _ A1 B1). pose proof (H _ _ _ A2 B2). pose proof (H _ _ _ A3 B3).
  assert (P : 0 < 1/1000000/sc) by (apply Rdiv_lt_0_compat; lra).
  set (u := 1/1000000/sc) in *. assert (E : 2/1000000/sc = 2 * u) by (unfold u; field; lra). rewrite E.
  unfold distance. rewrite <- (sqrt_Rsqr (2 * u)) by lra. apply sqrt_lt_1_alt. split; [apply squares3|]. unfold Rsqr. nra.
Qed.

(** ** The parts of the run *)
Lemma run_told ext us fu tol d lines (HS : script us fu tol d = Some lines) (HC : callable lines) :
    let g := merge tol d in let w := final ext init (executed lines) in exists sc fs, gh_scale us = Some sc /\ gh_fscale fu = Some fs /\
    exists t l, wwf w /\ holds (k_fem (w_core w)) t /\ tells (w_core w) l
    /\ (NoDup (map gn_name (mg_nodes g)) ->
        (forall n, In n (mg_nodes g) -> t_node t (gn_name n) = Some (V3 (fmt (vx (gn_pt n) * sc)) (fmt (vy (gn_pt n) * sc)) (fmt (vz (gn_pt n) * sc)), six_zero))
        /\ (distinct_beams d -> forall b, In b (dr_beams d) -> exists s e, beam_row b (mg_nodes g) (mg_conn g) s e
            /\ ((exists p, t_bsec t (gs_name (gb_sec b)) = Some p /\ t_beam t (gb_name b) = Some (s, e, PSection p))
               \/ (t_beam t (gb_name b) = None
                  /\ ~ (exists p ps pe, t_bsec t (gs_name (gb_sec b)) = Some p /\ t_node t s = Some ps /\ t_node t e = Some pe /\ well_separated (fst ps) (fst pe))))))
    /\ (NoDup (map gn_name (mg_nodes g)) -> forall l1 e l2, combine (mg_rests g) (dr_rests d) = l1 ++ e :: l2 ->
        (forall x, In x l2 -> gn_name (fst x) <> gn_name (fst e)) -> t_rest t (gn_name (fst e)) = Some (as_list (gr_flags (snd e))))
    /\ (exists i, l_last l "pat1" = Some i /\ forall l1 e l2, combine (mg_loads g) (dr_loads d) = l1 ++ e :: l2 ->
        (forall x, In x l2 -> gn_name (fst x) <> gn_name (fst e)) -> s_node (l_sheet l i) (gn_name (fst e)) = Some (force_of fs (snd e)))
    /\ (tidy d -> forall b, In b (dr_beams d) -> (forall mt, made sc mt (gs_shape (gb_sec b)) <> None) ->
        exists a p, gm_a (gs_mat (gb_sec b)) = Some a /\ made sc (the_mat (mat_row sc fs (gs_mat (gb_sec b)) a)) (gs_shape (gb_sec b)) = Some p
        /\ t_bsec t (gs_name (gb_sec b)) = Some p).
Proof.
    intros g w. destruct (script_parts us fu tol d lines HS HC) as (sc & fs & ms & ss & bs & Es & Ef & Em & Ess & Eb & X).
    exists sc, fs. split; [exact Es|]. split; [exact Ef|].
    pose proof (mapM_ops _ _ _ Em) as Fm. pose proof (mapM_ops _ _ _ Ess) as Fs. pose proof (mapM_ops _ _ _ Eb) as Fb.
    fold g in X, Fb.
    set (N := map (node_op sc) (mg_nodes g)) in X. set (L := map (load_op fs) (combine (mg_loads g) (dr_loads d))) in X.
    set (Rr := map rest_op (combine (mg_rests g) (dr_rests d))) in X.
    (* what each part leaves alone *)
    assert (KM : forall P : op -> Prop, (forall m a b c e, P (OpAddMaterial m a b c e)) -> Forall P ms).
    { intros P H. apply (mapM_forall _ P _ _ Em). intros m o _ E. destruct (material_op _ _ _ _ E) as (a & b & c & e & ->). apply H. }
    assert (KS : forall P : op -> Prop, (forall s o, section_line sc s = Some (Some o) -> P o) -> Forall P ss).
    { intros P H. apply (mapM_forall _ P _ _ Ess). intros s o _ E. exact (H s o E). }
    assert (KS' : forall P : op -> Prop, (forall n m a b c e f h i j, P (OpAddGeneral n m a b c e f h i j)) -> (forall n m a b c e, P (OpAddI n m a b c e)) ->
              (forall n m a b, P (OpAddRectangle n m a b)) -> Forall P ss).
    { intros P H1 H2 H3. apply KS. intros s o E. destruct (section_op _ _ _ E) as [(a1&b&c&d0&e&f&h&i&->)|[(a1&b&c&d0&->)|(a1&b&->)]]; auto. }
    assert (KB : forall P : op -> Prop, (forall n a b s, P (OpAddBeam n a b s)) -> Forall P bs).
    { intros P H. apply (mapM_forall _ P _ _ Eb). intros b o _ E. destruct (beam_op _ _ _ _ E) as (i & j & a & c & _ & _ & _ & ->). apply H. }
    assert (KN : forall P : op -> Prop, (forall n x y z, P (OpAddNode n x y z)) -> Forall P N) by (intros P H; apply map_forall; intros; apply H).
    assert (KL : forall P : op -> Prop, (forall n f, P (OpSetNodalLoad "pat1" n f)) -> Forall P L) by (intros P H; apply map_forall; intros; apply H).
    assert (KR : forall P : op -> Prop, (forall n f, P (OpSetRestraint n f)) -> Forall P Rr) by (intros P H; apply map_forall; intros; apply H).
    assert (KST : forall P : op -> Prop, P (OpAddPattern "pat1") -> P (OpAddStatic "case1") -> P (OpAddCasePattern "case1" "pat1" 1) -> Forall P start_ops)
      by (intros; repeat constructor; assumption).
    assert (KE : forall P : op -> Prop, P OpAssemble -> P (OpSave "assembly") -> Forall P end_ops) by (intros; repeat constructor; assumption).
    assert (NLall : never_loads (executed lines)).
    { assert (F : Forall (fun o => forall f, o <> OpLoad f) (executed lines)).
      { rewrite X. repeat (apply Forall_app; split).
        - apply KM. discriminate. - apply KS'; discriminate. - apply KN. discriminate. - apply KB. discriminate.
        - apply KST; discriminate. - apply KL; discriminate. - apply KR; discriminate. - apply KE; discriminate. }
      rewrite Forall_forall in F. intros f I. exact (F _ I f eq_refl). }
    assert (NLp : forall a b, executed lines = a ++ b -> never_loads a) by (intros a b E f I; apply (NLall f); rewrite E; apply in_or_app; now left).
    assert (HI : holds (k_fem (w_core init)) nothing) by (apply agrees_init).
    assert (TI : tells (w_core init) no_cases) by (apply lagrees_init).
    set (t := follow tell ext init (executed lines) nothing). set (l := follow tell_load ext init (executed lines) no_cases).
    exists t, l.
    destruct (follow_holds ext _ NLall init nothing wwf_init HI) as (WW & HT). fold w in WW, HT. fold t in HT.
    split; [exact WW|]. split; [exact HT|]. split; [exact (follow_tells ext _ NLall init no_cases wwf_init TI)|].
    (* the states between the parts *)
    set (wm := final ext init ms). set (tm := follow tell ext init ms nothing).
    set (ws := final ext wm ss). set (ts := follow tell ext wm ss tm).
    set (wn := final ext ws N). set (tn := follow tell ext ws N ts).
    set (wb := final ext wn bs). set (tb := follow tell ext wn bs tn).
    set (wst := final ext wb start_ops).
    set (wl := final ext wst L). set (tl := follow tell ext wst L (follow tell ext wb start_ops tb)).
    assert (Et : t = follow tell ext (final ext wl Rr) end_ops (follow tell ext wl Rr tl)).
    { unfold t, tl, tb, tn, ts, tm, wl, wst, wb, wn, ws, wm. rewrite X. rewrite !follow_app. rewrite <- ?final_app. reflexivity. }
    assert (Hm : wwf wm /\ holds (k_fem (w_core wm)) tm) by (apply follow_holds; [eapply NLp; exact X|exact wwf_init|exact HI]).
    assert (Nss : never_loads ss) by (intros f I; apply (NLall f); rewrite X; apply in_or_app; right; apply in_or_app; now left).
    assert (Hs : wwf ws /\ holds (k_fem (w_core ws)) ts) by (apply follow_holds; [exact Nss|exact (proj1 Hm)|exact (proj2 Hm)]).
    assert (Hn : wwf wn /\ holds (k_fem (w_core wn)) tn).
    { apply follow_holds; [|exact (proj1 Hs)|exact (proj2 Hs)]. intros f I. apply in_map_iff in I. destruct I as (n & E & _). discriminate. }
    assert (Hb : wwf wb).
    { apply (follow_holds ext bs) with (t := tn); [|exact (proj1 Hn)|exact (proj2 Hn)].
      intros f I. apply (NLall f). rewrite X. apply in_or_app; right. apply in_or_app; right. apply in_or_app; right. apply in_or_app; now left. }
    (* keeping *)
    assert (Tn : t_node t = t_node tn).
    { rewrite Et. rewrite (follow_keep t_node) by (apply KE; keeps). rewrite (follow_keep t_node) by (apply KR; intros; keeps).
      unfold tl. rewrite (follow_keep t_node) by (apply KL; intros; keeps). rewrite (follow_keep t_node) by (apply KST; keeps).
      unfold tb. apply (follow_keep t_node). apply KB; intros; keeps. }
    assert (Tb : t_beam t = t_beam tb).
    { rewrite Et. rewrite (follow_keep t_beam) by (apply KE; keeps). rewrite (follow_keep t_beam) by (apply KR; intros; keeps).
      unfold tl. rewrite (follow_keep t_beam) by (apply KL; intros; keeps). apply (follow_keep t_beam). apply KST; keeps. }
    assert (Tbn : t_beam tn = fun _ => None).
    { unfold tn. rewrite (follow_keep t_beam) by (apply KN; intros; keeps). unfold ts. rewrite (follow_keep t_beam) by (apply KS'; intros; keeps).
      unfold tm. rewrite (follow_keep t_beam) by (apply KM; intros; keeps). reflexivity. }
    assert (Tss : t_bsec tn = t_bsec ts) by (apply (follow_keep t_bsec); apply KN; intros; keeps).
    assert (Ts : t_bsec t = t_bsec ts).
    { rewrite <- Tss, Et. rewrite (follow_keep t_bsec) by (apply KE; keeps). rewrite (follow_keep t_bsec) by (apply KR; intros; keeps).
      unfold tl. rewrite (follow_keep t_bsec) by (apply KL; intros; keeps). rewrite (follow_keep t_bsec) by (apply KST; keeps).
      unfold tb. apply (follow_keep t_bsec). apply KB; intros; keeps. }
    assert (Tln : t_node tl = t_node tn).
    { unfold tl. rewrite (follow_keep t_node) by (apply KL; intros; keeps). rewrite (follow_keep t_node) by (apply KST; keeps).
      unfold tb. apply (follow_keep t_node). apply KB; intros; keeps. }
    assert (NT : NoDup (map gn_name (mg_nodes g)) -> forall n, In n (mg_nodes g) ->
       t_node tn (gn_name n) = Some (V3 (fmt (vx (gn_pt n) * sc)) (fmt (vy (gn_pt n) * sc)) (fmt (vz (gn_pt n) * sc)), six_zero)).
    { intros ND n I. apply nodes_told; assumption. }
    split; [|split; [|split]].
    - intros ND. split; [intros n I; rewrite Tn; now apply NT|].
      intros DB b B. destruct (beams_told ext _ _ _ _ Fb DB wn tn (proj1 Hn) (proj2 Hn) b B) as (s & e & Rw & K). exists s, e. split; [exact Rw|].
      rewrite Tb, Tn, Ts, <- Tss. unfold tb. rewrite Tbn in K. exact K.
    - intros ND l1 e l2 E U. rewrite Et. rewrite (follow_keep t_rest) by (apply KE; keeps). unfold Rr. rewrite E.
      apply rests_told; [|exact U]. intros x I. rewrite <- E in I. rewrite Tln.
      destruct (c80_entries tol d) as (F1 & _). fold g in F1. destruct x as [p q]. apply in_combine_l in I. cbn [fst].
      assert (Ip : In p (mg_nodes g)).
      { clear - F1 I. induction F1 as [|? ? ? ? (A & _) _ IH]; [contradiction|]. destruct I as [<-|I]; [exact A|now apply IH]. }
      rewrite (NT ND p Ip). discriminate.
    - set (lb := follow tell_load ext init (ms ++ ss ++ N ++ bs) no_cases).
      assert (Ewb : final ext init (ms ++ ss ++ N ++ bs) = wb).
      { unfold wb, wn, ws, wm. rewrite <- !final_app. reflexivity. }
      assert (Tlb : tells (w_core wb) lb).
      { rewrite <- Ewb. apply follow_tells; [|exact wwf_init|exact TI]. apply (NLp _ (start_ops ++ L ++ Rr ++ end_ops)). rewrite X. now rewrite <- !app_assoc. }
      set (lst := follow tell_load ext wb start_ops lb).
      assert (Tst : tells (w_core wst) lst) by (apply follow_tells; [intros f [I|[I|[I|[]]]]; discriminate|exact Hb|exact Tlb]).
      assert (Wst : wwf wst). { unfold wst, start_ops. rewrite !final_cons, final_nil. do 3 apply wwf_step. exact Hb. }
      assert (Llast : l_last lst "pat1" = Some (l_made lb)).
      { unfold lst, start_ops. cbn [follow].
        set (l1 := heard tell_load ext wb (OpAddPattern "pat1") lb).
        assert (E1 : l_last l1 "pat1" = Some (l_made lb)) by reflexivity.
        set (w1 := after ext wb (OpAddPattern "pat1")).
        set (l2 := heard tell_load ext w1 (OpAddStatic "case1") l1).
        assert (E2 : l_last l2 "pat1" = Some (l_made lb)) by reflexivity.
        unfold heard. destruct (answer ext _ _) as [[|]| | | | | | |]; exact E2. }
      assert (El : l = follow tell_load ext (final ext (final ext wst L) Rr) end_ops (follow tell_load ext (final ext wst L) Rr (follow tell_load ext wst L lst))).
      { unfold l, lst, lb. rewrite X. rewrite !follow_app. unfold wst, wb, wn, ws, wm. rewrite <- ?final_app. reflexivity. }
      assert (KL2 : l = follow tell_load ext wst L lst).
      { rewrite El. etransitivity; [exact (follow_keep (fun x => x) tell_load ext end_ops (KE (fun o => forall t, tell_load o t = t) (fun _ => eq_refl) (fun _ => eq_refl)) _ _)|].
        exact (follow_keep (fun x => x) tell_load ext Rr (KR (fun o => forall t, tell_load o t = t) (fun _ _ _ => eq_refl)) _ _). }
      assert (LL : l_last l "pat1" = Some (l_made lb)).
      { rewrite KL2. transitivity (l_last lst "pat1"); [|exact Llast].
        apply (follow_keep (fun x => l_last x "pat1")). apply KL. intros n f t0. cbn [tell_load]. unfold write. destruct (l_last t0 "pat1") as [j|] eqn:Ej; [cbn; exact Ej|exact Ej]. }
      exists (l_made lb). split; [exact LL|].
      intros l1 e l2 E U. rewrite KL2. unfold L. rewrite E. now apply loads_told.
    - intros TD b B G.
      pose proof (materials_all d b TD B) as Im. pose proof (sections_all d b TD B) as Is.
      destruct (gm_a (gs_mat (gb_sec b))) as [a|] eqn:Ea.
      + destruct (made sc (the_mat (mat_row sc fs (gs_mat (gb_sec b)) a)) (gs_shape (gb_sec b))) as [p|] eqn:EP; [|now destruct (G _ EP)].
        exists a, p. split; [reflexivity|]. split; [exact EP|]. rewrite Ts.
        apply (sections_told ext sc _ _ Fs (gb_sec b) p _ EP) with (w := wm) (t := tm); [|exact (proj1 Hm)|exact (proj2 Hm)| |now left].
        * intros s' S' E'. destruct (sections_drawn _ _ S') as (c & C & <-). destruct (TD c b C B) as (_ & T2 & _). now apply T2.
        * apply (materials_told ext sc fs _ _ Fm _ a Ea); [|now left].
          intros m' M' E'. destruct (materials_drawn _ _ M') as (c & C & <-). destruct (TD c b C B) as (_ & _ & _ & T4). now apply T4.
      + exfalso. clear - Fm Im Ea. induction Fm as [|m o r r' E _ IH]; [contradiction|]. destruct Im as [->|I]; [|now apply IH].
        unfold material_line in E. rewrite Ea in E. discriminate.
Qed.

Lemma fmt_written sc p : written sc p (V3 (fmt (vx p * sc)) (fmt (vy p * sc)) (fmt (vz p * sc))).
Proof. split; [apply fmt_six|]. split; apply fmt_six. Qed.
Lemma told_location ext w t x p m : holds (k_fem (w_core w)) t -> t_node t x = Some (p, m) -> answer ext w (OpNodeLocation x) = RVec3 p.
Proof.
  intros (H & _) E. specialize (H x). rewrite E in H. unfold answer. cbn [step ret snd]. unfold model_node_location.
  destruct (dget x _) as [n|]; [|discriminate]. cbn in H. apply some_inj in H. cbn [bindO]. f_equal. congruence.
Qed.
Lemma forall2_pair {A B} (P : A -> B -> Prop) l r : Forall2 P l r -> forall x y, In (y, x) (combine r l) -> P x y.
Proof. induction 1 as [|a b l r H _ IH]; intros x y I; [contradiction|]. destruct I as [E|I]; [injection E as <- <-; exact H|now apply IH]. Qed.
Lemma combine_split {A B C} (f : B -> A) (P : A -> C -> Prop) l1 (e : B) l2 : forall placed, Forall2 P (map f (l1 ++ e :: l2)) placed ->
  exists p1 p p2, combine placed (l1 ++ e :: l2) = p1 ++ (p, e) :: p2 /\ P (f e) p
  /\ forall y, In y p2 -> In (snd y) l2 /\ P (f (snd y)) (fst y).
Proof.
  induction l1 as [|a r IH]; intros placed F.
  - cbn [app map] in F. inversion F as [|? p ? pr H F']; subst. exists [], p, (combine pr l2). split; [reflexivity|]. split; [exact H|].
    intros [y z] I. cbn [fst snd]. split; [eapply in_combine_r; exact I|].
    clear - F' I. revert pr F' I. induction l2 as [|b l IH]; intros pr F I; [destruct pr; contradiction|]. cbn [map] in F. inversion F as [|? p ? q H F']; subst.
    destruct I as [E|I]; [injection E as <- <-; exact H|now apply (IH q)].
  - cbn [app map] in F. inversion F as [|? q ? pr H F']; subst. destruct (IH pr F') as (p1 & p & p2 & E & K & U).
    exists ((q, a) :: p1), p, p2. cbn [app combine]. rewrite E. auto.
Qed.

(** ** C82 *)
Lemma c82_beam ext us fu tol d lines sc b : script us fu tol d = Some lines -> callable lines -> gh_scale us = Some sc ->
  0 < tol -> well_named d -> distinct_beams d -> In b (dr_beams d) ->
  let w := final ext init (executed lines) in
  answer ext w (OpBeamNodeNames (gb_name b)) = RNone
  \/ exists x y bm p, answer ext w (OpBeamNodeNames (gb_name b)) = RNames [x; y]
     /\ stands ext w tol sc x (gb_start b) /\ stands ext w tol sc y (gb_end b)
     /\ dget (gb_name b) (f_beams (k_fem (w_core w))) = Some bm /\ b_prop bm = PSection p
     /\ dget (gs_name (gb_sec b)) (f_bsecs (k_fem (w_core w))) = Some p.
Proof.
  intros HS HC ES T WN DB B w. destruct (run_told ext us fu tol d lines HS HC) as (sc' & fs & E1 & _ & t & l & W & H & _ & N & _).
  fold w in W, H. rewrite ES in E1. apply some_inj in E1. subst sc'.
  destruct (N (c81_names tol d T WN)) as (NN & NB). destruct (NB DB b B) as (s & e & (i & j & a & c & D & A & C & -> & ->) & K).
  destruct (c80_ends tol d b DB B) as (i' & j' & a' & c' & D' & A' & NA & C' & NC). rewrite D in D'. apply some_inj in D'. injection D' as <- <-.
  rewrite A in A'. apply some_inj in A'. subst a'. rewrite C in C'. apply some_inj in C'. subst c'.
  destruct K as [(p & P & TB)|(TB & _)].
  - right. destruct H as (H1 & H2 & H3 & H4 & H5 & H6 & H7). pose proof (H6 (gb_name b)) as HB. rewrite TB in HB.
    destruct (dget (gb_name b) (f_beams (k_fem (w_core w)))) as [bm|] eqn:EB; [|discriminate]. cbn in HB. apply some_inj in HB. injection HB as Ni Nj Pb.
    exists (gn_name a), (gn_name c), bm, p. unfold answer at 1. cbn [step ret snd]. unfold model_beam_connection. rewrite EB. cbn [bindO fst snd].
    split; [now rewrite Ni, Nj|].
    assert (HH : holds (k_fem (w_core w)) t) by (repeat (split; [assumption|]); assumption).
    split; [|split; [|split; [reflexivity|split; [exact Pb|rewrite H4; exact P]]]].
    + exists (gn_pt a). eexists. split; [exact NA|]. split; [apply fmt_written|]. eapply told_location; [exact HH|]. apply NN. eapply nth_error_In; exact A.
    + exists (gn_pt c). eexists. split; [exact NC|]. split; [apply fmt_written|]. eapply told_location; [exact HH|]. apply NN. eapply nth_error_In; exact C.
  - left. destruct H as (_ & _ & _ & _ & _ & H6 & _). specialize (H6 (gb_name b)). rewrite TB in H6.
    unfold answer. cbn [step ret snd]. unfold model_beam_connection. destruct (dget (gb_name b) _); [discriminate|reflexivity].
Qed.
Lemma scale_pos us sc : gh_scale us = Some sc -> 0 < sc.
Proof. unfold gh_scale. destruct (String.eqb us "Millimeters"); [intros E; apply some_inj in E; lra|]. destruct (String.eqb us "Meters"); [intros E; apply some_inj in E; lra|discriminate]. Qed.
Lemma there ext us fu tol d lines sc fs b : script us fu tol d = Some lines -> callable lines ->
  gh_scale us = Some sc -> gh_fscale fu = Some fs -> 0 < tol -> well_named d -> distinct_beams d -> tidy d -> In b (dr_beams d) ->
  (forall mt, made sc mt (gs_shape (gb_sec b)) <> None) -> 2 * tol + 2 / 1000000 / sc <= distance (gb_start b) (gb_end b) ->
  let w := final ext init (executed lines) in exists bm p mt, dget (gb_name b) (f_beams (k_fem (w_core w))) = Some bm
  /\ b_prop bm = PSection p /\ made sc mt (gs_shape (gb_sec b)) = Some p /\ stuff sc fs (gs_mat (gb_sec b)) mt.
Proof.
  intros HS HC ES EF T WN DB TD B G LEN w.
  destruct (run_told ext us fu tol d lines HS HC) as (sc' & fs' & E1 & E2 & t & l & W & H & _ & N & _ & _ & SEC).
  fold w in W, H. rewrite ES in E1. apply some_inj in E1. subst sc'. rewrite EF in E2. apply some_inj in E2. subst fs'.
  pose proof (scale_pos _ _ ES) as SP.
  destruct (N (c81_names tol d T WN)) as (NN & NB). destruct (NB DB b B) as (s & e & (i & j & a & c & D & PA & PC & -> & ->) & K).
  destruct (c80_ends tol d b DB B) as (i' & j' & a' & c' & D' & A' & NA & C' & NC). rewrite D in D'. apply some_inj in D'. injection D' as <- <-.
  rewrite PA in A'. apply some_inj in A'. subst a'. rewrite PC in C'. apply some_inj in C'. subst c'.
  destruct (SEC TD b B G) as (al & sp & EA & MD & TS).
  pose proof (NN a (nth_error_In _ _ PA)) as Ta. pose proof (NN c (nth_error_In _ _ PC)) as Tc.
  destruct K as [(p & P & TB)|(_ & NO)].
  - destruct H as (_ & _ & _ & _ & _ & H6 & _). specialize (H6 (gb_name b)). rewrite TB in H6.
    destruct (dget (gb_name b) (f_beams (k_fem (w_core w)))) as [bm|]; [|discriminate]. cbn in H6. apply some_inj in H6. injection H6 as _ _ Pb.
    exists bm, p. eexists. split; [reflexivity|]. split; [exact Pb|]. rewrite TS in P. apply some_inj in P. subst p.
    split; [exact MD|]. unfold stuff, mat_row, the_mat. cbn [m_E m_rho m_mu].
    repeat (split; [apply fmt_six|]). apply fmt_six.
  - exfalso. apply NO. do 3 eexists. split; [exact TS|]. split; [exact Ta|]. split; [exact Tc|]. cbn [fst].
    apply (written_separated sc (gn_pt a) (gn_pt c)); try apply fmt_written. intros EQ.
    pose proof (fmt_written sc (gn_pt a)) as Wa. rewrite EQ in Wa.
    pose proof (written_close sc _ _ _ SP Wa (fmt_written sc (gn_pt c))) as CL.
    assert (ND : forall x n, near tol x n -> distance x n < tol) by (intros x n [->|L]; [rewrite distance_self; exact T|exact L]).
    pose proof (ND _ _ NA). pose proof (ND _ _ NC). pose proof (distance_triangle (gb_start b) (gn_pt a) (gb_end b)).
    pose proof (distance_triangle (gn_pt a) (gn_pt c) (gb_end b)). rewrite (distance_sym (gb_end b) (gn_pt c)) in *. lra.
Qed.

Lemma c82_there ext us fu tol d lines sc fs b A As2 As3 J I2 I3 : script us fu tol d = Some lines -> callable lines ->
  gh_scale us = Some sc -> gh_fscale fu = Some fs -> 0 < tol -> well_named d -> distinct_beams d -> tidy d -> In b (dr_beams d) ->
  gs_shape (gb_sec b) = SGeneral A As2 As3 J I2 I3 -> 2 * tol + 2 / 1000000 / sc <= distance (gb_start b) (gb_end b) ->
  let w := final ext init (executed lines) in exists bm p, dget (gb_name b) (f_beams (k_fem (w_core w))) = Some bm
  /\ b_prop bm = PSection p /\ converted sc fs (gs_mat (gb_sec b)) A As2 As3 J I2 I3 p.
Proof.
  intros HS HC ES EF T WN DB TD B G LEN w.
  destruct (there ext us fu tol d lines sc fs b HS HC ES EF T WN DB TD B) as (bm & p & mt & E & P & M & (S1 & S2 & S3)); [intros mt; rewrite G; discriminate|exact LEN|].
  exists bm, p. split; [exact E|]. split; [exact P|]. rewrite G in M. cbn [made] in M. apply some_inj in M. subst p.
  unfold converted, sec_row. cbn [s_A s_As2 s_As3 s_J s_I22 s_I33 s_mat].
  repeat (split; [apply fmt_six|]). split; [exact S1|]. split; [exact S2|exact S3].
Qed.
Lemma six_positive x y : 1 / 1000000 <= x -> six_decimals x y -> 0 < y.
Proof. intros H (k & _ & L). lra. Qed.
Lemma c82_there_rectangle ext us fu tol d lines sc fs b h bw : script us fu tol d = Some lines -> callable lines ->
  gh_scale us = Some sc -> gh_fscale fu = Some fs -> 0 < tol -> well_named d -> distinct_beams d -> tidy d -> In b (dr_beams d) ->
  gs_shape (gb_sec b) = SRectangle h bw -> 1 / 1000000 <= h * sc -> 1 / 1000000 <= bw * sc ->
  2 * tol + 2 / 1000000 / sc <= distance (gb_start b) (gb_end b) ->
  let w := final ext init (executed lines) in exists bm p h' b', dget (gb_name b) (f_beams (k_fem (w_core w))) = Some bm
  /\ b_prop bm = PSection p /\ stuff sc fs (gs_mat (gb_sec b)) (s_mat p) /\ six_decimals (h * sc) h' /\ six_decimals (bw * sc) b'
  /\ s_A p = area [Part b' h' 0 0] /\ s_I22 p = inertia_width [Part b' h' 0 0] /\ s_I33 p = inertia_height [Part b' h' 0 0].
Proof.
  intros HS HC ES EF T WN DB TD B G Lh Lb LEN w.
  pose proof (six_positive _ _ Lh (fmt_six _)) as Ph. pose proof (six_positive _ _ Lb (fmt_six _)) as Pb.
  destruct (there ext us fu tol d lines sc fs b HS HC ES EF T WN DB TD B) as (bm & p & mt & E & P & M & S); [|exact LEN|].
  { intros mt. rewrite G. cbn [made]. destruct (c43_rectangle mt _ _ Ph Pb) as (s & -> & _). discriminate. }
  exists bm, p, (fmt (h * sc)), (fmt (bw * sc)). split; [exact E|]. split; [exact P|]. rewrite G in M. cbn [made] in M.
  destruct (c43_rectangle mt _ _ Ph Pb) as (s & E' & A1 & A2 & A3 & _). rewrite M in E'. apply some_inj in E'. subst s.
  split; [|split; [apply fmt_six|split; [apply fmt_six|auto]]].
  unfold mk_rectangle in M. destruct (_ || _)%bool; [discriminate|]. apply some_inj in M. subst p. exact S.
Qed.
Lemma c82_there_I ext us fu tol d lines sc fs b h bw tw tf : script us fu tol d = Some lines -> callable lines ->
  gh_scale us = Some sc -> gh_fscale fu = Some fs -> 0 < tol -> well_named d -> distinct_beams d -> tidy d -> In b (dr_beams d) ->
  gs_shape (gb_sec b) = SI h bw tw tf -> 1 / 1000000 <= tw * sc -> tw * sc + 1 / 1000000 <= bw * sc -> 1 / 1000000 <= tf * sc ->
  2 * (tf * sc) + 2 / 1000000 <= h * sc ->
  2 * tol + 2 / 1000000 / sc <= distance (gb_start b) (gb_end b) ->
  let w := final ext init (executed lines) in exists bm p h' b' tw' tf', dget (gb_name b) (f_beams (k_fem (w_core w))) = Some bm
  /\ b_prop bm = PSection p /\ stuff sc fs (gs_mat (gb_sec b)) (s_mat p) /\ six_decimals (h * sc) h' /\ six_decimals (bw * sc) b'
  /\ six_decimals (tw * sc) tw' /\ six_decimals (tf * sc) tf'
  /\ s_A p = area (I_parts h' b' tw' tf') /\ s_I33 p = inertia_height (I_parts h' b' tw' tf')
  /\ s_I22 p = inertia_width (I_parts h' b' tw' tf') + tf' * tw' ^ 3 / 6.
Proof.
  intros HS HC ES EF T WN DB TD B G Lw Lb Lf Lh LEN w.
  pose proof (six_positive _ _ Lw (fmt_six _)) as Pw. pose proof (six_positive _ _ Lf (fmt_six _)) as Pf.
  assert (Pb : fmt (tw * sc) <= fmt (bw * sc)) by (destruct (fmt_six (tw * sc)) as (k & _ & K); destruct (fmt_six (bw * sc)) as (k' & _ & K'); lra).
  assert (Ph : 2 * fmt (tf * sc) < fmt (h * sc)) by (destruct (fmt_six (tf * sc)) as (k & _ & K); destruct (fmt_six (h * sc)) as (k' & _ & K'); lra).
  destruct (there ext us fu tol d lines sc fs b HS HC ES EF T WN DB TD B) as (bm & p & mt & E & P & M & S); [|exact LEN|].
  { intros mt. rewrite G. cbn [made]. destruct (c43_I_partial mt _ _ _ _ Pw Pb Pf Ph) as (s & -> & _). discriminate. }
  exists bm, p, (fmt (h * sc)), (fmt (bw * sc)), (fmt (tw * sc)), (fmt (tf * sc)). split; [exact E|]. split; [exact P|]. rewrite G in M. cbn [made] in M.
  destruct (c43_I_partial mt _ _ _ _ Pw Pb Pf Ph) as (s & E' & A1 & A2 & A3 & _). rewrite M in E'. apply some_inj in E'. subst s.
  split; [|split; [apply fmt_six|split; [apply fmt_six|split; [apply fmt_six|split; [apply fmt_six|auto]]]]].
  unfold mk_I in M. destruct (_ || _)%bool; [discriminate|]. apply some_inj in M. subst p. exact S.
Qed.

(** restraints and loads *)
Lemma c82_rest ext us fu tol d lines sc l1 r l2 : script us fu tol d = Some lines -> callable lines -> gh_scale us = Some sc ->
  0 < tol -> well_named d -> dr_rests d = l1 ++ r :: l2 ->
  (forall r', In r' l2 -> 2 * tol <= distance (gn_pt (gr_node r)) (gn_pt (gr_node r'))) ->
  let w := final ext init (executed lines) in exists x rows, stands ext w tol sc x (gn_pt (gr_node r))
  /\ answer ext w (OpNodeRestraints None) = RFlags rows /\ dget x rows = Some (as_list (gr_flags r)).
Proof.
  intros HS HC ES T WN EL FAR w. destruct (run_told ext us fu tol d lines HS HC) as (sc' & fs & E1 & _ & t & l & W & H & _ & N & RT & _).
  fold w in W, H. rewrite ES in E1. apply some_inj in E1. subst sc'. pose proof (c81_names tol d T WN) as ND. destruct (N ND) as (NN & _).
  destruct (c80_entries tol d) as (F & _). rewrite EL in F. destruct (combine_split gr_node _ _ _ _ _ F) as (p1 & p & p2 & EC & (IP & NP) & U).
  exists (gn_name p), (f_rest (k_fem (w_core w))).
  split; [exists (gn_pt p); eexists; split; [exact NP|]; split; [apply fmt_written|]; eapply told_location; [exact H|apply NN; exact IP]|].
  split; [reflexivity|]. destruct H as (_ & H2 & _). rewrite H2. rewrite <- EL in EC. apply (RT ND _ _ _ EC).
  intros y Y E. destruct (U y Y) as (Y2 & IY & NY). cbn [fst] in E.
  assert (EQ : fst y = p). { clear - ND IP IY E. revert ND IP IY. induction (mg_nodes (merge tol d)) as [|n r IH]; intros ND IP IY; [contradiction|].
    inversion ND as [|? ? NI ND']; subst. destruct IP as [->|IP], IY as [->|IY]; auto; exfalso; apply NI; [rewrite <- E|rewrite E]; now apply in_map. }
  rewrite EQ in NY. pose proof (near_far tol _ _ _ T NP NY). pose proof (FAR _ Y2). lra.
Qed.
Lemma c82_load ext us fu tol d lines sc fs l1 r l2 f1 f2 f3 m1 m2 m3 : script us fu tol d = Some lines -> callable lines -> gh_scale us = Some sc ->
  gh_fscale fu = Some fs -> 0 < tol -> well_named d -> dr_loads d = l1 ++ r :: l2 -> gl_f r = (f1, f2, f3, m1, m2, m3) ->
  (forall r', In r' l2 -> 2 * tol <= distance (gn_pt (gl_node r)) (gn_pt (gl_node r'))) ->
  let w := final ext init (executed lines) in exists x g1 g2 g3 h1 h2 h3, stands ext w tol sc x (gn_pt (gl_node r))
  /\ answer ext w (OpGetNodalLoad "pat1" x) = RVec [g1; g2; g3; h1; h2; h3]
  /\ six_decimals (f1 * fs) g1 /\ six_decimals (f2 * fs) g2 /\ six_decimals (f3 * fs) g3
  /\ six_decimals (m1 * fs^2) h1 /\ six_decimals (m2 * fs^2) h2 /\ six_decimals (m3 * fs^2) h3.
Proof.
  intros HS HC ES EF T WN EL EG FAR w. destruct (run_told ext us fu tol d lines HS HC) as (sc' & fs' & E1 & E2 & t & l & W & H & TL & N & _ & (i & LI & LT) & _).
  fold w in W, H, TL. rewrite ES in E1. apply some_inj in E1. subst sc'. rewrite EF in E2. apply some_inj in E2. subst fs'.
  pose proof (c81_names tol d T WN) as ND. destruct (N ND) as (NN & _).
  destruct (c80_entries tol d) as (_ & F). rewrite EL in F. destruct (combine_split gl_node _ _ _ _ _ F) as (p1 & p & p2 & EC & (IP & NP) & U).
  exists (gn_name p). do 6 eexists.
  split; [exists (gn_pt p); eexists; split; [exact NP|]; split; [apply fmt_written|]; eapply told_location; [exact H|apply NN; exact IP]|].
  rewrite <- EL in EC.
  assert (S : s_node (l_sheet l i) (gn_name p) = Some (force_of fs r)).
  { apply (LT _ _ _ EC). intros y Y E. destruct (U y Y) as (Y2 & IY & NY). cbn [fst] in E.
    assert (EQ : fst y = p). { clear - ND IP IY E. revert ND IP IY. induction (mg_nodes (merge tol d)) as [|n r IH]; intros ND IP IY; [contradiction|].
      inversion ND as [|? ? NI ND']; subst. destruct IP as [->|IP], IY as [->|IY]; auto; exfalso; apply NI; [rewrite <- E|rewrite E]; now apply in_map. }
    rewrite EQ in NY. pose proof (near_far tol _ _ _ T NP NY). pose proof (FAR _ Y2). lra. }
  split.
  - unfold answer. cbn [step ret snd]. destruct TL as (HP & HL & HSh & _). unfold get_pat. rewrite HP, LI. cbn [bindO].
    destruct (cw_pats _ (proj1 W) "pat1" i) as (y & Y & _); [apply dget_some_in; rewrite HP; exact LI|]. rewrite Y. cbn [bindO]. unfold pat_nodal_f.
    destruct (HSh i y Y) as (HN & _). rewrite HN, S. unfold force_of. rewrite EG. reflexivity.
  - repeat (split; [apply fmt_six|]). apply fmt_six.
Qed.
