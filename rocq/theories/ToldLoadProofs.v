(** The loads and cases are those the calls said (C79). *)
From Coq Require Import Reals Lra Lia List String Arith Bool.
From Verif Require Import Base BaseFacts Csys Sections Element Load FeModel Assembly Solver Post Api SpecApi ApiFacts WfFacts HidFacts LoadFacts
  SpecGeom CsysFacts SpecBeam BeamFacts AsmFacts SpecAsm AsmProofs AsmTotal AsmProofs2 SpecLoad LoadProofs SpecTold ToldProofs SpecToldLoad.
Import ListNotations.
Local Open Scope R_scope.

Definition tells (c : core) (t : loads) : Prop :=
  (forall k, dget k (k_pats c) = l_last t k) /\ holds_loads (k_heap c) (k_cases c) t.
Definition untouched (c c' : core) : Prop :=
  k_pats c' = k_pats c /\ k_heap c' = k_heap c /\ k_cases c' = k_cases c.
Lemma tells_untouched c c' t : untouched c c' -> tells c t -> tells c' t.
Proof. intros (E1 & E2 & E3) H. unfold tells. rewrite E1, E2, E3. exact H. Qed.
Lemma untouched_ret_fem w r : untouched (w_core w) (w_core (fst (ret_fem w r))).
Proof. destruct r; repeat split. Qed.
Lemma some_put {A B} (g : A -> B) (d : dict B) f k v : (forall k, dget k d = option_map g (f k)) ->
  forall k', dget k' (dset k (g v) d) = option_map g (put k v f k').
Proof. intros H k'. rewrite dget_put. unfold put. destruct (String.eqb k' k); [reflexivity|apply H]. Qed.
Lemma pair_put {A B} (d : dict A) (f : string -> option (A * B)) k v b : (forall k, dget k d = option_map fst (f k)) ->
  forall k', dget k' (dset k v d) = option_map fst (put k (v, b) f k').
Proof. intros H k'. rewrite dget_put. unfold put. destruct (String.eqb k' k); [reflexivity|apply H]. Qed.
Lemma pair_put' {A B} (d : dict B) (f : string -> option (A * B)) k v b : (forall k, dget k d = option_map snd (f k)) ->
  forall k', dget k' (dset k b d) = option_map snd (put k (v, b) f k').
Proof. intros H k'. rewrite dget_put. unfold put. destruct (String.eqb k' k); [reflexivity|apply H]. Qed.

Lemma tells_write w p upd f t : core_wf (w_core w) -> tells (w_core w) t ->
  (forall x s, holds_sheet x s -> holds_sheet (upd x) (f s)) ->
  match snd (ret_pat w p upd) with
  | RBool true => tells (w_core (fst (ret_pat w p upd))) (write p f t)
  | _ => tells (w_core (fst (ret_pat w p upd))) t
  end.
Proof.
  intros W (HP & HL & HS & HC) HU. unfold ret_pat, write. rewrite <- HP.
  destruct (dget p (k_pats (w_core w))) as [i|] eqn:E; cbn [bindO]; [|split; [exact HP|split; [exact HL|split; assumption]]].
  destruct (cw_pats _ W p i (dget_some_in _ _ _ E)) as (x & X & _). rewrite X. cbn [bindO fst snd with_core w_core].
  split; [exact HP|]. split; [cbn; now rewrite set_nth_length|]. split; [|exact HC].
  cbn [k_heap l_sheet]. intros j y Y. unfold at_number. destruct (Nat.eqb_spec j i) as [->|N].
  - rewrite nth_error_set_nth_eq in Y by (eapply nth_error_lt; exact X). apply some_inj in Y. subst y. apply HU. now apply HS.
  - rewrite nth_error_set_nth_neq in Y by auto. now apply HS.
Qed.
Lemma tells_case c t k lc o : tells c t -> holds_order lc o ->
  tells (Core (k_fem c) (k_pats c) (k_heap c) (dset k lc (k_cases c))) (Loads (l_made t) (l_last t) (l_sheet t) (put k o (l_case t))).
Proof.
  intros (HP & HL & HS & HC) HO. split; [exact HP|]. split; [exact HL|]. split; [exact HS|].
  cbn [k_cases l_case]. intros k'. rewrite dget_put. unfold put. destruct (String.eqb k' k); [exact HO|apply HC].
Qed.
Lemma told_case c t k : tells c t ->
  match dget k (k_cases c) with
  | Some lc => exists o, l_case t k = Some o /\ holds_order lc o
  | None => l_case t k = None end.
Proof.
  intros (_ & _ & _ & HC). specialize (HC k). destruct (dget k (k_cases c)), (l_case t k); try contradiction; eauto.
Qed.

Lemma still (c : core) t (x : world * out) : untouched c (w_core (fst x)) -> tells c t ->
  match snd x with RBool true => tells (w_core (fst x)) t | _ => tells (w_core (fst x)) t end.
Proof. intros U H. pose proof (tells_untouched _ _ _ U H). destruct (snd x) as [[|]| | | | | | |]; assumption. Qed.
Lemma tell_load_step ext w o t : core_wf (w_core w) -> tells (w_core w) t -> (forall f, o <> OpLoad f) ->
  match answer ext w o with
  | RBool true => tells (w_core (after ext w o)) (tell_load o t)
  | _ => tells (w_core (after ext w o)) t
  end.
Proof.
  intros W H NL. unfold answer, after.
  destruct o; cbn [step tell_load];
    try (match goal with |- match snd ?x with _ => _ end => apply (still (w_core w) t x); [first [apply untouched_ret_fem|unfold ret, do_solve_static; crunch; repeat split; fail]|exact H] end);
    try exact H.
  - exfalso. eapply NL; reflexivity.
  - (* pattern *) cbn [fst snd with_core w_core]. destruct H as (HP & HL & HS & HC).
    split; [cbn [k_pats l_last]; rewrite <- HL; now apply same_put|]. split; [cbn; rewrite app_length; cbn; lia|]. split; [|exact HC].
    cbn [k_heap l_sheet]. intros i p X. unfold at_number. rewrite <- HL. destruct (Nat.eqb_spec i (List.length (k_heap (w_core w)))) as [->|N].
    + rewrite nth_error_app2, Nat.sub_diag in X by lia. apply some_inj in X. subst p. repeat split.
    + pose proof (nth_error_lt _ _ _ X) as LT. rewrite app_length in LT. cbn in LT. rewrite nth_error_app1 in X by lia. now apply HS.
  - (* restraint of a case *) pose proof (told_case _ _ case H) as C. unfold instruct.
    destruct (dget case (k_cases (w_core w))) as [lc|]; [|exact H]. destruct C as (o & -> & HO). cbn [fst snd with_core w_core].
    apply tells_case; [exact H|]. destruct HO as (A & B & C & D). split; [exact A|]. split; [exact B|]. split; [exact C|].
    cbn [case_set_restraint c_rest o_rest]. rewrite list6_as. now apply some_put.
  - (* nodal load *) destruct f as [[[[[f1 f2] f3] m1] m2] m3]. apply tells_write; try assumption.
    intros x s (A & B & C). split; [|split; assumption]. exact (some_put as_list _ _ node (f1, f2, f3, m1, m2, m3) A).
  - (* line load *) apply tells_write; try assumption. intros x s (A & B & C). split; [assumption|]. split; [|assumption].
    exact (some_put line_row _ _ beam (pi, qi2, qi3, ti, (pj, qj2, qj3, tj)) B).
  - (* concentrated load *) destruct F as [[[[[f1 f2] f3] m1] m2] m3]. apply tells_write; try assumption.
    intros x s (A & B & C). split; [assumption|]. split; [assumption|]. exact (some_put point_row _ _ beam ((f1, f2, f3, m1, m2, m3), r) C).
  - apply tells_case; [exact H|]. repeat split.
  - apply tells_case; [exact H|]. repeat split.
  - (* pattern into a case *) pose proof (told_case _ _ case H) as C. pose proof (proj1 H pattern) as P. unfold instruct.
    destruct (dget case (k_cases (w_core w))) as [lc|]; cbn [bindO]; [|exact H]. destruct C as (o & -> & HO).
    destruct (dget pattern (k_pats (w_core w))) as [i|] eqn:E; cbn [bindO]; [|exact H]. rewrite <- P.
    destruct (cw_pats _ W pattern i (dget_some_in _ _ _ E)) as (x & X & XN). rewrite X. cbn [bindO fst snd with_core w_core]. rewrite XN.
    apply tells_case; [exact H|]. destruct HO as (A & B & C & D). split; [exact A|].
    split; [now apply pair_put|]. split; [now apply pair_put'|exact D].
Qed.

Definition lagrees (w : world) (b : lbook) : Prop :=
  tells (w_core w) (l_now b)
  /\ (forall f, match dget (sep_file f) (w_files w) with
               | Some (FSep c) => exists t, l_kept b f = Some t /\ tells c t
               | _ => True end)
  /\ match dget asb_file (w_files w) with
     | Some (FAsb a) => exists t, l_built b = Some t /\ holds_loads (a_heap a) (a_cases a) t
     | _ => True end.
Lemma note_load_plain b o a : plain o ->
  note_load b (o, a) = match a with RBool true => LBook (tell_load o (l_now b)) (l_kept b) (l_built b) | _ => b end.
Proof.
  intros (S & L & A). destruct o; try (exfalso; eapply S; reflexivity); try (exfalso; eapply L; reflexivity); try (exfalso; apply A; reflexivity);
    destruct a as [[|]| | | | | | |]; reflexivity.
Qed.
Lemma lagrees_step ext w b o : core_wf (w_core w) -> lagrees w b -> lagrees (after ext w o) (note_load b (o, answer ext w o)).
Proof.
  intros W (H & F & A). destruct (plain_dec o) as [(f & ->)|[(f & ->)|[-> |P]]].
  - pose proof (step_asb ext w (OpSave f)) as SA. pose proof (step_sep ext w (OpSave f)) as S.
    unfold lagrees. rewrite SA. split; [exact H|]. split; [|exact A]. intros f'. rewrite S.
    cbn [answer step snd note_load l_kept]. unfold put. destruct (String.eqb f' f); [exists (l_now b); auto|apply F].
  - pose proof (step_asb ext w (OpLoad f)) as SA. pose proof (step_sep ext w (OpLoad f)) as S.
    unfold lagrees. rewrite SA. unfold answer, after in *; cbn [step] in *. specialize (F f) as Ff.
    destruct (dget (sep_file f) (w_files w)) as [[| c' | |]|] eqn:E; cbn [fst snd note_load]; try (split; [assumption|split; assumption]).
    destruct Ff as (t & Et & Ht). rewrite Et. split; [exact Ht|]. split; [exact F|exact A].
  - pose proof (step_asb ext w OpAssemble) as SA. pose proof (step_sep ext w OpAssemble) as S.
    unfold lagrees. rewrite SA. unfold answer. cbn [step] in *.
    destruct (mk_asm (k_fem (w_core w)) (dvals (k_cases (w_core w))) (k_heap (w_core w))) as [a|] eqn:E; cbn [fst snd note_load].
    + unfold after in *; cbn [step] in *. rewrite E in *. cbn [fst] in *. split; [exact H|]. split; [intros f; rewrite S; apply F|].
      exists (l_now b). split; [reflexivity|]. rewrite (asm_cases (w_core w) a W E), (proj2 (asm_of_model _ _ E)). exact (proj2 H).
    + unfold after in *; cbn [step] in *. rewrite E in *. cbn [fst] in *. split; [exact H|]. split; [exact F|exact A].
  - rewrite note_load_plain by exact P. pose proof (tell_load_step ext w o (l_now b) W H (proj1 (proj2 P))) as T.
    unfold lagrees. rewrite asb_plain by exact P. split; [destruct (answer ext w o) as [[|]| | | | | | |]; exact T|].
    split; [|destruct (answer ext w o) as [[|]| | | | | | |]; exact A].
    intros f. rewrite sep_plain by exact P. specialize (F f). destruct (answer ext w o) as [[|]| | | | | | |]; exact F.
Qed.
Lemma lagrees_run ext ops : forall w b, wwf w -> lagrees w b -> lagrees (final ext w ops) (fold_left note_load (trace ext w ops) b).
Proof.
  induction ops as [|o r IH]; intros w b W A; [exact A|]. rewrite final_cons. cbn [trace fold_left].
  apply IH; [now apply wwf_step|]. apply lagrees_step; [apply W|exact A].
Qed.
Lemma lagrees_init : lagrees init lblank.
Proof.
  split; [|split; [intros f; exact I|exact I]]. split; [reflexivity|]. split; [reflexivity|]. split; [intros [|i] p X; discriminate|].
  intros k. exact I.
Qed.
Lemma c79_holds ext ops : let c := w_core (final ext init ops) in let t := l_now (load_notes (trace ext init ops)) in
  (forall k, dget k (k_pats c) = l_last t k) /\ holds_loads (k_heap c) (k_cases c) t.
Proof. apply (lagrees_run ext ops init lblank); [apply wwf_init|exact lagrees_init]. Qed.
Lemma c79_built ext ops a : read_asb (final ext init ops) = Some a ->
  exists t, l_built (load_notes (trace ext init ops)) = Some t /\ holds_loads (a_heap a) (a_cases a) t.
Proof.
  intros H. destruct (lagrees_run ext ops init lblank wwf_init lagrees_init) as (_ & _ & A).
  unfold read_asb in H. destruct (dget asb_file _) as [[a'| | |]|]; try discriminate. apply some_inj in H. subst a'. exact A.
Qed.

(** ** The load vector of a case that loads nodes only *)
Lemma lsum_single (l : list string) g k : NoDup l -> In k l -> (forall k', In k' l -> k' <> k -> g k' = 0) -> lsum (map g l) = g k.
Proof.
  induction l as [|x l IH]; intros ND HI H; [destruct HI|]. inversion ND as [|? ? N1 N2]; subst. cbn [map lsum].
  destruct HI as [->|HI].
  - rewrite lsum_zero; [ring|]. intros y Hy. apply H; [now right|]. intros ->. contradiction.
  - rewrite IH; auto. + rewrite H; [ring|now left|]. intros ->. contradiction. + intros k' Hk. apply H. now right.
Qed.
Lemma lsum_names (l l' : list string) g : NoDup l -> NoDup l' -> incl l l' -> (forall k, In k l' -> ~ In k l -> g k = 0) ->
  lsum (map g l) = lsum (map g l').
Proof.
  revert l'. induction l as [|x l IH]; intros l' N N' I Z.
  - cbn. symmetry. apply lsum_zero. intros k Hk. apply Z; auto.
  - inversion N as [|? ? N1 N2]; subst. assert (Hx : In x l') by (apply I; now left).
    apply in_split in Hx as (a & b & ->). cbn [map lsum]. rewrite map_app, lsum_app. cbn [map lsum].
    rewrite (IH (a ++ b)).
    + rewrite map_app, lsum_app. ring.
    + exact N2.
    + now apply NoDup_remove_1 in N'.
    + intros y Hy. pose proof (I y (or_intror Hy)) as H. apply in_app_or in H as [H|[<-|H]]; [apply in_or_app; now left|contradiction|apply in_or_app; now right].
    + intros k Hk Nk. apply Z; [apply in_app_or in Hk as [Hk|Hk]; apply in_or_app; [now left|right; now right]|].
      intros [<-|H]; [|contradiction]. apply NoDup_remove_2 in N'. contradiction.
Qed.
Lemma node_power_delta m p k d k' : hid_pos m -> NoDup (dkeys (f_nodes m)) -> In k (dkeys (f_nodes m)) -> In k' (dkeys (f_nodes m)) -> (d < 6)%nat ->
  node_power m p (delta (6 * num m k + d)) k' = if String.eqb k' k then load_entry (p_nodal p) k d else 0.
Proof.
  intros HP ND Hk Hk' Hd. unfold node_power, node_force, node_moment, triple, disp_at, rot_at, dot3, delta. cbn [vx vy vz].
  destruct (String.eqb_spec k' k) as [->|N].
  - repeat match goal with |- context [Nat.eqb ?a ?b] => let E := fresh in destruct (Nat.eqb_spec a b) as [E|E] end;
      do 6 (destruct d as [|d]; [try lia; cbn [Nat.add]; ring|]); lia.
  - assert (num m k <> num m k').
    { intros E. apply In_nth_error in Hk as (i & Hi). apply In_nth_error in Hk' as (j & Hj).
      pose proof (HP _ _ Hi) as Di. pose proof (HP _ _ Hj) as Dj. unfold num in E. rewrite Di, Dj in E. subst j. congruence. }
    repeat match goal with |- context [Nat.eqb ?a ?b] => let E := fresh in destruct (Nat.eqb_spec a b) as [E|E]; [exfalso; lia|] end. ring.
Qed.
Lemma member_power_none m p x kb : dget (fst kb) (p_dist p) = None -> dget (fst kb) (p_conc p) = None -> member_power m p x kb = 0.
Proof.
  intros E1 E2. unfold member_power, work12. apply rsum_0. intros i Hi. unfold pat_beam_f. rewrite E1, E2.
  unfold vnth, zeros. rewrite nth_repeat. ring.
Qed.
Lemma c79_nodes ext ops w m case f t o names k d : w = final ext init ops -> never_readds_nodes ext ops ->
  assembled_model w = Some m -> load_vector w case = Some f ->
  l_built (load_notes (trace ext init ops)) = Some t -> l_case t case = Some o -> nodes_only t o ->
  NoDup names -> (forall p, o_uses o p <> None -> In p names) ->
  In k (dkeys (f_nodes m)) -> (d < 6)%nat ->
  coo_get f (6 * num m k + d) 0 = told_at t o names k d.
Proof.
  intros Hw NR Hm HF HB HO NO ND HN Hk Hd.
  pose proof (assembled_good _ _ _ _ Hw NR Hm) as (W & HP & _). destruct (load_inv _ _ _ _ _ _ Hw Hm HF) as (_ & _ & B).
  subst w. rewrite <- bil_delta. fold one0. rewrite B. clear B.
  unfold assembled_model in Hm. destruct (read_asb (final ext init ops)) as [a|] eqn:Ha; [|discriminate]. cbn in Hm. apply some_inj in Hm. subst m.
  destruct (c79_built ext ops a Ha) as (t' & HB' & HL & HS & HC). rewrite HB in HB'. apply some_inj in HB'. subst t'.
  destruct (asm_reach _ _ _ Ha) as (c & Wc & Hh & _ & Em & Eh & Ec & _).
  specialize (HC case). rewrite HO in HC. unfold applied. rewrite Ha. destruct (dget case (a_cases a)) as [lc|] eqn:Elc; [|contradiction].
  assert (CO : case_ok (a_heap a) case lc) by (rewrite Eh; apply (cw_cases _ Wc); apply dget_some_in; rewrite <- Ec; exact Elc).
  destruct HC as (_ & HU & HFa & _).
  set (q := (6 * num (a_model a) k + d)%nat).
  rewrite <- (lsum_applied (a_heap a) lc (fun p => match o_uses o p with Some (i, _) => node_load t i k d | None => 0 end)
     (fun p => pattern_power (a_model a) p (delta q))).
  2:{ intros p Hp. apply dget_in_keys in Hp as (fac & Hp). rewrite HFa in Hp.
      destruct (o_uses o p) as [[i fac']|] eqn:EU; [|discriminate].
      assert (Ep : dget p (c_pats lc) = Some i) by (rewrite HU, EU; reflexivity).
      destruct (co_pat _ _ _ CO _ _ (dget_some_in _ _ _ Ep)) as (x & X & _). exists x.
      split; [unfold deref; rewrite Ep; exact X|].
      destruct (HS _ _ X) as (S1 & S2 & S3). unfold pattern_power.
      rewrite (lsum_single _ _ k (wf_nodup _ W) Hk).
      2:{ intros k' Hk' N. unfold q. rewrite node_power_delta; auto using (wf_nodup _ W). now destruct (String.eqb_spec k' k). }
      unfold q. rewrite node_power_delta; auto using (wf_nodup _ W). rewrite String.eqb_refl.
      rewrite lsum_zero. 2:{ intros kb _. apply member_power_none; [rewrite S2|rewrite S3]; destruct (NO p i fac' EU (fst kb)) as [Z1 Z2]; rewrite ?Z1, ?Z2; reflexivity. }
      rewrite Rplus_0_r. unfold node_load, load_entry. rewrite S1. destruct (s_node (l_sheet t i) k); reflexivity. }
  unfold told_at.
  transitivity (lsum (map (fun p => match o_uses o p with Some (i, factor) => factor * node_load t i k d | None => 0 end) (dkeys (c_factor lc)))).
  - unfold dkeys. rewrite map_map. apply lsum_map_ext. intros [p fac] Hp. cbn [fst snd].
    assert (E : dget p (c_factor lc) = Some fac) by (apply in_dget_nodup; [apply CO|exact Hp]). rewrite HFa in E.
    destruct (o_uses o p) as [[i fac']|]; [|discriminate]. apply some_inj in E. cbn in E. subst fac'. ring.
  - apply lsum_names; [apply CO|exact ND| |].
    + intros p Hp. apply HN. apply dget_in_keys in Hp as (fac & Hp). rewrite HFa in Hp. destruct (o_uses o p); discriminate.
    + intros p Hp Np. destruct (o_uses o p) as [[i fac]|] eqn:EU; [|reflexivity]. exfalso. apply Np. apply dget_in_keys. exists fac. rewrite HFa, EU. reflexivity.
Qed.
