(** Proofs about the drawing model: where the frames of a batch lie. *)
From Coq Require Import Reals List String Arith Bool ZArith Lia Lra Permutation Sorting.Sorted.
From Verif Require Import Base BaseFacts General SpecGeneral GeneralProofs GeneralProofs2 GeneralProofs3.
Import ListNotations.
Local Open Scope R_scope.

(** ** Order of places *)
Definition jle (a b : joint) : Prop := joint_le a b = true.
Lemma rltb_spec a b : (Rltb a b = true /\ a < b) \/ (Rltb a b = false /\ b <= a).
Proof. destruct (Rlt_dec a b) as [H|H]; [left|right]; (split; [|lra]); [apply rltb_yes|apply rltb_no]; lra. Qed.
Lemma jle_iff a b : jle a b <-> j_x a < j_x b \/ (j_x a = j_x b /\ (j_y a < j_y b \/ (j_y a = j_y b /\ j_z a <= j_z b))).
Proof.
  unfold jle, joint_le.
  destruct (rltb_spec (j_x a) (j_x b)) as [[-> H1]|[-> H1]]; [split; [lra|reflexivity]|].
  destruct (rltb_spec (j_x b) (j_x a)) as [[-> H2]|[-> H2]]; [split; [discriminate|lra]|].
  destruct (rltb_spec (j_y a) (j_y b)) as [[-> H3]|[-> H3]]; [split; [lra|reflexivity]|].
  destruct (rltb_spec (j_y b) (j_y a)) as [[-> H4]|[-> H4]]; [split; [discriminate|lra]|].
  destruct (rltb_spec (j_z b) (j_z a)) as [[-> H5]|[-> H5]]; cbn [negb]; split; try discriminate; try reflexivity; lra.
Qed.
Lemma jle_trans a b c : jle a b -> jle b c -> jle a c.
Proof. rewrite !jle_iff. lra. Qed.
Lemma jle_total a b : joint_le a b = false -> jle b a.
Proof.
  intros H. apply jle_iff. destruct (Rtotal_order (j_x a) (j_x b)) as [X|[X|X]]; [| |lra].
  - assert (jle a b) by (apply jle_iff; lra). unfold jle in *. congruence.
  - destruct (Rtotal_order (j_y a) (j_y b)) as [Y|[Y|Y]]; [| |lra].
    + assert (jle a b) by (apply jle_iff; lra). unfold jle in *. congruence.
    + destruct (Rle_dec (j_z a) (j_z b)) as [Z|Z]; [|lra].
      assert (jle a b) by (apply jle_iff; lra). unfold jle in *. congruence.
Qed.
Lemma pos_eq a b : pos a = pos b <-> j_x a = j_x b /\ j_y a = j_y b /\ j_z a = j_z b.
Proof. unfold pos. split; [intros H; injection H; auto|intros (-> & -> & ->); reflexivity]. Qed.
Lemma jle_between a b c : jle a b -> jle b c -> pos a = pos c -> pos b = pos a.
Proof. rewrite !jle_iff, !pos_eq. lra. Qed.

Lemma insert_sorted a l : StronglySorted jle l -> StronglySorted jle (insert_joint a l).
Proof.
  induction l as [|b r IH]; intros H; cbn [insert_joint]; [repeat constructor|].
  inversion H as [|b' r' Hr Hb]; subst. destruct (joint_le a b) eqn:E.
  - constructor; [exact H|]. constructor; [exact E|]. eapply Forall_impl; [|exact Hb]. intros c Hc. eapply jle_trans; [exact E|exact Hc].
  - constructor; [apply IH, Hr|]. apply jle_total in E.
    apply Forall_forall. intros c Hc. apply (Permutation_in c (insert_perm a r)) in Hc. destruct Hc as [<-|Hc]; [exact E|].
    rewrite Forall_forall in Hb. apply Hb, Hc.
Qed.
Lemma sort_sorted l : StronglySorted jle (sort_joints l).
Proof. unfold sort_joints. induction l as [|a l IH]; cbn [fold_right]; [constructor|]. apply insert_sorted, IH. Qed.

(** ** Merging joints that are apart or at the same place *)
Lemma dist2_places a b : dist2 a b = place_dist2 (pos a) (pos b).
Proof. reflexivity. Qed.
Lemma same_dist a b : pos a = pos b -> dist2 a b = 0.
Proof. intros H. apply pos_eq in H. destruct H as (X & Y & Z). unfold dist2. rewrite X, Y, Z. ring. Qed.

Lemma name_inj l a b : NoDup (map j_name l) -> In a l -> In b l -> j_name a = j_name b -> a = b.
Proof.
  induction l as [|c l IH]; intros ND Ha Hb E; [destruct Ha|]. inversion ND as [|x y N1 N2]; subst.
  destruct Ha as [<-|Ha], Hb as [<-|Hb]; [reflexivity| | |apply IH; assumption].
  - exfalso. apply N1. rewrite E. apply in_map, Hb.
  - exfalso. apply N1. rewrite <- E. apply in_map, Ha.
Qed.

Lemma merge_place tol U : NoDup (map j_name U) -> well_apart tol (map pos U) ->
  forall l a m m' rm, incl (a :: l) U ->
  (forall j, In j U -> exists k, In k U /\ dget (j_name j) m = Some (j_name k) /\ pos k = pos j) ->
  merge_pairs tol (a :: l) m = (m', rm) ->
  forall j, In j U -> exists k, In k U /\ dget (j_name j) m' = Some (j_name k) /\ pos k = pos j.
Proof.
  intros ND WA l. induction l as [|b r IH]; intros a m m' rm HU Hm E.
  - simpl in E. injection E as <- <-. exact Hm.
  - rewrite merge_pairs_cons in E.
    assert (Ha : In a U) by (apply HU; left; reflexivity). assert (Hb : In b U) by (apply HU; right; left; reflexivity).
    assert (HU' : incl (b :: r) U) by (intros x Hx; apply HU; right; exact Hx).
    destruct (rltb_spec (dist2 a b) (tol^2)) as [[X D]|[X D]]; rewrite X in E; [|eapply IH; eassumption].
    destruct (Hm a Ha) as (k & Hk & Ek & Pk). rewrite Ek in E.
    destruct (merge_pairs tol (b :: r) (dset (j_name b) (j_name k) m)) as [m2 rm2] eqn:E2. injection E as <- <-.
    assert (Pab : pos a = pos b).
    { destruct (WA (pos a) (pos b)) as [P|P]; [apply in_map, Ha|apply in_map, Hb|exact P|]. rewrite <- dist2_places in P. lra. }
    eapply IH; [exact HU'| |exact E2]. intros j Hj.
    destruct (String.eqb_spec (j_name j) (j_name b)) as [N|N].
    + assert (j = b) by (eapply name_inj; eassumption). subst j. exists k. split; [exact Hk|]. split; [apply dget_dset_eq|congruence].
    + destruct (Hm j Hj) as (k' & A & B & C). exists k'. split; [exact A|]. split; [|exact C]. rewrite dget_dset_neq; [exact B|].
      intros Y. apply N. congruence.
Qed.

Lemma merge_head tol : tol <> 0 -> forall l a m m' rm, StronglySorted jle (a :: l) -> merge_pairs tol (a :: l) m = (m', rm) ->
  forall b, In b l -> pos b = pos a -> In b rm.
Proof.
  intros T l. induction l as [|c r IH]; intros a m m' rm S E b Hb P; [destruct Hb|]. rewrite merge_pairs_cons in E.
  inversion S as [|x y S1 S2]; subst. rewrite Forall_forall in S2.
  assert (Pc : pos c = pos a).
  { destruct Hb as [<-|Hb]; [exact P|]. apply (jle_between a c b); [apply S2; left; reflexivity| |congruence].
    inversion S1 as [|x y S3 S4]; subst. rewrite Forall_forall in S4. apply S4, Hb. }
  assert (T2 : 0 < tol^2) by (replace (tol^2) with (tol*tol) by ring; apply Rsqr_pos_lt; exact T).
  destruct (rltb_spec (dist2 a c) (tol^2)) as [[X D]|[X D]]; [|rewrite same_dist in D by congruence; lra]. rewrite X in E.
  match type of E with context [merge_pairs tol (c :: r) ?M] => destruct (merge_pairs tol (c :: r) M) as [m2 rm2] eqn:E2 end.
  injection E as <- <-. destruct Hb as [<-|Hb]; [left; reflexivity|]. right. eapply IH; [exact S1|exact E2|exact Hb|congruence].
Qed.

Lemma merge_unique tol : tol <> 0 -> forall l a m m' rm, StronglySorted jle (a :: l) -> merge_pairs tol (a :: l) m = (m', rm) ->
  forall b c, In b (a :: l) -> In c (a :: l) -> pos b = pos c -> ~ In b rm -> ~ In c rm -> b = c.
Proof.
  intros T l. induction l as [|d r IH]; intros a m m' rm S E b c Hb Hc P Nb Nc.
  - destruct Hb as [<-|[]], Hc as [<-|[]]. reflexivity.
  - pose proof (merge_head tol T (d :: r) a m m' rm S E) as H.
    destruct Hb as [<-|Hb], Hc as [<-|Hc]; [reflexivity| | |].
    + exfalso. apply Nc, H; [exact Hc|congruence].
    + exfalso. apply Nb, H; [exact Hb|congruence].
    + inversion S as [|x y S1 S2]; subst. rewrite merge_pairs_cons in E.
      destruct (Rltb (dist2 a d) (tol^2)).
      * match type of E with context [merge_pairs tol (d :: r) ?M] => destruct (merge_pairs tol (d :: r) M) as [m2 rm2] eqn:E2 end.
        injection E as <- <-. eapply IH; [exact S1|exact E2|exact Hb|exact Hc|exact P| |]; intros X; [apply Nb|apply Nc]; right; exact X.
      * eapply IH; eassumption.
Qed.

Lemma merge_map_places tol l m rm : tol <> 0 -> NoDup (map j_name l) -> well_apart tol (map pos l) -> merge_map tol l = (m, rm) ->
  (forall j, In j l -> exists k, In k l /\ dget (j_name j) m = Some (j_name k) /\ pos k = pos j)
  /\ (forall b c, In b l -> In c l -> pos b = pos c -> ~ In b rm -> ~ In c rm -> b = c).
Proof.
  intros T ND WA E. pose proof (sort_perm l) as P. unfold merge_map in E.
  assert (S : StronglySorted jle (sort_joints l)) by apply sort_sorted.
  set (q := sort_joints l) in *.
  assert (Iq : forall j, In j l <-> In j q) by (intro j; split; apply Permutation_in; [apply Permutation_sym|]; exact P).
  destruct q as [|a r] eqn:Eq.
  - split; [intros j Hj; apply Iq in Hj; destruct Hj|intros b c Hb; apply Iq in Hb; destruct Hb].
  - split.
    + apply (merge_place tol l ND WA r a (map (fun j : joint => (j_name j, j_name j)) (a :: r)) m rm); [intros x Hx; apply Iq, Hx| |exact E].
      intros j Hj. exists j. split; [exact Hj|]. split; [|reflexivity]. apply dget_self. apply in_map, Iq, Hj.
    + intros b c Hb Hc. apply Iq in Hb. apply Iq in Hc. eapply merge_unique; eassumption.
Qed.

(** ** The batch *)
Lemma batch_joints_places : forall uuid L pts s s' ends, batch_joints uuid L pts s = (s', ends) ->
  (exists k, d_joints (s_db s') = d_joints (s_db s) ++ k /\ map pos k = batch_places L pts)
  /\ Forall2 (fun pq e => (exists a, is_joint (s_db s') (fst e) a /\ pos a = scaled L (fst pq))
                          /\ (exists b, is_joint (s_db s') (snd e) b /\ pos b = scaled L (snd pq))) pts ends.
Proof.
  intros uuid L pts. induction pts as [|[[[x0 y0] z0] [[x1 y1] z1]] r IH]; intros s s' ends E.
  - simpl in E. injection E as <- <-. split; [exists []; split; [symmetry; apply app_nil_r|reflexivity]|constructor].
  - cbn [batch_joints add_joint] in E.
    match type of E with context [batch_joints uuid L r ?S] => destruct (batch_joints uuid L r S) as [s3 l] eqn:E3;
      destruct (IH _ _ _ E3) as [[k [Gk Pk]] F] end.
    injection E as <- <-. cbn [draw upd s_db with_joints d_joints s_next] in *.
    assert (J : d_joints (s_db s3) = d_joints (s_db s) ++
      (Joint (uuid (s_next s)) (x0*L) (y0*L) (z0*L) :: Joint (uuid (S (s_next s))) (x1*L) (y1*L) (z1*L) :: k)).
    { rewrite Gk. rewrite <- !app_assoc. reflexivity. }
    split; [eexists; split; [exact J|]; cbn [map]; rewrite Pk; reflexivity|].
    constructor; [|exact F]. cbn [fst snd]. split; [exists (Joint (uuid (s_next s)) (x0*L) (y0*L) (z0*L))|exists (Joint (uuid (S (s_next s))) (x1*L) (y1*L) (z1*L))];
      (split; [split; [rewrite J; apply in_or_app; right|reflexivity]|reflexivity]).
    + left. reflexivity.
    + right. left. reflexivity.
Qed.

Lemma batch_frames_all : forall uuid sec m ends s s' names, batch_frames uuid sec m ends s = (s', names) ->
  (forall e, In e ends -> exists a b, dget (fst e) m = Some a /\ dget (snd e) m = Some b /\ a <> b) ->
  exists fs, d_frames (s_db s') = d_frames (s_db s) ++ fs /\ map fr_name fs = names /\ d_joints (s_db s') = d_joints (s_db s)
    /\ d_unit (s_db s') = d_unit (s_db s) /\ d_rest (s_db s') = d_rest (s_db s) /\ d_jloads (s_db s') = d_jloads (s_db s)
    /\ Forall2 (fun e f => fr_section f = sec /\ dget (fst e) m = Some (start_of f) /\ dget (snd e) m = Some (end_of f)) ends fs.
Proof.
  intros uuid sec m ends. induction ends as [|[a b] r IH]; intros s s' names E Hm.
  - simpl in E. injection E as <- <-. exists []. rewrite app_nil_r. repeat split. constructor.
  - cbn [batch_frames] in E. destruct (Hm (a, b) (or_introl eq_refl)) as (a' & b' & Ea & Eb & N). cbn [fst snd] in Ea, Eb.
    rewrite Ea, Eb in E. cbn [bindO] in E. destruct (order_ends a' b') as [[[p q] o]|] eqn:EO; [|exfalso; apply N, order_ends_none, EO].
    match type of E with context [batch_frames uuid sec m r ?S] => destruct (batch_frames uuid sec m r S) as [s2 l] eqn:E2;
      destruct (IH _ _ _ E2) as (fs & H1 & H2 & H3 & H4 & H5 & H6 & H7); [intros e He; apply Hm; right; exact He|] end.
    injection E as <- <-. cbn [draw upd s_db with_frames d_frames d_joints d_secs d_rest d_jloads d_unit] in *.
    exists (Frame (uuid (s_next s)) sec p q o :: fs). split; [rewrite H1, <- app_assoc; reflexivity|].
    split; [simpl; rewrite H2; reflexivity|]. repeat (split; [assumption|]). constructor; [|exact H7].
    cbn [fr_section fst snd]. split; [reflexivity|]. rewrite Ea, Eb.
    destruct (order_ends_spec _ _ _ _ _ EO) as [[-> [-> ->]]|[-> [-> ->]]]; split; reflexivity.
Qed.

Lemma Forall2_in_left {A B} (R : A -> B -> Prop) l l' b : Forall2 R l l' -> In b l' -> exists a, In a l /\ R a b.
Proof. intros F. induction F as [|x y l l' H F IH]; intros Hb; [destruct Hb|]. destruct Hb as [<-|Hb]; [exists x; split; [left; reflexivity|exact H]|]. destruct (IH Hb) as (a & Ha & Ra). exists a. split; [right|]; assumption. Qed.
Lemma Forall2_chain {A B C} (R : A -> B -> Prop) (S : B -> C -> Prop) (T : A -> C -> Prop) l l' l'' :
  (forall a b c, R a b -> S b c -> T a c) -> Forall2 R l l' -> Forall2 S l' l'' -> Forall2 T l l''.
Proof. intros H F. revert l''. induction F as [|x y l l' Hxy F IH]; intros l'' G; inversion G; subst; constructor; eauto. Qed.

Lemma c69_placed : forall uuid s pts sec s' names, fresh_names uuid -> drawn uuid s -> d_tol (s_db s) <> 0 ->
  Forall (fun pq => fst pq <> snd pq) pts ->
  well_apart (d_tol (s_db s)) (map pos (d_joints (s_db s)) ++ batch_places (metres (d_unit (s_db s))) pts) ->
  gstep uuid s (GAddBatch pts sec) = (s', GNames names) ->
  exists fs, d_frames (s_db s') = d_frames (s_db s) ++ fs /\ map fr_name fs = names
    /\ Forall2 (fun pq f => fr_section f = sec
         /\ runs (s_db s') f (scaled (metres (d_unit (s_db s))) (fst pq)) (scaled (metres (d_unit (s_db s))) (snd pq))) pts fs
    /\ (forall a b, In a (d_joints (s_db s')) -> In b (d_joints (s_db s')) -> pos a = pos b -> a = b).
Proof.
  intros uuid s pts sec s' names Hf Hd T PP WA E. pose proof (drawn_inv _ _ Hf Hd) as H. cbn [gstep] in E. unfold add_frame_batch in E.
  rewrite (scale_units _ (proj1 (proj1 H))) in E. set (L := metres (d_unit (s_db s))) in *.
  destruct pts as [|p pts]; [discriminate|]. destruct (dget sec (d_secs (s_db s))) as [g|]; [|discriminate].
  pose proof (ginv_batch_joints uuid L (p :: pts) s Hf H) as H0.
  destruct (batch_joints uuid L (p :: pts) s) as [s1 ends] eqn:E1. cbn [fst] in H0.
  destruct (batch_joints_spec _ _ _ _ _ _ E1) as [G _]. destruct (batch_joints_places _ _ _ _ _ _ E1) as [(k & Jk & Pk) Fk].
  destruct G as (_ & G1 & G2 & _).
  destruct (merge_map (d_tol (s_db s1)) (d_joints (s_db s1))) as [m rm] eqn:Em.
  assert (ND : NoDup (map j_name (d_joints (s_db s1)))) by exact (proj1 (proj2 (proj1 H0))).
  destruct (merge_map_spec _ _ _ _ ND Em) as [M1 M2].
  assert (WA1 : well_apart (d_tol (s_db s1)) (map pos (d_joints (s_db s1)))).
  { rewrite G2, Jk, map_app, Pk. exact WA. }
  assert (T1 : d_tol (s_db s1) <> 0) by (rewrite G2; exact T).
  destruct (merge_map_places _ _ _ _ T1 ND WA1 Em) as [M3 M4].
  destruct (batch_frames uuid sec m ends s1) as [s2 nm] eqn:E2.
  destruct (batch_frames_all _ _ _ _ _ _ _ E2) as (fs & F1 & F2 & F3 & F4 & F5 & F6 & F7).
  { intros e He. destruct (Forall2_in_left _ _ _ _ Fk He) as (pq & Hpq & (a & (Ia & Na) & Pa) & (b & (Ib & Nb) & Pb)).
    destruct (M3 a Ia) as (ka & Ika & Da & Pka). destruct (M3 b Ib) as (kb & Ikb & Db & Pkb).
    rewrite Na in Da. rewrite Nb in Db. exists (j_name ka), (j_name kb). split; [exact Da|]. split; [exact Db|].
    intros X. assert (ka = kb) by (eapply name_inj; eassumption). subst kb.
    rewrite Forall_forall in PP. apply (PP pq Hpq).
    assert (Y : scaled L (fst pq) = scaled L (snd pq)) by congruence.
    assert (HL : L <> 0) by (unfold L; pose proof (metres_pos (d_unit (s_db s))); lra).
    destruct pq as [[[x y] z] [[x' y'] z']]. cbn [fst snd scaled] in Y |- *. injection Y as Y1 Y2 Y3.
    apply Rmult_eq_reg_r in Y1; [|exact HL]. apply Rmult_eq_reg_r in Y2; [|exact HL]. apply Rmult_eq_reg_r in Y3; [|exact HL]. congruence. }
  destruct (remove_joints rm (s_db s2)) as [d|] eqn:Er; [|discriminate].
  injection E as <- <-. cbn [commit upd s_db]. exists fs.
  assert (Ef : d_frames d = d_frames (s_db s2) /\ forall j, In j (d_joints d) -> In j (d_joints (s_db s2)) /\ ~ In (j_name j) (map j_name rm)).
  { unfold remove_joints in Er. destruct (forallb _ rm); [|discriminate]. injection Er as <-. split; [reflexivity|].
    intros j Hj. cbn [with_joints d_joints] in Hj. apply filter_In in Hj. destruct Hj as [Hj Nj]. split; [exact Hj|].
    intros X. apply negb_true_iff in Nj. apply in_map_iff in X. destruct X as (c & Ec & Hc).
    assert (existsb (fun k0 => String.eqb (j_name k0) (j_name j)) rm = true); [|congruence].
    apply existsb_exists. exists c. split; [exact Hc|]. apply String.eqb_eq. exact Ec. }
  destruct Ef as [Ef Ed]. split; [rewrite Ef, F1, G1; reflexivity|]. split; [exact F2|]. split.
  - eapply Forall2_chain; [|exact Fk|exact F7]. cbn [s_db upd commit].
    intros pq e f [(a & (Ia & Na) & Pa) (b & (Ib & Nb) & Pb)] (Sf & Da & Db). split; [exact Sf|].
    assert (Q : forall j x, In j (d_joints (s_db s1)) -> dget (j_name j) m = Some x -> exists a, is_joint d x a /\ pos a = pos j).
    { intros j x Ij Dj. destruct (M3 j Ij) as (kj & Ikj & Dkj & Pkj). assert (x = j_name kj) by congruence. subst x.
      destruct (M2 (j_name j)) as (x & Dx & Ix & Nx); [apply in_map, Ij|]. assert (x = j_name kj) by congruence. subst x.
      destruct (removed_in rm (s_db s2) d (j_name kj) Er) as (c & Ic & Nc); [rewrite F3; exact Ix|exact Nx|].
      exists c. split; [split; assumption|]. assert (c = kj); [|congruence].
      eapply name_inj; [exact ND| |exact Ikj|exact Nc]. rewrite <- F3. exact (proj1 (Ed c Ic)). }
    split.
    + destruct (Q a (start_of f) Ia) as (c & Hc & Pc); [rewrite Na; exact Da|]. exists c. split; [exact Hc|congruence].
    + destruct (Q b (end_of f) Ib) as (c & Hc & Pc); [rewrite Nb; exact Db|]. exists c. split; [exact Hc|congruence].
  - intros a b Ia Ib P. destruct (Ed a Ia) as [Ia' Na]. destruct (Ed b Ib) as [Ib' Nb]. rewrite F3 in Ia', Ib'.
    apply M4; [exact Ia'|exact Ib'|exact P| |]; intros X; [apply Na|apply Nb]; apply in_map, X.
Qed.

(** A batch is carried out if no joint has restraints or loads. *)
Lemma batch_frames_keeps : forall uuid sec m ends s s' names, batch_frames uuid sec m ends s = (s', names) ->
  d_rest (s_db s') = d_rest (s_db s) /\ d_jloads (s_db s') = d_jloads (s_db s).
Proof.
  intros uuid sec m ends s s' names E. destruct (batch_frames_spec _ _ _ _ _ _ _ E) as (fs & _ & _ & _ & _ & A & B & _). split; assumption.
Qed.
Lemma batch_joints_keeps : forall uuid L pts s, d_rest (s_db (fst (batch_joints uuid L pts s))) = d_rest (s_db s)
  /\ d_jloads (s_db (fst (batch_joints uuid L pts s))) = d_jloads (s_db s).
Proof.
  intros uuid L pts. induction pts as [|[[[x0 y0] z0] [[x1 y1] z1]] r IH]; intros s; [split; reflexivity|].
  cbn [batch_joints add_joint]. match goal with |- context [batch_joints uuid L r ?S] => specialize (IH S); destruct (batch_joints uuid L r S) as [s3 l] end.
  exact IH.
Qed.
Lemma c69_answers : forall uuid s pts sec, fresh_names uuid -> drawn uuid s -> pts <> [] -> dget sec (d_secs (s_db s)) <> None ->
  d_rest (s_db s) = [] -> d_jloads (s_db s) = [] -> exists s' names, gstep uuid s (GAddBatch pts sec) = (s', GNames names).
Proof.
  intros uuid s pts sec Hf Hd Np Ns Hr Hj. pose proof (drawn_inv _ _ Hf Hd) as H. cbn [gstep]. unfold add_frame_batch.
  rewrite (scale_units _ (proj1 (proj1 H))). destruct pts as [|p pts]; [congruence|].
  destruct (dget sec (d_secs (s_db s))) as [g|]; [|congruence].
  pose proof (batch_joints_keeps uuid (metres (d_unit (s_db s))) (p :: pts) s) as [K1 K2].
  destruct (batch_joints uuid (metres (d_unit (s_db s))) (p :: pts) s) as [s1 ends]. cbn [fst] in K1, K2.
  destruct (merge_map (d_tol (s_db s1)) (d_joints (s_db s1))) as [m rm].
  destruct (batch_frames uuid sec m ends s1) as [s2 nm] eqn:E2. destruct (batch_frames_keeps _ _ _ _ _ _ _ E2) as [K3 K4].
  unfold remove_joints. assert (F : forallb (fun j => deletable (s_db s2) (j_name j)) rm = true).
  { apply forallb_forall. intros j _. unfold deletable. rewrite K3, K4, K1, K2, Hr, Hj. reflexivity. }
  rewrite F. eexists. eexists. reflexivity.
Qed.
