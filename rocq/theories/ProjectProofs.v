(** Proofs about project files (C105). *)
From Coq Require Import Reals Lra Lia List String Arith Bool ZArith.
From Verif Require Import Base BaseFacts General SpecGeneral GeneralProofs GeneralProofs2 GeneralProofs3 GeneralProofs4 Mesh SpecMesh.
Import ListNotations.
Local Open Scope R_scope.

Lemma mdo_base_spec : forall q b, mdo_base q = Some b -> q = (b ++ ".mdo")%string.
Proof.
  intros q. induction q as [|c r IH]; intros b H; [discriminate|].
  unfold mdo_base in H; fold mdo_base in H. destruct (String.eqb (String c r) ".mdo") eqn:E.
  - injection H as <-. apply String.eqb_eq in E. exact E.
  - destruct (mdo_base r) as [b'|]; [|discriminate]. injection H as <-. cbn [append]. f_equal. apply IH. reflexivity.
Qed.
Lemma mdo_base_app : forall b, mdo_base (b ++ ".mdo") = Some b.
Proof.
  intro b. induction b as [|c r IH]; [reflexivity|]. cbn [append]. unfold mdo_base; fold mdo_base.
  destruct (String.eqb (String c (r ++ ".mdo")) ".mdo") eqn:E; [|rewrite IH; reflexivity].
  apply String.eqb_eq in E. injection E as _ E. exfalso. assert (L : String.length (r ++ ".mdo") = 3%nat) by (rewrite E; reflexivity).
  clear -L. induction r as [|x r IH]; cbn in L; [discriminate|]. injection L as L. assert (K : forall s, (4 <= String.length (s ++ ".mdo"))%nat) by (induction s; cbn; lia). specialize (K r). lia.
Qed.
Lemma mdo_op : forall b, (b ++ ".mdo")%string <> (b ++ ".op")%string.
Proof. intro b. induction b as [|c r IH]; cbn [append]; [discriminate|]. intro H. injection H as H. exact (IH H). Qed.

Lemma dget_ddel : forall {A} k (m : dict A) q, dget q (ddel k m) = if String.eqb q k then None else dget q m.
Proof.
  intros A k m q. unfold ddel. induction m as [|[a v] r IH]; cbn [filter dget fst]; [destruct (String.eqb q k); reflexivity|].
  destruct (String.eqb a k) eqn:E; cbn [negb].
  - apply String.eqb_eq in E. subst a. rewrite IH. destruct (String.eqb q k) eqn:Q; reflexivity.
  - cbn [dget]. rewrite IH. destruct (String.eqb q a) eqn:Q; [|reflexivity]. apply String.eqb_eq in Q. subst a. rewrite E. reflexivity.
Qed.

Lemma prun_app : forall uuid os os' p, prun uuid p (os ++ os') =
  (fst (prun uuid (fst (prun uuid p os)) os'), snd (prun uuid p os) ++ snd (prun uuid (fst (prun uuid p os)) os')).
Proof.
  intros uuid os os'. induction os as [|o r IH]; intro p; cbn [app prun].
  - cbn [fst snd app]. destruct (prun uuid p os'). reflexivity.
  - destruct (pstep uuid p o) as [p1 x]. rewrite IH. destruct (prun uuid p1 r) as [p2 xs]. reflexivity.
Qed.
Lemma grun_snd_cons : forall uuid s o r, snd (grun uuid s (o :: r)) = snd (gstep uuid s o) :: snd (grun uuid (fst (gstep uuid s o)) r).
Proof. intros. cbn [grun]. destruct (gstep uuid s o) as [s1 x]. cbn [fst snd]. destruct (grun uuid s1 r). reflexivity. Qed.

(** Editing: the session goes as [grun], only the file of its engine changes. *)
Lemma edits_run : forall uuid ops dk e s paths, dget e dk = Some (s_saved s) ->
  let s' := fst (grun uuid s ops) in
  exists dk', prun uuid (Proj dk (Some (e, s)) paths (s_next s)) (edits ops) = (Proj dk' (Some (e, s')) paths (s_next s'), map DAnswer (snd (grun uuid s ops))) /\
    dget e dk' = Some (s_saved s') /\ same_but e dk' dk.
Proof.
  intros uuid ops. induction ops as [|o r IH]; intros dk e s paths H s'.
  - exists dk. split; [reflexivity|]. split; [exact H|intros q _; reflexivity].
  - unfold s'. cbn [edits map prun pstep p_edit p_sess]. rewrite grun_fst_cons, grun_snd_cons.
    destruct (gstep uuid s o) as [s1 a]. cbn [fst snd p_disk p_paths].
    destruct (IH (dset e (s_saved s1) dk) e s1 paths (dget_dset_eq _ _ _)) as [dk' [E [G S]]].
    fold (edits r). rewrite E. exists dk'. split; [reflexivity|]. split; [exact G|].
    intros q Q. rewrite (S q Q). apply dget_dset_neq. exact Q.
Qed.

Definition op_of (b : string) : string := (b ++ ".op")%string.

Lemma open_run : forall uuid p b d, dget (b ++ ".mdo") (p_disk p) = Some d ->
  pstep uuid p (POpen (b ++ ".mdo")) = (Proj (dset (op_of b) d (p_disk p)) (Some (op_of b, Session d d (p_drawn p))) (Some (op_of b, (b ++ ".mdo")%string)) (p_drawn p), DDone).
Proof. intros uuid p b d H. cbn [pstep]. unfold p_open. rewrite mdo_base_app, H. reflexivity. Qed.

Lemma c105_storage : forall uuid p b d ops, dget (b ++ ".mdo") (p_disk p) = Some d ->
  let p' := fst (prun uuid p (POpen (b ++ ".mdo") :: edits ops)) in
  at_work p' = Some (s_db (fst (grun uuid (Session d d (p_drawn p)) ops))) /\ same_but (b ++ ".op") (p_disk p') (p_disk p).
Proof.
  intros uuid p b d ops H p'. unfold p'. cbn [prun]. rewrite (open_run uuid p b d H).
  destruct (edits_run uuid ops (dset (op_of b) d (p_disk p)) (op_of b) (Session d d (p_drawn p)) (Some (op_of b, (b ++ ".mdo")%string)) (dget_dset_eq _ _ _)) as [dk [E [G S]]].
  cbn [s_next] in E. rewrite E. cbn [fst]. split; [reflexivity|]. intros q Q. cbn [p_disk]. rewrite (S q Q). apply dget_dset_neq. exact Q.
Qed.

Lemma no_raise_answers : forall l, ~ In DRaise (map DAnswer l).
Proof. intros l H. apply in_map_iff in H. destruct H as [x [H _]]. discriminate. Qed.

Lemma c105_kept : forall uuid p b d ops, dget (b ++ ".mdo") (p_disk p) = Some d ->
  let r := prun uuid p (POpen (b ++ ".mdo") :: edits ops ++ [PSave; PClose]) in
  let drawing := s_db (fst (grun uuid (Session d d (p_drawn p)) ops)) in
  ~ In DRaise (snd r) /\ dget (b ++ ".mdo") (p_disk (fst r)) = Some drawing /\ dget (b ++ ".op") (p_disk (fst r)) = None /\
  (forall q, q <> (b ++ ".mdo")%string -> q <> (b ++ ".op")%string -> dget q (p_disk (fst r)) = dget q (p_disk p)) /\
  at_work (fst (pstep uuid (fst r) (POpen (b ++ ".mdo")))) = Some drawing.
Proof.
  intros uuid p b d ops H r drawing.
  assert (W : exists dk paths n, r = (Proj dk None paths n, DDone :: map DAnswer (snd (grun uuid (Session d d (p_drawn p)) ops)) ++ [DDone; DDone]) /\
     dget (b ++ ".mdo") dk = Some drawing /\ dget (b ++ ".op") dk = None /\
     (forall q, q <> (b ++ ".mdo")%string -> q <> (b ++ ".op")%string -> dget q dk = dget q (p_disk p))).
  { unfold r. cbn [prun]. rewrite (open_run uuid p b d H).
    destruct (edits_run uuid ops (dset (op_of b) d (p_disk p)) (op_of b) (Session d d (p_drawn p)) (Some (op_of b, (b ++ ".mdo")%string)) (dget_dset_eq _ _ _)) as [dk [E [G S]]].
    cbn [s_next] in E. rewrite prun_app, E. cbn [fst snd prun pstep p_save p_sess p_paths p_disk]. fold drawing. rewrite dget_dset_eq. cbn [p_close p_paths p_sess p_disk p_drawn fst snd].
    eexists. eexists. eexists. split; [reflexivity|].
    rewrite !dget_ddel. unfold op_of. rewrite String.eqb_refl. assert (NE := mdo_op b). apply String.eqb_neq in NE. rewrite NE.
    split; [apply dget_dset_eq|]. split; [reflexivity|]. intros q Q1 Q2. rewrite dget_ddel. apply String.eqb_neq in Q2. rewrite Q2. apply String.eqb_neq in Q2.
    rewrite dget_dset_neq by exact Q1. rewrite dget_dset_neq by exact Q2. rewrite (S q Q2). apply dget_dset_neq. exact Q2. }
  destruct W as [dk [paths [n [E [W1 [W2 W3]]]]]]. rewrite E. cbn [fst snd p_disk]. split; [|split; [exact W1|split; [exact W2|split; [exact W3|]]]].
  - intros [K|K]; [discriminate|]. apply in_app_or in K. destruct K as [K|[K|[K|[]]]]; [exact (no_raise_answers _ K)|discriminate|discriminate].
  - rewrite (open_run uuid (Proj dk None paths n) b drawing W1). reflexivity.
Qed.

Lemma c105_lost : forall uuid p b d ops, dget (b ++ ".mdo") (p_disk p) = Some d ->
  let r := prun uuid p (POpen (b ++ ".mdo") :: edits ops ++ [PClose]) in
  ~ In DRaise (snd r) /\ dget (b ++ ".op") (p_disk (fst r)) = None /\ same_but (b ++ ".op") (p_disk (fst r)) (p_disk p) /\
  at_work (fst (pstep uuid (fst r) (POpen (b ++ ".mdo")))) = Some d.
Proof.
  intros uuid p b d ops H r.
  assert (W : exists dk paths n, r = (Proj dk None paths n, DDone :: map DAnswer (snd (grun uuid (Session d d (p_drawn p)) ops)) ++ [DDone]) /\
     dget (b ++ ".op") dk = None /\ same_but (b ++ ".op") dk (p_disk p)).
  { unfold r. cbn [prun]. rewrite (open_run uuid p b d H).
    destruct (edits_run uuid ops (dset (op_of b) d (p_disk p)) (op_of b) (Session d d (p_drawn p)) (Some (op_of b, (b ++ ".mdo")%string)) (dget_dset_eq _ _ _)) as [dk [E [G S]]].
    cbn [s_next] in E. rewrite prun_app, E. cbn [fst snd prun pstep p_close p_sess p_paths p_disk p_drawn].
    eexists. eexists. eexists. split; [reflexivity|]. unfold op_of. rewrite dget_ddel, String.eqb_refl. split; [reflexivity|].
    intros q Q. rewrite dget_ddel. apply String.eqb_neq in Q. rewrite Q. apply String.eqb_neq in Q. rewrite (S q Q). apply dget_dset_neq. exact Q. }
  destruct W as [dk [paths [n [E [W1 W2]]]]]. rewrite E. cbn [fst snd p_disk]. split; [|split; [exact W1|split; [exact W2|]]].
  - intros [K|K]; [discriminate|]. apply in_app_or in K. destruct K as [K|[K|[]]]; [exact (no_raise_answers _ K)|discriminate].
  - rewrite (open_run uuid (Proj dk None paths n) b d); [reflexivity|]. cbn [p_disk]. rewrite W2 by apply mdo_op. exact H.
Qed.

Lemma c105_missing : forall uuid p q, dget q (p_disk p) = None -> pstep uuid p (POpen q) = (p, DRaise).
Proof. intros uuid p q H. cbn [pstep]. unfold p_open. destruct (mdo_base q); [rewrite H|]; reflexivity. Qed.
Lemma c105_suffix : forall uuid p q, (forall b, q <> (b ++ ".mdo")%string) -> pstep uuid p (POpen q) = (p, DRaise) /\ pstep uuid p (PCreate q) = (p, DRaise).
Proof.
  intros uuid p q H. cbn [pstep]. unfold p_open, p_create. destruct (mdo_base q) as [b|] eqn:E; [|split; reflexivity].
  exfalso. exact (H b (mdo_base_spec _ _ E)).
Qed.

(** ** New projects *)
Lemma furnish_new : forall n, furnish (Session empty_db empty_db n) = Session start_db start_db n.
Proof.
  intro n. pose proof create_eq as C. unfold create in C. cbv zeta in C.
  unfold furnish. cbv zeta.
  assert (M : forall x, fst (add_material "C35" 2500 "isotropic_elastic" (Some (20000000000, 2/10)) (fst (add_material "Q345" 7849 "isotropic_elastic" (Some (200000000000, 3/10)) (Session empty_db empty_db x)))) =
    Session (with_mats (d_mats start_db) empty_db) empty_db x) by reflexivity.
  rewrite M in *. clear M.
  assert (S : forall x, fst (add_frame_section "1-L-H400x200x14x20" "Q345" "I" [4/10; 2/10; 14/1000; 2/100] (Session (with_mats (d_mats start_db) empty_db) empty_db x)) =
    Session (with_secs (d_secs start_db) (with_mats (d_mats start_db) empty_db)) empty_db x).
  { intro x. unfold add_frame_section. cbn [s_db]. cbn [with_mats d_secs d_mats d_unit empty_db dget start_db String.eqb Ascii.eqb Bool.eqb scale].
    unfold section_row, I_consts. cbn [String.eqb Ascii.eqb Bool.eqb]. rewrite !reqb_false by lra. reflexivity. }
  rewrite S. reflexivity.
Qed.

Lemma c105_new : forall uuid p b, dget (b ++ ".mdo") (p_disk p) = None ->
  let r := pstep uuid p (PCreate (b ++ ".mdo")) in
  snd r = DDone /\ at_work (fst r) = Some (s_db create) /\ dget (b ++ ".mdo") (p_disk (fst r)) = Some (s_db create) /\ same_but (b ++ ".mdo") (p_disk (fst r)) (p_disk p).
Proof.
  intros uuid p b H r. unfold r. cbn [pstep]. unfold p_create. rewrite mdo_base_app, H. cbv zeta. rewrite furnish_new, create_eq. cbn [fst snd p_disk s_saved s_db].
  split; [reflexivity|]. split; [reflexivity|]. split; [apply dget_dset_eq|]. intros q Q. apply dget_dset_neq. exact Q.
Qed.

Lemma furnish_old : forall d n, furnished d -> furnish (Session d d n) = Session d d n.
Proof.
  intros d n [H1 [H2 [H3 [H5 H4]]]]. unfold furnish.
  assert (M1 : fst (add_material "Q345" 7849 "isotropic_elastic" (Some (200000000000, 3/10)) (Session d d n)) = Session d d n).
  { unfold add_material. cbn [s_db]. destruct (dget "Q345" (d_mats d)); [reflexivity|congruence]. }
  rewrite M1.
  assert (M2 : fst (add_material "C35" 2500 "isotropic_elastic" (Some (20000000000, 2/10)) (Session d d n)) = Session d d n).
  { unfold add_material. cbn [s_db]. destruct (dget "C35" (d_mats d)); [reflexivity|congruence]. }
  rewrite M2.
  assert (M3 : fst (add_frame_section "1-L-H400x200x14x20" "Q345" "I" [4/10; 2/10; 14/1000; 2/100] (Session d d n)) = Session d d n).
  { unfold add_frame_section. cbn [s_db]. destruct (dget "1-L-H400x200x14x20" (d_secs d)); [reflexivity|congruence]. }
  rewrite M3.
  assert (M5 : fst (add_area_section "A-M120" "C35" "m" (12/100) (Session d d n)) = Session d d n).
  { unfold add_area_section. cbn [s_db]. destruct (existsb _ _); [|reflexivity]. destruct (dget "A-M120" (d_asecs d)); [reflexivity|congruence]. }
  rewrite M5.
  assert (M4 : fst (add_loadcase "S" "static-linear" (Session d d n)) = Session d d n).
  { unfold add_loadcase. cbn [s_db]. destruct (dget "S" (d_cases d)); [reflexivity|congruence]. }
  rewrite M4. reflexivity.
Qed.
Lemma c105_over : forall uuid p b d, dget (b ++ ".mdo") (p_disk p) = Some d -> furnished d ->
  let r := pstep uuid p (PCreate (b ++ ".mdo")) in
  snd r = DDone /\ at_work (fst r) = Some d /\ dget (b ++ ".mdo") (p_disk (fst r)) = Some d.
Proof.
  intros uuid p b d H F r. unfold r. cbn [pstep]. unfold p_create. rewrite mdo_base_app, H. cbv zeta. rewrite furnish_old by exact F. cbn [fst snd p_disk s_saved s_db].
  split; [reflexivity|]. split; [reflexivity|]. apply dget_dset_eq.
Qed.

Lemma c105_created : forall uuid p b ops, dget (b ++ ".mdo") (p_disk p) = None -> p_paths p = None ->
  let p' := fst (prun uuid p (PCreate (b ++ ".mdo") :: edits ops)) in
  let drawing := s_db (fst (grun uuid (Session (s_db create) (s_db create) (p_drawn p)) ops)) in
  at_work p' = Some drawing /\ snd (pstep uuid p' PSave) = DRaise /\ snd (pstep uuid p' PClose) = DRaise /\
  dget (b ++ ".mdo") (p_disk (fst (pstep uuid p' PSave))) = Some drawing.
Proof.
  intros uuid p b ops H N p' drawing. unfold drawing. rewrite create_eq. cbn [s_db]. unfold p'. cbn [prun pstep]. unfold p_create. rewrite mdo_base_app, H. cbv zeta. rewrite furnish_new. cbn [s_saved].
  destruct (edits_run uuid ops (dset (b ++ ".mdo")%string start_db (p_disk p)) (b ++ ".mdo")%string (Session start_db start_db (p_drawn p)) (p_paths p) (dget_dset_eq _ _ _)) as [dk [E [G S]]].
  cbn [s_next] in E. rewrite E. cbn [fst]. split; [reflexivity|]. rewrite N. cbn [p_save p_close p_sess p_paths p_disk fst snd]. split; [reflexivity|]. split; [reflexivity|]. apply dget_dset_eq.
Qed.

(** ** What files hold *)
Definition files_ok (p : proj) : Prop :=
  (forall q d, dget q (p_disk p) = Some d -> frames_ok d) /\
  (forall e s, p_sess p = Some (e, s) -> foks s).

Lemma foks_furnish : forall d n, frames_ok d -> foks (furnish (Session d d n)).
Proof.
  intros d n H. unfold furnish. assert (K : foks (Session d d n)) by (split; exact H).
  apply foks_commit.
  pose proof (foks_step ticks (GAddMaterial "Q345" 7849 "isotropic_elastic" (Some (200000000000, 3/10))) _ I K) as K1. cbn [gstep] in K1.
  pose proof (foks_step ticks (GAddMaterial "C35" 2500 "isotropic_elastic" (Some (20000000000, 2/10))) _ I K1) as K2. cbn [gstep] in K2.
  pose proof (foks_step ticks (GAddSection "1-L-H400x200x14x20" "Q345" "I" [4/10; 2/10; 14/1000; 2/100]) _ I K2) as K3. cbn [gstep] in K3.
  pose proof (foks_step ticks (GAddAreaSec "A-M120" "C35" "m" (12/100)) _ I K3) as K4. cbn [gstep] in K4.
  exact (foks_step ticks (GAddCase "S" "static-linear") _ I K4).
Qed.
Lemma files_put : forall q d dk, frames_ok d -> (forall r e, dget r dk = Some e -> frames_ok e) -> forall r e, dget r (dset q d dk) = Some e -> frames_ok e.
Proof.
  intros q d dk H K r e E. destruct (String.eqb_spec r q) as [Q|Q].
  - subst r. rewrite dget_dset_eq in E. injection E as <-. exact H.
  - rewrite dget_dset_neq in E by exact Q. exact (K r e E).
Qed.
Lemma files_step : forall uuid o p, plain_pop o -> files_ok p -> files_ok (fst (pstep uuid p o)).
Proof.
  intros uuid o p P [D S]. destruct o as [q|q| | |o]; cbn [pstep].
  - unfold p_create. destruct (mdo_base q); [|split; assumption]. cbv zeta. cbn [fst].
    assert (K : foks (furnish (Session match dget q (p_disk p) with Some d => d | None => empty_db end match dget q (p_disk p) with Some d => d | None => empty_db end (p_drawn p)))).
    { apply foks_furnish. destruct (dget q (p_disk p)) as [d|] eqn:E; [exact (D q d E)|intros f []]. }
    split; cbn [p_disk p_sess]; [|intros e s0 E; injection E as _ <-; exact K]. apply files_put; [apply K|exact D].
  - unfold p_open. destruct (mdo_base q) as [b|]; [|split; assumption]. destruct (dget q (p_disk p)) as [d|] eqn:E; [|split; assumption].
    pose proof (D q d E) as K. split; cbn [fst p_disk p_sess]; [apply files_put; assumption|]. intros e s0 X. injection X as _ <-. split; exact K.
  - unfold p_save. destruct (p_sess p) as [[e s]|] eqn:ES; [|split; [exact D|cbn [fst]; rewrite ES; discriminate]]. pose proof (S e s eq_refl) as K. cbv zeta. cbn [p_disk p_sess p_paths p_drawn].
    assert (D1 : forall r d, dget r (dset e (s_db s) (p_disk p)) = Some d -> frames_ok d) by (apply files_put; [apply K|exact D]).
    assert (S1 : forall e0 s0, Some (e, commit s) = Some (e0, s0) -> foks s0) by (intros e0 s0 X; injection X as _ <-; apply foks_commit; exact K).
    destruct (p_paths p) as [[op store]|]; [|split; assumption]. destruct (dget op (dset e (s_db s) (p_disk p))) as [d|] eqn:E; [|split; assumption].
    split; cbn [fst p_disk p_sess]; [|exact S1]. apply files_put; [exact (D1 op d E)|exact D1].
  - unfold p_close. destruct (p_paths p) as [[op store]|].
    + split; cbn [fst p_disk p_sess]; [|discriminate]. intros q d E. rewrite dget_ddel in E. destruct (String.eqb q op); [discriminate|exact (D q d E)].
    + destruct (p_sess p) as [[e s]|] eqn:ES; cbn [fst]; [|split; [exact D|rewrite ES; discriminate]].
      split; cbn [p_disk p_sess]; [exact D|]. intros e0 s0 X. injection X as _ <-. apply foks_rollback. exact (S e s eq_refl).
  - unfold p_edit. destruct (p_sess p) as [[e s]|] eqn:ES; [|split; [exact D|cbn [fst]; rewrite ES; discriminate]].
    pose proof (foks_step uuid o s P (S e s eq_refl)) as K. destruct (gstep uuid s o) as [s' a]. cbn [fst] in *.
    split; cbn [p_disk p_sess]; [apply files_put; [apply K|exact D]|]. intros e0 s0 X. injection X as _ <-. exact K.
Qed.
Lemma c105_frames_partial : forall uuid os q d, Forall plain_pop os -> dget q (p_disk (fst (prun uuid no_project os))) = Some d -> frames_ok d.
Proof.
  intros uuid os q d P. assert (K : forall p, files_ok p -> files_ok (fst (prun uuid p os))).
  { induction P as [|o r Po Pr IH]; intros p H; [exact H|]. cbn [prun]. pose proof (files_step uuid o p Po H) as H1. destruct (pstep uuid p o) as [p1 x]. cbn [fst] in H1.
    specialize (IH p1 H1). destruct (prun uuid p1 r). exact IH. }
  apply K. split; [discriminate|discriminate].
Qed.

(** ** Cases *)
Lemma c105_open_refuted : exists uuid b, let r := pstep uuid no_project (POpen (b ++ ".mdo")) in snd r = DRaise /\ dget (b ++ ".mdo") (p_disk (fst r)) = None.
Proof. exists ticks, "A"%string. split; reflexivity. Qed.

Lemma start_furnished : furnished start_db.
Proof. repeat split; discriminate. Qed.

Lemma furnish_empty : p_create "A.mdo" no_project = (Proj [("A.mdo"%string, start_db)] (Some ("A.mdo"%string, Session start_db start_db 0)) None 0, DDone).
Proof. unfold p_create, no_project. cbn [mdo_base String.eqb Ascii.eqb Bool.eqb p_disk dget p_drawn p_paths]. cbv zeta. rewrite furnish_new. reflexivity. Qed.

Definition a_kn : db := with_unit "kN_m_C" start_db.
Lemma c105_create_refuted : exists uuid b os, let p := fst (prun uuid no_project os) in
  snd (pstep uuid p (PCreate (b ++ ".mdo"))) = DDone /\ at_work (fst (pstep uuid p (PCreate (b ++ ".mdo")))) <> Some (s_db create).
Proof.
  exists ticks, "A"%string, [PCreate "A.mdo"; POpen "A.mdo"; PEdit (GSetUnit "kN_m_C"); PSave].
  assert (E : p_disk (fst (prun ticks no_project [PCreate "A.mdo"; POpen "A.mdo"; PEdit (GSetUnit "kN_m_C"); PSave])) = [("A.mdo"%string, a_kn); ("A.op"%string, a_kn)]).
  { cbn [prun pstep]. rewrite furnish_empty. reflexivity. }
  assert (G : dget ("A" ++ ".mdo") (p_disk (fst (prun ticks no_project [PCreate "A.mdo"; POpen "A.mdo"; PEdit (GSetUnit "kN_m_C"); PSave]))) = Some a_kn) by (rewrite E; reflexivity).
  cbv zeta. destruct (c105_over ticks _ "A" a_kn G start_furnished) as [H1 [H2 _]]. split; [exact H1|]. rewrite H2, create_eq. cbn [s_db]. intro K. injection K. discriminate.
Qed.

Lemma c105_switch_refuted : exists uuid os a b before after,
  dget (a ++ ".mdo") (p_disk (fst (prun uuid no_project os))) = Some before /\
  ~ In PSave os /\
  let r := prun uuid (fst (prun uuid no_project os)) [PCreate (b ++ ".mdo"); PSave] in
  a <> b /\ snd r = [DDone; DDone] /\ dget (a ++ ".mdo") (p_disk (fst r)) = Some after /\ after <> before.
Proof.
  exists ticks, [PCreate "A.mdo"; POpen "A.mdo"; PEdit (GSetUnit "kN_m_C"); PEdit (GResults "S" (fun _ => []) (fun _ => []))], "A"%string, "B"%string, start_db, a_kn.
  assert (E : fst (prun ticks no_project [PCreate "A.mdo"; POpen "A.mdo"; PEdit (GSetUnit "kN_m_C"); PEdit (GResults "S" (fun _ => []) (fun _ => []))]) =
     Proj [("A.mdo"%string, start_db); ("A.op"%string, a_kn)] (Some ("A.op"%string, Session a_kn a_kn 0)) (Some ("A.op", "A.mdo")%string) 0).
  { cbn [prun pstep]. rewrite furnish_empty. reflexivity. }
  rewrite E. split; [reflexivity|]. split; [intros [K|[K|[K|[K|[]]]]]; discriminate|]. cbv zeta. split; [discriminate|].
  cbn [prun pstep append]. unfold p_create. cbn [mdo_base String.eqb Ascii.eqb Bool.eqb p_disk dget p_drawn p_paths]. cbv zeta. rewrite furnish_new.
  split; [reflexivity|]. split; [reflexivity|]. intro K. assert (U : d_unit a_kn = d_unit start_db) by (rewrite K; reflexivity). discriminate.
Qed.
