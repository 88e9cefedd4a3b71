(** Proofs about the drawing model, continued: frames, failures, batches, look-ups. *)
From Coq Require Import Reals List String Arith Bool ZArith Lia Lra Permutation.
From Verif Require Import Base BaseFacts General SpecGeneral GeneralProofs.
Import ListNotations.
Local Open Scope R_scope.

Lemma c56_partial : forall uuid s p0 p1 sec name n s',
  fresh_names uuid -> drawn uuid s -> gstep uuid s (GAddFrame p0 p1 sec name) = (s', GName n) ->
  exists f a b, d_frames (s_db s') = d_frames (s_db s) ++ [f] /\ fr_name f = n /\ fr_section f = sec /\ start_of f <> end_of f /\
    is_joint (s_db s') (start_of f) a /\ lies (d_tol (s_db s)) (metres (d_unit (s_db s))) a p0 /\
    is_joint (s_db s') (end_of f) b /\ (metres (d_unit (s_db s)) = 1 -> lies (d_tol (s_db s)) (metres (d_unit (s_db s))) b p1).
Proof.
  intros uuid s p0 p1 sec name n s' Hf Hd E.
  destruct (frame_ends uuid s p0 p1 sec name n s' Hf (drawn_inv _ _ Hf Hd) E) as [f [a [b [H1 [H2 [H3 [H4 [H5 [H6 [H7 H8]]]]]]]]]].
  exists f, a, b. repeat split; try assumption; try apply H4; try apply H6. intro X. rewrite X. exact H7.
Qed.

Lemma near_apart : forall tol v a b, near tol v a -> near tol v b -> a <> b -> 2 * tol <= Rabs (a - b) -> False.
Proof.
  intros tol v a b [Ha|Ha] [Hb|Hb] Hn H.
  - congruence.
  - subst v. pose proof (Rabs_pos (a - b)). lra.
  - subst v. rewrite Rabs_minus_sym in H. pose proof (Rabs_pos (b - a)). lra.
  - pose proof (Rabs_triang (v - b) (a - v)). replace (v - b + (a - v)) with (a - b) in H0 by ring.
    rewrite (Rabs_minus_sym a v) in H0. lra.
Qed.

Lemma c56_answers : forall uuid s p0 p1 sec name,
  fresh_names uuid -> drawn uuid s -> metres (d_unit (s_db s)) = 1 -> dget sec (d_secs (s_db s)) <> None ->
  (forall n f, name = Some n -> In f (d_frames (s_db s)) -> fr_name f <> n) ->
  apart (d_tol (s_db s)) p0 p1 ->
  exists n, snd (gstep uuid s (GAddFrame p0 p1 sec name)) = GName n.
Proof.
  intros uuid s [[x0 y0] z0] [[x1 y1] z1] sec name Hf Hd HL Hs Hn Ha. pose proof (drawn_inv _ _ Hf Hd) as H.
  cbn [gstep]. unfold add_frame.
  assert (E : match name with Some n => match find_frame n (s_db s) with Some _ => true | None => false end | None => false end = false).
  { destruct name as [n|]; [|reflexivity]. destruct (find_frame n (s_db s)) as [f|] eqn:E; [|reflexivity]. exfalso.
    unfold find_frame in E. apply find_some in E. destruct E as [E1 E2]. apply String.eqb_eq in E2. exact (Hn n f eq_refl E1 E2). }
  rewrite E. clear E. destruct (dget sec (d_secs (s_db s))) as [g|]; [|congruence].
  rewrite (scale_units _ (proj1 (proj1 H))), HL.
  destruct (joint_at uuid (x0*1) (y0*1) (z0*1) s) as [s1 n0] eqn:E0.
  destruct (joint_at uuid x1 y1 z1 s1) as [s2 n1] eqn:E1.
  destruct (joint_at_spec _ _ _ _ _ _ _ Hf H E0) as [H1 [G1 [a [Ia La]]]].
  destruct (joint_at_spec _ _ _ _ _ _ _ Hf H1 E1) as [H2 [G2 [b [Ib Lb]]]].
  destruct (order_ends n0 n1) as [[[p q] o]|] eqn:EO; [eexists; reflexivity|].
  exfalso. apply order_ends_none in EO. subst n1.
  pose proof (is_joint_grown _ _ _ _ G2 Ia) as Ia2.
  apply (find_joint_is uuid n0 (s_db s2) a _ (proj1 H2)) in Ia2. apply (find_joint_is uuid n0 (s_db s2) b _ (proj1 H2)) in Ib.
  assert (a = b) by congruence. subst b. destruct G1 as [_ [_ [T1 _]]]. rewrite T1 in Lb.
  unfold lies in La, Lb. repeat rewrite Rmult_1_r in La. repeat rewrite Rmult_1_r in Lb.
  destruct La as [A1 [A2 A3]]. destruct Lb as [B1 [B2 B3]].
  destruct Ha as [[X Y]|[[X Y]|[X Y]]];
    [exact (near_apart _ _ _ _ A1 B1 X Y)|exact (near_apart _ _ _ _ A2 B2 X Y)|exact (near_apart _ _ _ _ A3 B3 X Y)].
Qed.

(** Deciding comparisons of numbers. *)
Lemma rltb_yes : forall a b, a < b -> Rltb a b = true.
Proof. intros a b H. unfold Rltb. destruct (Rlt_dec a b); [reflexivity|contradiction]. Qed.
Lemma rltb_no : forall a b, b <= a -> Rltb a b = false.
Proof. intros a b H. unfold Rltb. destruct (Rlt_dec a b); [lra|reflexivity]. Qed.
Ltac rdec := repeat match goal with
  | |- context [Rltb ?a ?b] => first [rewrite (rltb_yes a b) by lra | rewrite (rltb_no a b) by lra] end.

Definition dflt : string := "1-L-H400x200x14x20".

Lemma c56_refuted : exists uuid s p0 p1 n s', fresh_names uuid /\ drawn uuid s /\
  gstep uuid s (GAddFrame p0 p1 dflt None) = (s', GName n) /\
  forall f b, In f (d_frames (s_db s')) -> fr_name f = n -> is_joint (s_db s') (end_of f) b ->
    ~ lies (d_tol (s_db s)) (metres (d_unit (s_db s))) b p1.
Proof.
  pose (s := fst (grun ticks create [GSetUnit "N_mm_C"])).
  assert (Es : s = upd (with_unit "N_mm_C") (Session start_db start_db 0)).
  { unfold s. rewrite create_eq. reflexivity. }
  pose (p0 := ((0, 0), 0) : point). pose (p1 := ((1000, 0), 0) : point).
  pose (f0 := Frame (ticks 2) dflt (ticks 0) (ticks 1) "01").
  pose (j0 := Joint (ticks 0) (0 * (1/1000)) (0 * (1/1000)) (0 * (1/1000))). pose (j1 := Joint (ticks 1) 1000 0 0).
  pose (d' := with_frames [f0] (with_joints [j0; j1] (with_unit "N_mm_C" start_db))).
  assert (G : gstep ticks s (GAddFrame p0 p1 dflt None) = (Session d' start_db 3, GName (ticks 2))).
  { rewrite Es. cbn [gstep]. unfold add_frame, p0, p1. cbn [upd s_db with_unit start_db d_secs d_unit dget dflt String.eqb Ascii.eqb Bool.eqb scale].
    unfold joint_at at 1. cbn [upd s_db d_joints start_db with_unit find]. cbn [add_joint].
    unfold joint_at. cbn [draw upd s_db d_joints start_db with_unit with_joints find app d_tol].
    unfold at_point. cbn [j_x j_y j_z]. rdec. cbn [andb]. reflexivity. }
  exists ticks, s, p0, p1, (ticks 2), (Session d' start_db 3).
  split; [exact ticks_fresh|]. split; [exists [GSetUnit "N_mm_C"]; reflexivity|]. split; [exact G|].
  rewrite Es. cbn [s_db upd with_unit d_unit d_tol start_db]. intros f b Hf _ [Hb E].
  cbn [d' with_frames d_frames] in Hf. destruct Hf as [<-|[]]. cbn [d' with_frames with_joints d_joints] in Hb.
  destruct Hb as [<-|[<-|[]]]; [discriminate E|]. unfold lies, p1, near. cbn [j1 j_x]. intros [[H|H] _].
  - unfold metres in H. cbn in H. lra.
  - unfold metres in H. cbn in H. rewrite Rabs_pos_eq in H; lra.
Qed.

(** ** Failures *)

Lemma saved_joint_at : forall uuid x y z s, s_saved (fst (joint_at uuid x y z s)) = s_saved s.
Proof. intros. unfold joint_at. destruct (find _ _); reflexivity. Qed.
Lemma saved_batch_joints : forall uuid L pts s, s_saved (fst (batch_joints uuid L pts s)) = s_saved s.
Proof.
  intros uuid L pts. induction pts as [|[[[x0 y0] z0] [[x1 y1] z1]] r IH]; intro s; [reflexivity|].
  cbn [batch_joints add_joint].
  match goal with |- context [batch_joints uuid L r ?S] => specialize (IH S); destruct (batch_joints uuid L r S) as [s' l] end.
  exact IH.
Qed.
Lemma saved_batch_frames : forall uuid sec m ends s, s_saved (fst (batch_frames uuid sec m ends s)) = s_saved s.
Proof.
  intros uuid sec m ends. induction ends as [|[a b] r IH]; intro s; [reflexivity|].
  cbn [batch_frames]. destruct (bindO _ _) as [[[a' b'] o]|]; [|apply IH].
  match goal with |- context [batch_frames uuid sec m r ?S] => specialize (IH S); destruct (batch_frames uuid sec m r S) as [s' l] end.
  exact IH.
Qed.

Ltac ff := first [ left; reflexivity | right; reflexivity | (intros; discriminate) ].

Lemma fail_state : forall uuid s o s', gstep uuid s o = (s', GFalse) -> s_db s' = s_saved s \/ s_db s' = s_db s.
Proof.
  intros uuid s o s' E. assert (G : snd (gstep uuid s o) = GFalse -> s_db (fst (gstep uuid s o)) = s_saved s \/ s_db (fst (gstep uuid s o)) = s_db s).
  2:{ rewrite E in G. cbn [fst snd] in G. apply G. reflexivity. }
  clear E s'. destruct o; cbn [gstep].
  - unfold set_unit. destruct (existsb _ _); ff || (intros _; ff).
  - unfold set_tolerance. destruct (scale _) as [[F L]|]; ff || (intros _; ff).
  - unfold get_tolerance. destruct (scale _) as [[F L]|]; ff || (intros _; ff).
  - cbn [add_joint fst]. ff || (intros _; ff).
  - unfold set_joint_coordinate. destruct (find_joint _ _); [|ff || (intros _; ff)]. destruct (scale _) as [[F L]|]; ff || (intros _; ff).
  - unfold get_joint_coordinate. destruct (find_joint _ _); [|ff || (intros _; ff)]. destruct (scale _) as [[F L]|]; ff || (intros _; ff).
  - ff || (intros _; ff).
  - unfold get_joint_name_by_coor. destruct (scale _) as [[F L]|]; ff || (intros _; ff).
  - unfold set_joint_restraint. destruct (negb _); [ff || (intros _; ff)|]. destruct (find_joint _ _); [|ff || (intros _; ff)].
    destruct (dget _ _); [|ff || (intros _; ff)]. destruct (existsb _ _); ff || (intros _; ff).
  - unfold set_joint_load. destruct (negb _); [ff || (intros _; ff)|]. destruct (find_joint _ _); [|ff || (intros _; ff)].
    destruct (scale _) as [[F L]|]; ff || (intros _; ff).
  - unfold merge_joints. destruct (scale _) as [[F L]|]; [|ff || (intros _; ff)]. destruct (remove_joints _ _); ff || (intros _; ff).
  - unfold add_frame. destruct p0 as [[x0 y0] z0], p1 as [[x1 y1] z1].
    destruct (match name with Some _ => _ | None => _ end); [ff|]. destruct (dget _ _); [|ff]. destruct (scale _) as [[F L]|]; [|ff].
    destruct (joint_at uuid (x0*L) (y0*L) (z0*L) s) as [s1 n0]. destruct (joint_at uuid x1 y1 z1 s1) as [s2 n1].
    destruct (order_ends n0 n1) as [[[a b] o]|]; ff.
  - unfold add_frame_batch. destruct pts as [|p pts]; [ff || (intros _; ff)|]. destruct (dget _ _); [|ff || (intros _; ff)]. destruct (scale _) as [[F L]|]; [|ff || (intros _; ff)].
    pose proof (saved_batch_joints uuid L (p :: pts) s) as H0. destruct (batch_joints uuid L (p :: pts) s) as [s1 ends]. cbn [fst] in H0.
    destruct (merge_map _ _) as [m rm].
    pose proof (saved_batch_frames uuid section m ends s1) as H1. destruct (batch_frames uuid section m ends s1) as [s2 names]. cbn [fst] in H1.
    destruct (remove_joints rm (s_db s2)); [ff|]. intros _. left. cbn [fails fst rollback s_db]. congruence.
  - unfold get_frame_end_names. destruct (bindO _ _) as [[a b]|]; ff || (intros _; ff).
  - unfold get_frame_end_coors. destruct (scale _) as [[F L]|]; [|ff || (intros _; ff)]. destruct (bindO _ _) as [[a b]|]; ff || (intros _; ff).
  - ff || (intros _; ff).
  - unfold set_frame_load_distributed. destruct (negb _); [ff || (intros _; ff)|]. destruct (find_frame _ _); [|ff || (intros _; ff)]. destruct (scale _) as [[F L]|]; ff || (intros _; ff).
  - unfold set_frame_load_concentrated. destruct (negb _); [ff || (intros _; ff)|]. destruct (find_frame _ _); [|ff || (intros _; ff)]. destruct (scale _) as [[F L]|]; ff || (intros _; ff).
  - unfold add_material. destruct (dget _ _); [ff || (intros _; ff)|]. destruct (scale _) as [[F L]|]; [|ff || (intros _; ff)]. destruct (String.eqb _ _); [|ff || (intros _; ff)]. destruct kw as [[E mu]|]; ff || (intros _; ff).
  - unfold set_material_isotropic_elastic. destruct (dget _ _) as [[rho [p|]]|]; ff || (intros _; ff).
  - unfold add_frame_section. destruct (dget _ _); [ff || (intros _; ff)|]. destruct (dget _ _); [|ff || (intros _; ff)]. destruct (scale _) as [[F L]|]; [|ff || (intros _; ff)].
    destruct (section_row _ _ _) as [[z [[[A J] I2] I3]]|]; ff || (intros _; ff).
  - unfold add_loadcase. destruct (dget _ _); ff || (intros _; ff).
  - unfold set_frame_section. destruct (find_frame _ _); ff || (intros _; ff).
  - unfold write_results. destruct (dget _ _); [|ff || (intros _; ff)]. destruct (negb _); [ff || (intros _; ff)|].
    destruct (result_rows _ _ _); [|ff || (intros _; ff)]. destruct (result_rows _ _ _); [|ff || (intros _; ff)]. destruct (_ || _)%bool; ff || (intros _; ff).
  - unfold get_result_joint_displacement. destruct (find_result _ _ _) as [r|]; [|ff || (intros _; ff)].
    destruct (scale _) as [[F L]|]; [|ff || (intros _; ff)]. destruct (jr_vals r) as [|a [|b [|c' [|d [|e [|f [|g l]]]]]]]; ff || (intros _; ff).
  - unfold get_result_joint_reaction. destruct (find_result _ _ _) as [r|]; [|ff || (intros _; ff)].
    destruct (scale _) as [[F L]|]; [|ff || (intros _; ff)]. destruct (jr_vals r) as [|a [|b [|c' [|d [|e [|f [|g l]]]]]]]; ff || (intros _; ff).
  - ff || (intros _; ff).
  - unfold add_area_section. destruct (existsb _ _); [|ff || (intros _; ff)]. destruct (dget _ _); [ff || (intros _; ff)|]. destruct (scale _) as [[F L]|]; ff || (intros _; ff).
  - rewrite add_area_fails. intros _; ff.
  - rewrite add_area_batch_fails. intros _; ff.
  - intros _; ff.
  - intros _; ff.
  - ff.
  - ff.
  - ff.
  - ff.
  - intros _; ff.
  - unfold set_joint_mass. destruct (find_joint _ _); ff || (intros _; ff).
  - unfold set_material_name. destruct (dget _ _); ff || (intros _; ff).
  - unfold add_material_quick. destruct (String.eqb _ _); ff.
  - ff.
  - ff.
  - ff.
  - ff.
Qed.

Lemma c68_partial : forall uuid s o s', s_db s = s_saved s -> gstep uuid s o = (s', GFalse) -> s_db s' = s_db s.
Proof. intros uuid s o s' E H. destruct (fail_state _ _ _ _ H) as [X|X]; congruence. Qed.

Lemma c68_refuted : exists uuid s o s', fresh_names uuid /\ drawn uuid s /\ gstep uuid s o = (s', GFalse) /\
  d_joints (s_db s) <> [] /\ d_joints (s_db s') = [].
Proof.
  exists ticks, (fst (grun ticks create [GAddJoint 0 0 0; GAddJoint 1 0 0])), (GSetRestraint "K" [true; true; true; false; false; false]).
  rewrite create_eq. eexists. split; [exact ticks_fresh|]. split.
  - exists [GAddJoint 0 0 0; GAddJoint 1 0 0]. rewrite create_eq. reflexivity.
  - split; [reflexivity|]. split; [discriminate|reflexivity].
Qed.

Lemma c68_raise_refuted : exists uuid s o s', fresh_names uuid /\ drawn uuid s /\ s_db s = s_saved s /\ gstep uuid s o = (s', GRaise) /\
  s_db s' <> s_db s.
Proof.
  exists ticks, create, (GAddFrame ((1, 1), 1) ((1, 1), 1) dflt None).
  rewrite create_eq. eexists. split; [exact ticks_fresh|]. split; [exists []; rewrite create_eq; reflexivity|].
  split; [reflexivity|]. split.
  - cbn [gstep]. unfold add_frame. cbn [upd s_db with_unit start_db d_secs d_unit dget dflt String.eqb Ascii.eqb Bool.eqb scale].
    unfold joint_at at 1. cbn [upd s_db d_joints start_db with_unit find]. cbn [add_joint].
    unfold joint_at. cbn [draw upd s_db d_joints start_db with_unit with_joints find app d_tol].
    unfold at_point. cbn [j_x j_y j_z]. rdec. cbn [andb j_name]. reflexivity.
  - intro X. apply (f_equal d_joints) in X. discriminate X.
Qed.
