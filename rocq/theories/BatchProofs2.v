(** What a batch leaves as it was (C69). *)
From Coq Require Import Reals List String Bool Lra Lia Permutation.
From Verif Require Import Base BaseFacts General SpecGeneral GeneralProofs GeneralProofs2 GeneralProofs3 GeneralProofs4 BatchProofs.
Import ListNotations.
Local Open Scope R_scope.

Definition at_pos (c a : joint) : bool := (Reqb (j_x a) (j_x c) && Reqb (j_y a) (j_y c) && Reqb (j_z a) (j_z c))%bool.
Lemma at_pos_spec c a : at_pos c a = true <-> pos a = pos c.
Proof. unfold at_pos. rewrite !andb_true_iff, !Reqb_true, pos_eq. tauto. Qed.

(** Sorting keeps the order of joints at one place. *)
Lemma insert_at c a l : filter (at_pos c) (insert_joint a l) = filter (at_pos c) (a :: l).
Proof.
  induction l as [|b r IH]; [reflexivity|]. cbn [insert_joint]. destruct (joint_le a b) eqn:E; [reflexivity|].
  cbn [filter] in IH |- *. rewrite IH. destruct (at_pos c a) eqn:Ea; [|reflexivity]. destruct (at_pos c b) eqn:Eb; [|reflexivity].
  exfalso. apply at_pos_spec in Ea. apply at_pos_spec in Eb. assert (P : pos a = pos b) by congruence. apply pos_eq in P. destruct P as (P1 & P2 & P3).
  unfold joint_le in E. rewrite P1, P2, P3 in E. rewrite !(rltb_no _ _ (Rle_refl _)) in E. discriminate.
Qed.
Lemma sort_at c l : filter (at_pos c) (sort_joints l) = filter (at_pos c) l.
Proof.
  induction l as [|a l IH]; [reflexivity|]. unfold sort_joints in *. cbn [fold_right]. rewrite insert_at. cbn [filter]. rewrite IH. reflexivity.
Qed.

(** A joint removed comes right after another one that is closer than the tolerance. *)
Lemma removed_after tol : forall l a m m' rm, merge_pairs tol (a :: l) m = (m', rm) -> forall c, In c rm ->
  exists l1 b l2, a :: l = l1 ++ b :: c :: l2 /\ dist2 b c < tol^2.
Proof.
  induction l as [|b r IH]; intros a m m' rm E c Hc; [simpl in E; injection E as <- <-; destruct Hc|]. rewrite merge_pairs_cons in E.
  destruct (rltb_spec (dist2 a b) (tol^2)) as [[X D]|[X D]]; rewrite X in E.
  - match type of E with context [merge_pairs tol (b :: r) ?M] => destruct (merge_pairs tol (b :: r) M) as [m2 rm2] eqn:E2 end.
    injection E as <- <-. destruct Hc as [<-|Hc]; [exists [], a, r; auto|].
    destruct (IH _ _ _ _ E2 c Hc) as (l1 & d & l2 & E3 & D3). exists (a :: l1), d, l2. rewrite E3. auto.
  - destruct (IH _ _ _ _ E c Hc) as (l1 & d & l2 & E3 & D3). exists (a :: l1), d, l2. rewrite E3. auto.
Qed.

Lemma old_not_removed tol old new m rm : NoDup (map j_name (old ++ new)) -> well_apart tol (map pos (old ++ new)) ->
  (forall a b, In a old -> In b old -> pos a = pos b -> a = b) -> merge_map tol (old ++ new) = (m, rm) -> forall c, In c old -> ~ In c rm.
Proof.
  intros ND WA U E c Hc Hr. unfold merge_map in E. destruct (sort_joints (old ++ new)) as [|a r] eqn:Es; [simpl in E; injection E as <- <-; destruct Hr|].
  destruct (removed_after _ _ _ _ _ _ E c Hr) as (l1 & b & l2 & E1 & D).
  assert (Ib : forall x, In x (a :: r) -> In x (old ++ new)) by (intros x Hx; rewrite <- Es in Hx; eapply Permutation_in; [apply sort_perm|exact Hx]).
  assert (Hb : In b (a :: r)) by (rewrite E1; apply in_or_app; right; left; reflexivity).
  assert (P : pos b = pos c).
  { destruct (WA (pos b) (pos c)) as [P|P]; [apply in_map, Ib, Hb|apply in_map, in_or_app; left; exact Hc|exact P|]. rewrite <- dist2_places in P. lra. }
  assert (F : filter (at_pos c) (a :: r) = filter (at_pos c) (old ++ new)) by (rewrite <- Es; apply sort_at).
  rewrite E1, !filter_app in F. cbn [filter] in F. rewrite (proj2 (at_pos_spec c b) P), (proj2 (at_pos_spec c c) eq_refl) in F.
  assert (N : NoDup (filter (at_pos c) old ++ filter (at_pos c) new)).
  { rewrite <- filter_app. apply NoDup_filter. eapply NoDup_map_inv. exact ND. }
  destruct (filter (at_pos c) old) as [|x rest] eqn:Eo.
  { assert (X : In c (filter (at_pos c) old)) by (apply filter_In; split; [exact Hc|apply at_pos_spec; reflexivity]). rewrite Eo in X. exact X. }
  assert (x = c).
  { assert (X : In x (filter (at_pos c) old)) by (rewrite Eo; left; reflexivity). apply filter_In in X. destruct X as [X1 X2]. apply at_pos_spec in X2. apply U; assumption. }
  subst x. cbn [app] in F, N. rewrite <- F in N.
  destruct (filter (at_pos c) l1) as [|y l1']; cbn [app] in F, N.
  - injection F as -> _. inversion N as [|? ? N1 _]. apply N1. left. reflexivity.
  - injection F as -> _. inversion N as [|? ? N1 _]. apply N1. apply in_or_app. right. right. left. reflexivity.
Qed.

Lemma c69_earlier : forall uuid s pts sec s' names, fresh_names uuid -> drawn uuid s ->
  (forall a b, In a (d_joints (s_db s)) -> In b (d_joints (s_db s)) -> pos a = pos b -> a = b) ->
  well_apart (d_tol (s_db s)) (map pos (d_joints (s_db s)) ++ batch_places (metres (d_unit (s_db s))) pts) ->
  gstep uuid s (GAddBatch pts sec) = (s', GNames names) ->
  (forall j, In j (d_joints (s_db s)) -> In j (d_joints (s_db s'))) /\ (forall f, In f (d_frames (s_db s)) -> In f (d_frames (s_db s')))
  /\ (forall f p q, runs (s_db s) f p q -> runs (s_db s') f p q).
Proof.
  intros uuid s pts sec s' names Hf Hd U WA E. pose proof (drawn_inv _ _ Hf Hd) as H. cbn [gstep] in E. unfold add_frame_batch in E.
  rewrite (scale_units _ (proj1 (proj1 H))) in E. set (L := metres (d_unit (s_db s))) in *.
  destruct pts as [|p pts]; [discriminate|]. destruct (dget sec (d_secs (s_db s))) as [g|]; [|discriminate].
  pose proof (ginv_batch_joints uuid L (p :: pts) s Hf H) as H0.
  destruct (batch_joints uuid L (p :: pts) s) as [s1 ends] eqn:E1. cbn [fst] in H0.
  destruct (batch_joints_spec _ _ _ _ _ _ E1) as [G _]. destruct (batch_joints_places _ _ _ _ _ _ E1) as [(k & Jk & Pk) Fk].
  destruct G as (_ & G1 & G2 & _).
  destruct (merge_map (d_tol (s_db s1)) (d_joints (s_db s1))) as [m rm] eqn:Em.
  assert (ND : NoDup (map j_name (d_joints (s_db s1)))) by exact (proj1 (proj2 (proj1 H0))).
  assert (WA1 : well_apart (d_tol (s_db s1)) (map pos (d_joints (s_db s1)))).
  { rewrite G2, Jk, map_app, Pk. exact WA. }
  rewrite Jk in *. pose proof (old_not_removed _ _ _ _ _ ND WA1 U Em) as K.
  destruct (batch_frames uuid sec m ends s1) as [s2 nm] eqn:E2.
  assert (F : d_joints (s_db s2) = d_joints (s_db s1) /\ exists fs, d_frames (s_db s2) = d_frames (s_db s1) ++ fs).
  { clear - E2. revert s1 s2 nm E2. induction ends as [|[a b] r IH]; intros s1 s2 nm E2; cbn [batch_frames] in E2.
    - injection E2 as <- <-. split; [reflexivity|exists []; rewrite app_nil_r; reflexivity].
    - destruct (bindO (dget a m) _) as [[[x0 y0] o]|]; [|apply (IH _ _ _ E2)].
      match type of E2 with context [batch_frames uuid sec m r ?S] => destruct (batch_frames uuid sec m r S) as [s3 nm3] eqn:E3 end.
      injection E2 as <- <-. destruct (IH _ _ _ E3) as [I1 (fs & I2)]. split; [exact I1|]. rewrite I2.
      cbn [draw upd s_db with_frames d_frames]. eexists. rewrite <- app_assoc. reflexivity. }
  destruct F as [F1 (fs & F2)].
  destruct (remove_joints rm (s_db s2)) as [d|] eqn:Er; [|discriminate]. injection E as <- _. cbn [commit upd s_db].
  assert (J : forall j, In j (d_joints (s_db s)) -> In j (d_joints d)).
  { intros j Hj. unfold remove_joints in Er. destruct (forallb _ rm); [|discriminate]. injection Er as <-. cbn [with_joints d_joints].
    apply filter_In. rewrite F1, Jk. split; [apply in_or_app; left; exact Hj|]. apply negb_true_iff. destruct (existsb _ rm) eqn:X; [|reflexivity].
    exfalso. apply existsb_exists in X. destruct X as (c & Ic & Ec). apply String.eqb_eq in Ec.
    assert (c = j); [|subst c; exact (K j Hj Ic)]. eapply name_inj; [exact ND| |apply in_or_app; left; exact Hj|exact Ec].
    unfold merge_map in Em. destruct (sort_joints (d_joints (s_db s) ++ k)) as [|a r] eqn:Es; [simpl in Em; injection Em as <- <-; destruct Ic|].
    destruct (removed_after _ _ _ _ _ _ Em c Ic) as (l1 & b & l2 & E3 & _). eapply Permutation_in; [apply sort_perm|]. rewrite Es, E3.
    apply in_or_app. right. right. left. reflexivity. }
  split; [exact J|]. split.
  - intros f Hfr. unfold remove_joints in Er. destruct (forallb _ rm); [|discriminate]. injection Er as <-. cbn [with_joints d_frames].
    rewrite F2, G1. apply in_or_app. left. exact Hfr.
  - intros f x y [(a & [A1 A2] & A3) (b & [B1 B2] & B3)]. split; [exists a|exists b]; (split; [split|]); auto.
Qed.
