(** Proofs about the drawing model. *)
From Coq Require Import Reals List String Arith Bool ZArith Lia Lra.
From Verif Require Import Base BaseFacts General SpecGeneral.
Import ListNotations.
Local Open Scope R_scope.

Lemma nodup_snoc {A} (l : list A) (x : A) : NoDup l -> ~ In x l -> NoDup (l ++ [x]).
Proof.
  induction l as [|a l IH]; simpl; intros H Hx.
  - constructor; [intros []|constructor].
  - inversion H as [|b m Ha Hl]; subst. constructor.
    + intro E. apply in_app_or in E. destruct E as [E|[E|[]]]; [exact (Ha E)|]. subst. apply Hx. left. reflexivity.
    + apply IH; [exact Hl|]. intro E. apply Hx. right. exact E.
Qed.

(** ** What every session satisfies *)

Definition dbok (uuid : nat -> string) (n : nat) (d : db) : Prop :=
  In (d_unit d) units /\ NoDup (map j_name (d_joints d)) /\
  (forall j, In j (d_joints d) -> exists i, (i < n)%nat /\ j_name j = uuid i).
Definition ginv (uuid : nat -> string) (s : session) : Prop :=
  dbok uuid (s_next s) (s_db s) /\ dbok uuid (s_next s) (s_saved s).

Lemma dbok_mono : forall uuid n m d, (n <= m)%nat -> dbok uuid n d -> dbok uuid m d.
Proof.
  intros uuid n m d Hn [H1 [H2 H3]]. split; [exact H1|split; [exact H2|]].
  intros j Hj. destruct (H3 j Hj) as [i [Hi E]]. exists i. split; [lia|exact E].
Qed.

Lemma dbok_same : forall uuid n d d', d_unit d' = d_unit d -> d_joints d' = d_joints d -> dbok uuid n d -> dbok uuid n d'.
Proof. intros uuid n d d' E1 E2 [H1 [H2 H3]]. unfold dbok. rewrite E1, E2. auto. Qed.

Lemma ginv_rollback : forall uuid s, ginv uuid s -> ginv uuid (rollback s).
Proof. intros uuid s [H1 H2]. split; exact H2. Qed.
Lemma ginv_commit : forall uuid s, ginv uuid s -> ginv uuid (commit s).
Proof. intros uuid s [H1 H2]. split; exact H1. Qed.
Lemma ginv_draw : forall uuid s, ginv uuid s -> ginv uuid (draw s).
Proof. intros uuid s [H1 H2]. split; (eapply dbok_mono; [|eassumption]); simpl; lia. Qed.
Lemma ginv_upd : forall uuid f s, d_unit (f (s_db s)) = d_unit (s_db s) -> d_joints (f (s_db s)) = d_joints (s_db s) ->
  ginv uuid s -> ginv uuid (upd f s).
Proof. intros uuid f s E1 E2 [H1 H2]. split; [|exact H2]. eapply dbok_same; [exact E1|exact E2|exact H1]. Qed.

Lemma ginv_add_joint : forall uuid x y z s, fresh_names uuid -> ginv uuid s -> ginv uuid (fst (add_joint uuid x y z s)).
Proof.
  intros uuid x y z s Hf [[H1 [H2 H3]] Hs]. unfold add_joint. cbn [fst].
  split; [|eapply dbok_mono; [|exact Hs]; simpl; lia].
  split; [exact H1|]. cbn [draw upd s_db s_next with_joints d_joints].
  split.
  - rewrite map_app. simpl. apply nodup_snoc; [exact H2|].
    intros Hn. apply in_map_iff in Hn. destruct Hn as [j [E Hj]].
    destruct (H3 j Hj) as [i [Hi E']]. rewrite E in E'. apply Hf in E'. lia.
  - intros j Hj. apply in_app_or in Hj. destruct Hj as [Hj|[E|[]]].
    + destruct (H3 j Hj) as [i [Hi E]]. exists i. split; [lia|exact E].
    + subst j. exists (s_next s). split; [lia|reflexivity].
Qed.

Lemma ginv_joint_at : forall uuid x y z s, fresh_names uuid -> ginv uuid s -> ginv uuid (fst (joint_at uuid x y z s)).
Proof.
  intros. unfold joint_at. destruct (find _ _); [assumption|]. apply ginv_add_joint; assumption.
Qed.

Lemma ginv_batch_joints : forall uuid L pts s, fresh_names uuid -> ginv uuid s -> ginv uuid (fst (batch_joints uuid L pts s)).
Proof.
  intros uuid L pts. induction pts as [|[[[x0 y0] z0] [[x1 y1] z1]] r IH]; intros s Hf H; [exact H|].
  cbn [batch_joints].
  pose proof (ginv_add_joint uuid (x0*L) (y0*L) (z0*L) s Hf H) as H0.
  destruct (add_joint uuid (x0*L) (y0*L) (z0*L) s) as [s1 n0]. cbn [fst] in H0.
  pose proof (ginv_add_joint uuid (x1*L) (y1*L) (z1*L) s1 Hf H0) as H1.
  destruct (add_joint uuid (x1*L) (y1*L) (z1*L) s1) as [s2 n1]. cbn [fst] in H1.
  specialize (IH s2 Hf H1). destruct (batch_joints uuid L r s2) as [s3 l]. exact IH.
Qed.

Lemma ginv_batch_frames : forall uuid sec m ends s, ginv uuid s -> ginv uuid (fst (batch_frames uuid sec m ends s)).
Proof.
  intros uuid sec m ends. induction ends as [|[a b] r IH]; intros s H; [exact H|].
  cbn [batch_frames]. destruct (bindO _ _) as [[[a' b'] o]|]; [|apply IH; exact H].
  match goal with |- context [batch_frames uuid sec m r ?S] =>
    assert (H' : ginv uuid S) by (apply ginv_draw, ginv_upd; [reflexivity|reflexivity|exact H]);
    specialize (IH S H'); destruct (batch_frames uuid sec m r S) as [s' l] end.
  exact IH.
Qed.

Lemma nodup_map_filter {A B} (f : A -> B) (p : A -> bool) (l : list A) : NoDup (map f l) -> NoDup (map f (filter p l)).
Proof.
  induction l as [|a l IH]; simpl; intro H; [constructor|]. inversion H as [|b m Ha Hl]; subst.
  destruct (p a); simpl; [|apply IH; exact Hl]. constructor; [|apply IH; exact Hl].
  intro E. apply Ha. apply in_map_iff in E. destruct E as [x [E Hx]]. apply in_map_iff. exists x. split; [exact E|].
  apply filter_In in Hx. tauto.
Qed.

Lemma ginv_remove : forall uuid rm s d, remove_joints rm (s_db s) = Some d -> ginv uuid s -> ginv uuid (upd (fun _ => d) s).
Proof.
  intros uuid rm s d E [[H1 [H2 H3]] Hs]. unfold remove_joints in E.
  destruct (forallb _ rm); [|discriminate]. injection E as E. subst d. split; [|exact Hs].
  split; [exact H1|]. cbn [upd s_db with_joints d_joints]. split.
  - apply nodup_map_filter. exact H2.
  - intros j Hj. apply filter_In in Hj. apply H3. tauto.
Qed.

Lemma existsb_eqb : forall u l, existsb (String.eqb u) l = true -> In u l.
Proof. intros u l H. apply existsb_exists in H. destruct H as [x [Hx E]]. apply String.eqb_eq in E. subst. exact Hx. Qed.

Lemma ginv_add_frame : forall uuid p0 p1 sec n s, fresh_names uuid -> ginv uuid s -> ginv uuid (fst (add_frame uuid p0 p1 sec n s)).
Proof.
  intros uuid [[x0 y0] z0] [[x1 y1] z1] sec n s Hf H. unfold add_frame.
  destruct (match n with Some _ => _ | None => _ end); [exact H|].
  destruct (dget sec (d_secs (s_db s))) as [g|]; [|exact H].
  destruct (scale (d_unit (s_db s))) as [[F L]|]; [|exact H].
  pose proof (ginv_joint_at uuid (x0*L) (y0*L) (z0*L) s Hf H) as H0.
  destruct (joint_at uuid (x0*L) (y0*L) (z0*L) s) as [s1 n0]. cbn [fst] in H0.
  pose proof (ginv_joint_at uuid x1 y1 z1 s1 Hf H0) as H1.
  destruct (joint_at uuid x1 y1 z1 s1) as [s2 n1]. cbn [fst] in H1.
  destruct (order_ends n0 n1) as [[[a b] o]|]; [|exact H1].
  apply ginv_draw, ginv_upd; [reflexivity|reflexivity|exact H1].
Qed.

Lemma ginv_batch : forall uuid pts sec s, fresh_names uuid -> ginv uuid s -> ginv uuid (fst (add_frame_batch uuid pts sec s)).
Proof.
  intros uuid pts sec s Hf H. unfold add_frame_batch.
  destruct pts as [|p pts]; [apply ginv_rollback; exact H|].
  destruct (dget sec (d_secs (s_db s))) as [g|]; [|apply ginv_rollback; exact H].
  destruct (scale (d_unit (s_db s))) as [[F L]|]; [|apply ginv_rollback; exact H].
  pose proof (ginv_batch_joints uuid L (p :: pts) s Hf H) as H0.
  destruct (batch_joints uuid L (p :: pts) s) as [s1 ends]. cbn [fst] in H0.
  destruct (merge_map (d_tol (s_db s1)) (d_joints (s_db s1))) as [m rm].
  pose proof (ginv_batch_frames uuid sec m ends s1 H0) as H1.
  destruct (batch_frames uuid sec m ends s1) as [s2 names]. cbn [fst] in H1.
  destruct (remove_joints rm (s_db s2)) as [d|] eqn:E; [|apply ginv_rollback; exact H1].
  apply ginv_commit. eapply ginv_remove; eassumption.
Qed.

Lemma map_set_names : forall (n : string) x y z l,
  map j_name (map (fun j => if String.eqb (j_name j) n then Joint n x y z else j) l) = map j_name l.
Proof.
  intros n x y z l. induction l as [|a l IH]; simpl; [reflexivity|]. rewrite IH. f_equal.
  destruct (String.eqb_spec (j_name a) n) as [E|E]; [simpl; congruence|reflexivity].
Qed.

Ltac inv0 := first [assumption | apply ginv_rollback; assumption | (apply ginv_upd; [reflexivity|reflexivity|assumption])].

Lemma ginv_case : forall uuid n ty s, ginv uuid s -> ginv uuid (fst (add_loadcase n ty s)).
Proof. intros. unfold add_loadcase. destruct (dget _ _); inv0. Qed.
Lemma ginv_section : forall uuid n m ty sz s, ginv uuid s -> ginv uuid (fst (add_frame_section n m ty sz s)).
Proof.
  intros. unfold add_frame_section. destruct (dget _ _); [inv0|]. destruct (dget _ _); [|inv0].
  destruct (scale _) as [[F L]|]; [|inv0]. destruct (section_row _ _ _) as [[z [[[A J] I2] I3]]|]; inv0.
Qed.
Lemma ginv_material : forall uuid n rho ty kw s, ginv uuid s -> ginv uuid (fst (add_material n rho ty kw s)).
Proof.
  intros. unfold add_material. destruct (dget _ _); [inv0|]. destruct (scale _) as [[F L]|]; [|inv0].
  destruct (String.eqb _ _); [|inv0]. destruct kw as [[E mu]|]; inv0.
Qed.

(** no area is ever added *)
Lemma area_row_none names : area_row names = None.
Proof. unfold area_row, str_join. destruct (Nat.eqb _ _); reflexivity. Qed.
Lemma add_area_fails uuid p0 p1 p2 p3 sec name s : add_area uuid p0 p1 p2 p3 sec name s = fails s.
Proof.
  unfold add_area. destruct (match name with Some _ => _ | None => _ end); [reflexivity|].
  destruct (dget _ _); [|reflexivity]. destruct (scale _) as [[F L]|]; [|reflexivity].
  destruct (area_joint L p0 s) as [s0|]; [|reflexivity]. cbn [bindO]. destruct (area_joint L p1 _) as [s1|]; [|reflexivity]. cbn [bindO].
  destruct (area_joint L p2 _) as [s2|]; [|reflexivity]. cbn [bindO]. destruct (area_fourth _ _ _ _) as [s3|]; [|reflexivity]. cbn [bindO].
  rewrite area_row_none. reflexivity.
Qed.
Lemma add_area_batch_fails pts sec s : add_area_batch pts sec s = fails s.
Proof. unfold add_area_batch. destruct pts; [reflexivity|]. destruct (dget _ _); [|reflexivity]. destruct (scale _) as [[F L]|]; reflexivity. Qed.

Lemma ginv_step : forall uuid o s, fresh_names uuid -> ginv uuid s -> ginv uuid (fst (gstep uuid s o)).
Proof.
  intros uuid o s Hf H. destruct o; cbn [gstep];
    try (apply ginv_case; assumption); try (apply ginv_section; assumption); try (apply ginv_material; assumption).
  - unfold set_unit. destruct (existsb _ _) eqn:E; [|inv0]. destruct H as [[H1 H2] Hs]. split; [|exact Hs].
    split; [|exact H2]. apply existsb_eqb. exact E.
  - unfold set_tolerance. destruct (scale _) as [[F L]|]; inv0.
  - unfold get_tolerance. destruct (scale _) as [[F L]|]; inv0.
  - pose proof (ginv_add_joint uuid x y z s Hf H) as H0. destruct (add_joint uuid x y z s). exact H0.
  - unfold set_joint_coordinate. destruct (find_joint _ _); [|inv0]. destruct (scale _) as [[F L]|]; [|inv0].
    destruct H as [[H1 [H2 H3]] Hs]. split; [|exact Hs]. cbn [fst upd s_db].
    split; [exact H1|]. cbn [with_joints d_joints]. split.
    + rewrite map_set_names. exact H2.
    + intros k Hk. apply in_map_iff in Hk. destruct Hk as [k' [E Hk]].
      destruct (H3 k' Hk) as [i [Hi Ei]]. exists i. split; [exact Hi|]. rewrite <- Ei, <- E.
      destruct (String.eqb_spec (j_name k') n) as [En|En]; [symmetry; exact En|reflexivity].
  - unfold get_joint_coordinate. destruct (find_joint _ _); [|inv0]. destruct (scale _) as [[F L]|]; inv0.
  - inv0.
  - unfold get_joint_name_by_coor. destruct (scale _) as [[F L]|]; inv0.
  - unfold set_joint_restraint. destruct (negb _); [inv0|]. destruct (find_joint _ _); [|inv0].
    destruct (dget _ _); [|inv0]. destruct (existsb _ _); inv0.
  - unfold set_joint_load. destruct (negb _); [inv0|]. destruct (find_joint _ _); [|inv0].
    destruct (scale _) as [[F L]|]; [|inv0]. apply ginv_upd; [| |assumption]; destruct (existsb _ _); reflexivity.
  - unfold merge_joints. destruct (scale _) as [[F L]|]; [|inv0]. destruct (remove_joints _ _) as [d|] eqn:E; [|inv0].
    eapply ginv_remove; eassumption.
  - apply ginv_add_frame; assumption.
  - apply ginv_batch; assumption.
  - unfold get_frame_end_names. destruct (bindO _ _) as [[a b]|]; inv0.
  - unfold get_frame_end_coors. destruct (scale _) as [[F L]|]; [|inv0]. destruct (bindO _ _) as [[a b]|]; inv0.
  - inv0.
  - unfold set_frame_load_distributed. destruct (negb _); [inv0|]. destruct (find_frame _ _); [|inv0].
    destruct (scale _) as [[F L]|]; inv0.
  - unfold set_frame_load_concentrated. destruct (negb _); [inv0|]. destruct (find_frame _ _); [|inv0].
    destruct (scale _) as [[F L]|]; inv0.
  - unfold set_material_isotropic_elastic. destruct (dget _ _) as [[rho [p|]]|]; inv0.
  - unfold set_frame_section. destruct (find_frame _ _); inv0.
  - unfold write_results. destruct (dget _ _); [|inv0]. destruct (negb _); [inv0|].
    destruct (result_rows _ _ _); [|inv0]. destruct (result_rows _ _ _); [|inv0].
    destruct (_ || _)%bool; [inv0|]. apply ginv_commit. inv0.
  - unfold get_result_joint_displacement. destruct (find_result _ _ _) as [r|]; [|inv0].
    destruct (scale _) as [[F L]|]; [|inv0]. destruct (jr_vals r) as [|a [|b [|c' [|d [|e [|f [|g l]]]]]]]; inv0.
  - unfold get_result_joint_reaction. destruct (find_result _ _ _) as [r|]; [|inv0].
    destruct (scale _) as [[F L]|]; [|inv0]. destruct (jr_vals r) as [|a [|b [|c' [|d [|e [|f [|g l]]]]]]]; inv0.
  - apply ginv_commit. exact H.
  - unfold add_area_section. destruct (existsb _ _); [|inv0]. destruct (dget _ _); [inv0|]. destruct (scale _) as [[F L]|]; inv0.
  - rewrite add_area_fails. inv0.
  - rewrite add_area_batch_fails. inv0.
  - inv0.
  - inv0.
  - inv0.
  - inv0.
  - inv0.
  - inv0.
  - inv0.
  - unfold set_joint_mass. destruct (find_joint _ _); inv0.
  - unfold set_material_name. destruct (dget _ _); inv0.
  - unfold add_material_quick. destruct (String.eqb _ _); [|inv0]. apply ginv_material; assumption.
  - inv0.
  - inv0.
  - inv0.
  - inv0.
Qed.

Lemma grun_fst_cons : forall uuid s o r, fst (grun uuid s (o :: r)) = fst (grun uuid (fst (gstep uuid s o)) r).
Proof. intros. cbn [grun]. destruct (gstep uuid s o) as [s1 x]. cbn [fst]. destruct (grun uuid s1 r). reflexivity. Qed.

Lemma ginv_run : forall uuid ops s, fresh_names uuid -> ginv uuid s -> ginv uuid (fst (grun uuid s ops)).
Proof.
  intros uuid ops. induction ops as [|o r IH]; intros s Hf H; [exact H|].
  rewrite grun_fst_cons. apply IH; [exact Hf|]. apply ginv_step; assumption.
Qed.

Lemma ginv_create : forall uuid, ginv uuid create.
Proof.
  intro uuid. unfold create. cbv zeta. apply ginv_commit, ginv_case.
  assert (A : forall n m t x s, ginv uuid s -> ginv uuid (fst (add_area_section n m t x s))).
  { intros n m t x s H. unfold add_area_section. destruct (existsb _ _); [|inv0]. destruct (dget _ _); [inv0|]. destruct (scale _) as [[F L]|]; inv0. }
  apply A, ginv_section, ginv_material, ginv_material.
  assert (H : dbok uuid 0 empty_db).
  { split; [left; reflexivity|]. split; [constructor|intros j []]. }
  split; exact H.
Qed.

Lemma drawn_inv : forall uuid s, fresh_names uuid -> drawn uuid s -> ginv uuid s.
Proof. intros uuid s Hf [ops E]. subst s. apply ginv_run; [exact Hf|apply ginv_create]. Qed.

(** The units that can occur are the four with a scale, and the scale is what the name says. *)
Lemma scale_units : forall u, In u units -> scale u = Some (newtons u, metres u).
Proof.
  intros u [E|[E|[E|[E|[]]]]]; subst u; unfold scale, newtons, metres; simpl; try reflexivity; repeat f_equal; lra.
Qed.
Lemma metres_pos : forall u, 0 < metres u.
Proof. intro u. unfold metres. destruct (_ || _)%bool; lra. Qed.
Lemma newtons_pos : forall u, 0 < newtons u.
Proof. intro u. unfold newtons. destruct (_ || _)%bool; lra. Qed.

(** ** Units (C55) *)

Lemma find_joint_is : forall uuid n d j m, dbok uuid m d -> (find_joint n d = Some j <-> is_joint d n j).
Proof.
  intros uuid n d j m [_ [H _]]. unfold find_joint, is_joint. induction (d_joints d) as [|a l IH]; simpl.
  - split; [discriminate|intros [[] _]].
  - simpl in H. inversion H as [|b q Ha Hl]; subst. specialize (IH Hl).
    destruct (String.eqb_spec (j_name a) n) as [E|E].
    + split.
      * intro X. injection X as X. subst. split; [left; reflexivity|reflexivity].
      * intros [[X|X] Y]; [subst; reflexivity|]. exfalso. apply Ha. rewrite E, <- Y. apply in_map. exact X.
    + rewrite IH. split; [intros [X Y]; split; [right; exact X|exact Y]|].
      intros [[X|X] Y]; [subst; contradiction|split; assumption].
Qed.

Lemma set_unit_ok : forall uuid u s, In u units -> gstep uuid s (GSetUnit u) = (upd (with_unit u) s, GTrue).
Proof.
  intros uuid u s H. cbn [gstep]. unfold set_unit.
  assert (E : existsb (String.eqb u) units = true) by (apply existsb_exists; exists u; split; [exact H|apply String.eqb_refl]).
  rewrite E. reflexivity.
Qed.

Lemma find_set : forall n x y z l a, find (fun j => String.eqb (j_name j) n) l = Some a ->
  find (fun j => String.eqb (j_name j) n) (map (fun j => if String.eqb (j_name j) n then Joint n x y z else j) l) = Some (Joint n x y z).
Proof.
  intros n x y z l a. induction l as [|b l IH]; simpl; [discriminate|].
  destruct (String.eqb (j_name b) n) eqn:E; simpl.
  - intros _. rewrite String.eqb_refl. reflexivity.
  - rewrite E. exact IH.
Qed.

Lemma c55_coordinates : forall uuid s n j u v x y z,
  fresh_names uuid -> drawn uuid s -> is_joint (s_db s) n j -> In u units -> In v units ->
  snd (grun uuid s [GSetUnit u; GSetCoordinate n x y z; GSetUnit v; GGetCoordinate n])
  = [GTrue; GTrue; GTrue; GVals [x * metres u / metres v; y * metres u / metres v; z * metres u / metres v]].
Proof.
  intros uuid s n j u v x y z Hf Hd Hj Hu Hv.
  destruct (drawn_inv uuid s Hf Hd) as [H _]. apply (find_joint_is uuid n (s_db s) j _ H) in Hj.
  cbn [grun]. rewrite (set_unit_ok uuid u s Hu).
  cbn [gstep]. unfold set_joint_coordinate. cbn [upd s_db with_unit d_unit].
  change (find_joint n (with_unit u (s_db s))) with (find_joint n (s_db s)). rewrite Hj, (scale_units u Hu).
  cbn [gstep]. unfold set_unit.
  assert (E : existsb (String.eqb v) units = true) by (apply existsb_exists; exists v; split; [exact Hv|apply String.eqb_refl]).
  rewrite E. unfold get_joint_coordinate. cbn [upd s_db with_unit d_unit with_joints].
  unfold find_joint. cbn [d_joints with_unit with_joints].
  rewrite (find_set n _ _ _ _ _ Hj). rewrite (scale_units v Hv). reflexivity.
Qed.

Lemma c55_roundtrip : forall uuid s n j x y z,
  fresh_names uuid -> drawn uuid s -> is_joint (s_db s) n j ->
  snd (grun uuid s [GSetCoordinate n x y z; GGetCoordinate n]) = [GTrue; GVals [x; y; z]].
Proof.
  intros uuid s n j x y z Hf Hd Hj.
  destruct (drawn_inv uuid s Hf Hd) as [H _]. pose proof H as [Hu _].
  apply (find_joint_is uuid n (s_db s) j _ H) in Hj.
  cbn [grun gstep]. unfold set_joint_coordinate. rewrite Hj, (scale_units _ Hu).
  unfold get_joint_coordinate. cbn [upd s_db]. unfold find_joint. cbn [d_joints with_joints d_unit].
  rewrite (find_set n _ _ _ _ _ Hj), (scale_units _ Hu). cbn [j_x j_y j_z fst snd].
  pose proof (metres_pos (d_unit (s_db s))). repeat f_equal; field; lra.
Qed.

Lemma c55_same : forall uuid s n j u v x y z x' y' z',
  fresh_names uuid -> drawn uuid s -> is_joint (s_db s) n j -> In u units -> In v units ->
  x * metres u = x' * metres v -> y * metres u = y' * metres v -> z * metres u = z' * metres v ->
  let a := s_db (fst (grun uuid s [GSetUnit u; GSetCoordinate n x y z])) in
  let b := s_db (fst (grun uuid s [GSetUnit v; GSetCoordinate n x' y' z'])) in
  d_joints a = d_joints b /\ is_joint a n (Joint n (x * metres u) (y * metres u) (z * metres u)).
Proof.
  intros uuid s n j u v x y z x' y' z' Hf Hd Hj Hu Hv Ex Ey Ez a b.
  destruct (drawn_inv uuid s Hf Hd) as [H _]. pose proof Hj as HJ. apply (find_joint_is uuid n (s_db s) j _ H) in Hj.
  assert (Ea : forall w x y z, In w units -> d_joints (s_db (fst (grun uuid s [GSetUnit w; GSetCoordinate n x y z])))
     = map (fun j => if String.eqb (j_name j) n then Joint n (x * metres w) (y * metres w) (z * metres w) else j) (d_joints (s_db s))).
  { intros w x1 y1 z1 Hw. cbn [grun]. rewrite (set_unit_ok uuid w s Hw).
    cbn [gstep]. unfold set_joint_coordinate. cbn [upd s_db with_unit d_unit].
    change (find_joint n (with_unit w (s_db s))) with (find_joint n (s_db s)). rewrite Hj, (scale_units w Hw). reflexivity. }
  subst a b. unfold is_joint. rewrite !Ea by assumption. split.
  - rewrite Ex, Ey, Ez. reflexivity.
  - split; [|reflexivity]. apply in_map_iff. exists j. destruct HJ as [HI HN]. split; [|exact HI].
    rewrite HN, String.eqb_refl. reflexivity.
Qed.

Lemma c55_tolerance : forall uuid s u v t,
  In u units -> In v units ->
  snd (grun uuid s [GSetUnit u; GSetTolerance t; GSetUnit v; GGetTolerance]) = [GTrue; GTrue; GTrue; GVals [t * metres u / metres v]].
Proof.
  intros uuid s u v t Hu Hv. cbn [grun]. rewrite (set_unit_ok uuid u s Hu).
  cbn [gstep]. unfold set_tolerance. cbn [upd s_db with_unit d_unit]. rewrite (scale_units u Hu).
  unfold set_unit.
  assert (E : existsb (String.eqb v) units = true) by (apply existsb_exists; exists v; split; [exact Hv|apply String.eqb_refl]).
  rewrite E. unfold get_tolerance. cbn [upd s_db with_unit d_unit with_tol]. rewrite (scale_units v Hv). reflexivity.
Qed.

(** *** Results *)

Lemma mapM_in {A B} (f : A -> option B) : forall l, (forall x, In x l -> f x <> None) -> exists r, mapM f l = Some r.
Proof.
  induction l as [|a l IH]; intro H; [exists []; reflexivity|]. simpl.
  destruct (f a) as [b|] eqn:E; [|exfalso; apply (H a); [left; reflexivity|exact E]].
  destruct IH as [r Er]; [intros x Hx; apply H; right; exact Hx|]. rewrite Er. exists (b :: r). reflexivity.
Qed.

Lemma result_rows_eq : forall c f names, (forall n, List.length (f n) = 6%nat) ->
  result_rows c f names = Some (map (fun n => JResult n c (f n)) names).
Proof.
  intros c f names H. unfold result_rows. induction names as [|a l IH]; [reflexivity|].
  simpl. rewrite H. simpl. rewrite IH. reflexivity.
Qed.

Lemma find_result_none : forall n c l, (forall r, In r l -> jr_case r <> c) -> find_result n c l = None.
Proof.
  intros n c l H. unfold find_result. induction l as [|a l IH]; [reflexivity|]. simpl.
  destruct (String.eqb_spec (jr_case a) c) as [E|E]; [exfalso; apply (H a); [left; reflexivity|exact E]|].
  rewrite andb_false_r. apply IH. intros r Hr. apply H. right. exact Hr.
Qed.

Lemma clash_none : forall c f names l, (forall r, In r l -> jr_case r <> c) -> clash (map (fun n => JResult n c (f n)) names) l = false.
Proof.
  intros c f names l H. unfold clash. induction names as [|a r IH]; [reflexivity|]. simpl.
  rewrite (find_result_none a c l H). exact IH.
Qed.

Lemma find_result_app : forall n c l l', find_result n c l = None -> find_result n c (l ++ l') = find_result n c l'.
Proof.
  intros n c l l'. unfold find_result. induction l as [|a l IH]; [reflexivity|]. simpl.
  destruct (_ && _)%bool; [discriminate|exact IH].
Qed.

Lemma find_result_map : forall n c f names, In n names -> find_result n c (map (fun n => JResult n c (f n)) names) = Some (JResult n c (f n)).
Proof.
  intros n c f names. unfold find_result. induction names as [|a l IH]; [intros []|]. simpl. intro H.
  rewrite String.eqb_refl, andb_true_r. destruct (String.eqb_spec a n) as [E|E]; [subst; reflexivity|].
  apply IH. destruct H; [contradiction|assumption].
Qed.

Lemma results_written : forall uuid s c disp reac,
  dget c (d_cases (s_db s)) = Some "static-linear"%string ->
  (forall r, In r (d_disps (s_db s)) -> jr_case r <> c) -> (forall r, In r (d_reacs (s_db s)) -> jr_case r <> c) ->
  (forall n, List.length (disp n) = 6%nat) -> (forall n, List.length (reac n) = 6%nat) ->
  gstep uuid s (GResults c disp reac) =
  (commit (upd (with_results (d_disps (s_db s) ++ map (fun n => JResult n c (disp n)) (map j_name (d_joints (s_db s))))
                             (d_reacs (s_db s) ++ map (fun n => JResult n c (reac n)) (dkeys (d_rest (s_db s))))) s), GNone).
Proof.
  intros uuid s c disp reac Hc H1 H2 Hd Hr. cbn [gstep]. unfold write_results. rewrite Hc. cbn [negb String.eqb Ascii.eqb Bool.eqb].
  rewrite !result_rows_eq by assumption. rewrite !clash_none by assumption. reflexivity.
Qed.

Lemma list6 : forall (l : list R), List.length l = 6%nat -> exists a b c d e f, l = [a; b; c; d; e; f].
Proof.
  intros l H. destruct l as [|a [|b [|c [|d [|e [|f [|g l]]]]]]]; try discriminate. exists a, b, c, d, e, f. reflexivity.
Qed.

Lemma c55_displacement : forall uuid s n j c disp reac u,
  dget c (d_cases (s_db s)) = Some "static-linear"%string ->
  (forall r, In r (d_disps (s_db s)) -> jr_case r <> c) -> (forall r, In r (d_reacs (s_db s)) -> jr_case r <> c) ->
  (forall n, List.length (disp n) = 6%nat) -> (forall n, List.length (reac n) = 6%nat) ->
  is_joint (s_db s) n j -> In u units ->
  exists v, snd (grun uuid s [GResults c disp reac; GSetUnit u; GDisplacement n c]) = [GNone; GTrue; GVals v] /\
            in_si [metres u; metres u; metres u; 1; 1; 1] v = disp n.
Proof.
  intros uuid s n j c disp reac u Hc H1 H2 Hd Hr [Hj Hn] Hu. cbn [grun].
  rewrite (results_written uuid s c disp reac Hc H1 H2 Hd Hr), (set_unit_ok uuid u _ Hu).
  cbn [gstep]. unfold get_result_joint_displacement. cbn [upd commit s_db with_unit with_results d_disps d_unit].
  rewrite (find_result_app n c _ _ (find_result_none n c _ H1)).
  rewrite find_result_map by (rewrite <- Hn; apply in_map; exact Hj).
  rewrite (scale_units u Hu). cbn [jr_vals].
  destruct (list6 (disp n) (Hd n)) as [a [b [d [e [f [g E]]]]]]. rewrite E.
  eexists. split; [reflexivity|]. unfold in_si. simpl. pose proof (metres_pos u).
  repeat f_equal; field; lra.
Qed.

Lemma c55_reaction : forall uuid s n r c disp reac u,
  dget c (d_cases (s_db s)) = Some "static-linear"%string ->
  (forall r, In r (d_disps (s_db s)) -> jr_case r <> c) -> (forall r, In r (d_reacs (s_db s)) -> jr_case r <> c) ->
  (forall n, List.length (disp n) = 6%nat) -> (forall n, List.length (reac n) = 6%nat) ->
  dget n (d_rest (s_db s)) = Some r -> In u units ->
  exists v, snd (grun uuid s [GResults c disp reac; GSetUnit u; GReaction n c]) = [GNone; GTrue; GVals v] /\
            in_si [newtons u; newtons u; newtons u; newtons u * metres u; newtons u * metres u; newtons u * metres u] v = reac n.
Proof.
  intros uuid s n r c disp reac u Hc H1 H2 Hd Hr Hn Hu. cbn [grun].
  rewrite (results_written uuid s c disp reac Hc H1 H2 Hd Hr), (set_unit_ok uuid u _ Hu).
  cbn [gstep]. unfold get_result_joint_reaction. cbn [upd commit s_db with_unit with_results d_reacs d_unit].
  rewrite (find_result_app n c _ _ (find_result_none n c _ H2)).
  rewrite find_result_map by (apply dget_in_keys; exists r; exact Hn).
  rewrite (scale_units u Hu). cbn [jr_vals].
  destruct (list6 (reac n) (Hr n)) as [a [b [d [e [f [g E]]]]]]. rewrite E.
  eexists. split; [reflexivity|]. unfold in_si. simpl. pose proof (metres_pos u). pose proof (newtons_pos u).
  repeat f_equal; field; repeat split; lra.
Qed.

(** *** Loads and materials *)

Lemma times_in_si : forall load f, times load f = in_si f load.
Proof. reflexivity. Qed.

Lemma put_fload_in : forall n c v l, In (FLoad n c v) (put_fload n c v l).
Proof.
  intros n c v l. unfold put_fload. destruct (existsb (is_fload n c) l) eqn:E.
  - apply existsb_exists in E. destruct E as [x [Hx E]]. apply in_map_iff. exists x. rewrite E. split; [reflexivity|exact Hx].
  - apply in_or_app. right. left. reflexivity.
Qed.
Lemma put_fload_only : forall n c v l x, In x (put_fload n c v l) -> fl_frame x = n -> fl_case x = c -> x = FLoad n c v.
Proof.
  intros n c v l x H E1 E2. unfold put_fload in H. destruct (existsb (is_fload n c) l) eqn:E.
  - apply in_map_iff in H. destruct H as [y [Ey Hy]]. destruct (is_fload n c y) eqn:Ec; [symmetry; exact Ey|].
    subst x. unfold is_fload in Ec. rewrite E1, E2, !String.eqb_refl in Ec. discriminate.
  - apply in_app_or in H. destruct H as [H|[H|[]]]; [|symmetry; exact H].
    exfalso. assert (T : existsb (is_fload n c) l = true).
    { apply existsb_exists. exists x. split; [exact H|]. unfold is_fload. rewrite E1, E2, !String.eqb_refl. reflexivity. }
    rewrite T in E. discriminate.
Qed.

Lemma find_frame_some : forall d n f, In f (d_frames d) -> fr_name f = n -> exists g, find_frame n d = Some g.
Proof.
  intros d n f Hf E. unfold find_frame. destruct (find _ (d_frames d)) as [g|] eqn:X; [exists g; reflexivity|].
  exfalso. apply (find_none _ _ X) in Hf. rewrite E, String.eqb_refl in Hf. discriminate.
Qed.

Lemma c55_concentrated : forall uuid s n f c u load loc,
  In f (d_frames (s_db s)) -> fr_name f = n -> In u units -> List.length load = 6%nat -> 0 <= loc <= 1 ->
  let s' := fst (grun uuid s [GSetUnit u; GSetConc n c load loc]) in
  snd (grun uuid s [GSetUnit u; GSetConc n c load loc]) = [GTrue; GTrue] /\
  (exists l, In l (d_conc (s_db s')) /\ fl_frame l = n /\ fl_case l = c) /\
  forall l, In l (d_conc (s_db s')) -> fl_frame l = n -> fl_case l = c ->
    fl_cols l = in_si [newtons u; newtons u; newtons u; newtons u * metres u; newtons u * metres u; newtons u * metres u] load ++ [loc].
Proof.
  intros uuid s n f c u load loc Hf En Hu Hl Hloc. cbv zeta.
  destruct (find_frame_some _ _ _ Hf En) as [g Hg].
  cbn [grun]. rewrite (set_unit_ok uuid u s Hu). cbn [gstep]. unfold set_frame_load_concentrated.
  rewrite Hl. replace (Rltb 1 loc) with false by (symmetry; unfold Rltb; destruct (Rlt_dec 1 loc); [lra|reflexivity]).
  replace (Rltb loc 0) with false by (symmetry; unfold Rltb; destruct (Rlt_dec loc 0); [lra|reflexivity]).
  cbn [Nat.eqb negb andb]. cbn [upd s_db with_unit d_unit].
  change (find_frame n (with_unit u (s_db s))) with (find_frame n (s_db s)). rewrite Hg, (scale_units u Hu).
  cbn [fst snd]. split; [reflexivity|]. cbn [upd s_db with_conc d_conc]. split.
  - eexists. split; [apply put_fload_in|]. split; reflexivity.
  - intros l H1 H2 H3. rewrite (put_fload_only _ _ _ _ _ H1 H2 H3). reflexivity.
Qed.

Lemma distributed_stored : forall uuid s n f c u load,
  In f (d_frames (s_db s)) -> fr_name f = n -> In u units -> List.length load = 12%nat ->
  grun uuid s [GSetUnit u; GSetDist n c load] =
  (upd (fun d => with_dist (put_fload n c (times load (dist_factors (newtons u) (metres u))) (d_dist d)) d) (upd (with_unit u) s), [GTrue; GTrue]).
Proof.
  intros uuid s n f c u load Hf En Hu Hl. destruct (find_frame_some _ _ _ Hf En) as [g Hg].
  cbn [grun]. rewrite (set_unit_ok uuid u s Hu). cbn [gstep]. unfold set_frame_load_distributed.
  rewrite Hl. cbn [Nat.eqb negb]. cbn [upd s_db with_unit d_unit].
  change (find_frame n (with_unit u (s_db s))) with (find_frame n (s_db s)). rewrite Hg, (scale_units u Hu). reflexivity.
Qed.

Lemma c55_distributed_metre : forall uuid s n f c u load,
  In f (d_frames (s_db s)) -> fr_name f = n -> In u units -> List.length load = 12%nat -> metres u = 1 ->
  let s' := fst (grun uuid s [GSetUnit u; GSetDist n c load]) in
  (exists l, In l (d_dist (s_db s')) /\ fl_frame l = n /\ fl_case l = c) /\
  forall l, In l (d_dist (s_db s')) -> fl_frame l = n -> fl_case l = c ->
    let p := newtons u / metres u in let m := newtons u in
    fl_cols l = in_si [p; p; p; m; m; m; p; p; p; m; m; m] load.
Proof.
  intros uuid s n f c u load Hf En Hu Hl H1. cbv zeta. rewrite (distributed_stored uuid s n f c u load Hf En Hu Hl).
  cbn [fst upd s_db with_dist d_dist]. split.
  - eexists. split; [apply put_fload_in|]. split; reflexivity.
  - intros l A B C. rewrite (put_fload_only _ _ _ _ _ A B C). cbn [fl_cols]. rewrite times_in_si. f_equal. unfold dist_factors.
    rewrite H1. repeat f_equal; field.
Qed.

(** Loads on joints never carry a number. *)
Definition nojl (d : db) : Prop := forall l, In l (d_jloads d) -> jl_cols l = null6.
Definition nojls (s : session) : Prop := nojl (s_db s) /\ nojl (s_saved s).

Lemma nojls_rollback : forall s, nojls s -> nojls (rollback s).
Proof. intros s [H1 H2]. split; exact H2. Qed.
Lemma nojls_commit : forall s, nojls s -> nojls (commit s).
Proof. intros s [H1 H2]. split; exact H1. Qed.
Lemma nojls_draw : forall s, nojls s -> nojls (draw s).
Proof. intros s H. exact H. Qed.
Lemma nojls_upd : forall f s, d_jloads (f (s_db s)) = d_jloads (s_db s) -> nojls s -> nojls (upd f s).
Proof. intros f s E [H1 H2]. split; [|exact H2]. unfold nojl. cbn [upd s_db]. rewrite E. exact H1. Qed.
Lemma nojls_joint_at : forall uuid x y z s, nojls s -> nojls (fst (joint_at uuid x y z s)).
Proof. intros. unfold joint_at. destruct (find _ _); [assumption|]. unfold add_joint. cbn [fst]. apply nojls_draw, nojls_upd; [reflexivity|assumption]. Qed.
Lemma nojls_batch_joints : forall uuid L pts s, nojls s -> nojls (fst (batch_joints uuid L pts s)).
Proof.
  intros uuid L pts. induction pts as [|[[[x0 y0] z0] [[x1 y1] z1]] r IH]; intros s H; [exact H|].
  cbn [batch_joints add_joint].
  match goal with |- context [batch_joints uuid L r ?S] =>
    assert (H' : nojls S) by (apply nojls_draw, nojls_upd; [reflexivity|]; apply nojls_draw, nojls_upd; [reflexivity|exact H]);
    specialize (IH S H'); destruct (batch_joints uuid L r S) as [s' l] end.
  exact IH.
Qed.
Lemma nojls_batch_frames : forall uuid sec m ends s, nojls s -> nojls (fst (batch_frames uuid sec m ends s)).
Proof.
  intros uuid sec m ends. induction ends as [|[a b] r IH]; intros s H; [exact H|].
  cbn [batch_frames]. destruct (bindO _ _) as [[[a' b'] o]|]; [|apply IH; exact H].
  match goal with |- context [batch_frames uuid sec m r ?S] =>
    assert (H' : nojls S) by (apply nojls_draw, nojls_upd; [reflexivity|exact H]);
    specialize (IH S H'); destruct (batch_frames uuid sec m r S) as [s' l] end.
  exact IH.
Qed.
Lemma remove_jloads : forall rm d d', remove_joints rm d = Some d' -> d_jloads d' = d_jloads d.
Proof. intros rm d d' E. unfold remove_joints in E. destruct (forallb _ rm); [|discriminate]. injection E as E. subst. reflexivity. Qed.

Ltac jl0 := first [assumption | apply nojls_rollback; assumption | (apply nojls_upd; [reflexivity|assumption])].

Lemma nojls_step : forall uuid o s, nojls s -> nojls (fst (gstep uuid s o)).
Proof.
  intros uuid o s H. destruct o; cbn [gstep].
  - unfold set_unit. destruct (existsb _ _); jl0.
  - unfold set_tolerance. destruct (scale _) as [[F L]|]; jl0.
  - unfold get_tolerance. destruct (scale _) as [[F L]|]; jl0.
  - cbn [add_joint fst]. apply nojls_draw; jl0.
  - unfold set_joint_coordinate. destruct (find_joint _ _); [|jl0]. destruct (scale _) as [[F L]|]; jl0.
  - unfold get_joint_coordinate. destruct (find_joint _ _); [|jl0]. destruct (scale _) as [[F L]|]; jl0.
  - jl0.
  - unfold get_joint_name_by_coor. destruct (scale _) as [[F L]|]; jl0.
  - unfold set_joint_restraint. destruct (negb _); [jl0|]. destruct (find_joint _ _); [|jl0].
    destruct (dget _ _); [|jl0]. destruct (existsb _ _); jl0.
  - unfold set_joint_load. destruct (negb _); [jl0|]. destruct (find_joint _ _); [|jl0].
    destruct (scale _) as [[F L]|]; [|jl0]. cbn [fst]. destruct H as [H1 H2]. split; [|exact H2]. cbn [upd s_db].
    destruct (existsb _ _); [exact H1|]. intros l Hl. cbn [with_jloads d_jloads] in Hl. apply in_app_or in Hl.
    destruct Hl as [Hl|[Hl|[]]]; [apply H1; exact Hl|subst l; reflexivity].
  - unfold merge_joints. destruct (scale _) as [[F L]|]; [|jl0]. destruct (remove_joints _ _) as [d|] eqn:E; [|jl0].
    apply nojls_upd; [apply (remove_jloads _ _ _ E)|assumption].
  - unfold add_frame. destruct p0 as [[x0 y0] z0], p1 as [[x1 y1] z1].
    destruct (match name with Some _ => _ | None => _ end); [jl0|].
    destruct (dget _ _); [|jl0]. destruct (scale _) as [[F L]|]; [|jl0].
    pose proof (nojls_joint_at uuid (x0*L) (y0*L) (z0*L) s H) as H0. destruct (joint_at uuid (x0*L) (y0*L) (z0*L) s) as [s1 n0]. cbn [fst] in H0.
    pose proof (nojls_joint_at uuid x1 y1 z1 s1 H0) as H1. destruct (joint_at uuid x1 y1 z1 s1) as [s2 n1]. cbn [fst] in H1.
    destruct (order_ends n0 n1) as [[[a b] o]|]; [|jl0]. apply nojls_draw; jl0.
  - unfold add_frame_batch. destruct pts as [|p pts]; [jl0|]. destruct (dget _ _); [|jl0]. destruct (scale _) as [[F L]|]; [|jl0].
    pose proof (nojls_batch_joints uuid L (p :: pts) s H) as H0. destruct (batch_joints uuid L (p :: pts) s) as [s1 ends]. cbn [fst] in H0.
    destruct (merge_map _ _) as [m rm].
    pose proof (nojls_batch_frames uuid section m ends s1 H0) as H1. destruct (batch_frames uuid section m ends s1) as [s2 names]. cbn [fst] in H1.
    destruct (remove_joints rm (s_db s2)) as [d|] eqn:E; [|jl0]. apply nojls_commit, nojls_upd; [apply (remove_jloads _ _ _ E)|exact H1].
  - unfold get_frame_end_names. destruct (bindO _ _) as [[a b]|]; jl0.
  - unfold get_frame_end_coors. destruct (scale _) as [[F L]|]; [|jl0]. destruct (bindO _ _) as [[a b]|]; jl0.
  - jl0.
  - unfold set_frame_load_distributed. destruct (negb _); [jl0|]. destruct (find_frame _ _); [|jl0]. destruct (scale _) as [[F L]|]; jl0.
  - unfold set_frame_load_concentrated. destruct (negb _); [jl0|]. destruct (find_frame _ _); [|jl0]. destruct (scale _) as [[F L]|]; jl0.
  - unfold add_material. destruct (dget _ _); [jl0|]. destruct (scale _) as [[F L]|]; [|jl0]. destruct (String.eqb _ _); [|jl0]. destruct kw as [[E mu]|]; jl0.
  - unfold set_material_isotropic_elastic. destruct (dget _ _) as [[rho [p|]]|]; jl0.
  - unfold add_frame_section. destruct (dget _ _); [jl0|]. destruct (dget _ _); [|jl0]. destruct (scale _) as [[F L]|]; [|jl0].
    destruct (section_row _ _ _) as [[z [[[A J] I2] I3]]|]; jl0.
  - unfold add_loadcase. destruct (dget _ _); jl0.
  - unfold set_frame_section. destruct (find_frame _ _); jl0.
  - unfold write_results. destruct (dget _ _); [|jl0]. destruct (negb _); [jl0|].
    destruct (result_rows _ _ _); [|jl0]. destruct (result_rows _ _ _); [|jl0]. destruct (_ || _)%bool; [jl0|]. apply nojls_commit; jl0.
  - unfold get_result_joint_displacement. destruct (find_result _ _ _) as [r|]; [|jl0].
    destruct (scale _) as [[F L]|]; [|jl0]. destruct (jr_vals r) as [|a [|b [|c' [|d [|e [|f [|g l]]]]]]]; jl0.
  - unfold get_result_joint_reaction. destruct (find_result _ _ _) as [r|]; [|jl0].
    destruct (scale _) as [[F L]|]; [|jl0]. destruct (jr_vals r) as [|a [|b [|c' [|d [|e [|f [|g l]]]]]]]; jl0.
  - apply nojls_commit; exact H.
  - unfold add_area_section. destruct (existsb _ _); [|jl0]. destruct (dget _ _); [jl0|]. destruct (scale _) as [[F L]|]; jl0.
  - rewrite add_area_fails. jl0.
  - rewrite add_area_batch_fails. jl0.
  - jl0.
  - jl0.
  - jl0.
  - jl0.
  - jl0.
  - jl0.
  - jl0.
  - unfold set_joint_mass. destruct (find_joint _ _); jl0.
  - unfold set_material_name. destruct (dget _ _); jl0.
  - unfold add_material_quick. destruct (String.eqb _ _); [|jl0]. unfold add_material. destruct (dget _ _); [jl0|]. destruct (scale _) as [[F L]|]; [|jl0]. destruct (String.eqb _ _); jl0.
  - jl0.
  - jl0.
  - jl0.
  - jl0.
Qed.
Lemma nojls_run : forall uuid ops s, nojls s -> nojls (fst (grun uuid s ops)).
Proof.
  intros uuid ops. induction ops as [|o r IH]; intros s H; [exact H|]. rewrite grun_fst_cons. apply IH, nojls_step, H.
Qed.

(** ** The new project, spelled out *)

Definition start_db : db :=
  DB "N_m_C" (1/1000000) [] [] [] [] [] []
    [("Q345"%string, GMat (7849 * (1 * / 1^4)) (Some (200000000000 * (1 * / 1^2), 3/10)));
     ("C35"%string, GMat (2500 * (1 * / 1^4)) (Some (20000000000 * (1 * / 1^2), 2/10)))]
    [("1-L-H400x200x14x20"%string,
      let h := 4/10*1 in let b := 2/10*1 in
      GSec "Q345" [h; b; h; b] (b*b*2 + h*(h-2*b)) ((b*b^3*2 + (h-b)*h^3)/3)
           (2*b*b^3/12 + (h-2*b)*h^3/12) (b*h^3/12 - (b-h)*(h-2*b)^3/12))]
    [("S"%string, "static-linear"%string)] [] [] [("A-M120"%string, GASec "C35" "m" (12/100 * 1))] [].

Lemma reqb_false : forall x, x <> 0 -> Reqb x 0 = false.
Proof. intros x H. unfold Reqb. destruct (Req_EM_T x 0); [contradiction|reflexivity]. Qed.

Lemma create_eq : create = Session start_db start_db 0.
Proof.
  unfold create. cbv zeta.
  assert (E : forall s, dget "1-L-H400x200x14x20" (d_secs (s_db s)) = None -> dget "Q345" (d_mats (s_db s)) <> None -> d_unit (s_db s) = "N_m_C"%string ->
     fst (add_frame_section "1-L-H400x200x14x20" "Q345" "I" [4/10; 2/10; 14/1000; 2/100] s) =
     upd (fun d => with_secs (dset "1-L-H400x200x14x20" (let h := 4/10*1 in let b := 2/10*1 in
      GSec "Q345" [h; b; h; b] (b*b*2 + h*(h-2*b)) ((b*b^3*2 + (h-b)*h^3)/3)
           (2*b*b^3/12 + (h-2*b)*h^3/12) (b*h^3/12 - (b-h)*(h-2*b)^3/12)) (d_secs d)) d) s).
  { intros s E1 E2 E3. unfold add_frame_section. rewrite E1, E3. destruct (dget "Q345" (d_mats (s_db s))); [|congruence].
    unfold section_row, I_consts. cbn [String.eqb Ascii.eqb Bool.eqb scale].
    rewrite !reqb_false by lra. reflexivity. }
  rewrite E; [reflexivity|reflexivity|discriminate|reflexivity].
Qed.

Lemma c55_joint_loads_lost : forall uuid s c p, drawn uuid s -> In p (applied_loads c (s_db s)) -> snd p = [0; 0; 0; 0; 0; 0].
Proof.
  intros uuid s c p [ops E] H. assert (N : nojls s).
  { subst s. apply nojls_run. rewrite create_eq. split; intros l []. }
  unfold applied_loads in H. apply in_map_iff in H. destruct H as [l [E' H]]. subst p. cbn [snd].
  apply filter_In in H. destruct H as [H _]. rewrite (proj1 N l H). reflexivity.
Qed.

(** Names for witnesses. *)
Fixpoint ticks (n : nat) : string := match n with O => "j"%string | S k => append "j" (ticks k) end.
Lemma ticks_fresh : fresh_names ticks.
Proof.
  intro i. induction i as [|i IH]; intros [|k] E; simpl in E;
    [reflexivity|destruct k; discriminate|destruct i; discriminate|]. injection E as E. f_equal. apply IH. exact E.
Qed.

(** ** Frames (C56) *)

Lemma rabs_lt : forall a b, a < b -> - a < b -> Rabs a < b.
Proof. intros. apply Rabs_def1; lra. Qed.

Lemma rltb_true : forall a b, Rltb a b = true -> a < b.
Proof. intros a b. unfold Rltb. destruct (Rlt_dec a b); [trivial|discriminate]. Qed.

Lemma at_point_lies : forall tol x y z j, at_point tol x y z j = true -> lies tol 1 j ((x, y), z).
Proof.
  intros tol x y z j H. unfold at_point in H. repeat (apply andb_prop in H; destruct H as [H ?]).
  repeat match goal with E : Rltb _ _ = true |- _ => apply rltb_true in E end.
  unfold lies, near. rewrite !Rmult_1_r. repeat split; right; apply rabs_lt; lra.
Qed.

(** [s'] has the joints of [s] and maybe more, and the same other tables. *)
Definition grown (s s' : session) : Prop :=
  (exists l, d_joints (s_db s') = d_joints (s_db s) ++ l) /\
  d_frames (s_db s') = d_frames (s_db s) /\ d_tol (s_db s') = d_tol (s_db s) /\
  d_unit (s_db s') = d_unit (s_db s) /\ d_secs (s_db s') = d_secs (s_db s).

Lemma joint_at_spec : forall uuid x y z s s' n, fresh_names uuid -> ginv uuid s -> joint_at uuid x y z s = (s', n) ->
  ginv uuid s' /\ grown s s' /\ exists j, is_joint (s_db s') n j /\ lies (d_tol (s_db s)) 1 j ((x, y), z).
Proof.
  intros uuid x y z s s' n Hf H E. pose proof (ginv_joint_at uuid x y z s Hf H) as H'. rewrite E in H'. cbn [fst] in H'.
  split; [exact H'|]. unfold joint_at in E. destruct (find _ _) as [j|] eqn:F.
  - injection E as E1 E2. subst s' n. apply find_some in F. destruct F as [F1 F2]. split.
    + split; [exists []; symmetry; apply app_nil_r|]. repeat split.
    + exists j. split; [split; [exact F1|reflexivity]|]. apply at_point_lies. exact F2.
  - unfold add_joint in E. injection E as E1 E2. subst s' n. split.
    + split; [eexists; reflexivity|]. repeat split.
    + eexists. split.
      * split; [apply in_or_app; right; left; reflexivity|reflexivity].
      * cbn [lies j_x j_y j_z]. unfold near. rewrite !Rmult_1_r. repeat split; left; reflexivity.
Qed.

Lemma is_joint_grown : forall s s' n j, grown s s' -> is_joint (s_db s) n j -> is_joint (s_db s') n j.
Proof. intros s s' n j [[l E] _] [H1 H2]. split; [rewrite E; apply in_or_app; left; exact H1|exact H2]. Qed.

Lemma order_ends_spec : forall n0 n1 a b o, order_ends n0 n1 = Some (a, b, o) ->
  (o = "01"%string /\ a = n0 /\ b = n1) \/ (o = "10"%string /\ a = n1 /\ b = n0).
Proof.
  intros n0 n1 a b o H. unfold order_ends in H.
  destruct (String.ltb n0 n1); [injection H as <- <- <-; left; auto|].
  destruct (String.ltb n1 n0); [injection H as <- <- <-; right; auto|discriminate].
Qed.

Lemma string_compare_eq : forall a b, String.compare a b = Eq -> a = b.
Proof. exact String.compare_eq_iff. Qed.

Lemma compare_refl : forall a, String.compare a a = Eq.
Proof. intro a. pose proof (String.compare_antisym a a) as H. destruct (String.compare a a); [reflexivity|discriminate|discriminate]. Qed.

Lemma order_ends_none : forall a b, order_ends a b = None -> a = b.
Proof.
  intros a b H. unfold order_ends, String.ltb in H.
  destruct (String.compare a b) eqn:E; [apply string_compare_eq; exact E|discriminate|].
  rewrite String.compare_antisym, E in H. discriminate.
Qed.

Lemma lies_scale : forall tol L j x y z, lies tol 1 j ((x * L, y * L), z * L) <-> lies tol L j ((x, y), z).
Proof. intros. unfold lies. rewrite !Rmult_1_r. tauto. Qed.

Lemma frame_ends : forall uuid s p0 p1 sec name n s',
  fresh_names uuid -> ginv uuid s -> add_frame uuid p0 p1 sec name s = (s', GName n) ->
  exists f a b, d_frames (s_db s') = d_frames (s_db s) ++ [f] /\ fr_name f = n /\ fr_section f = sec /\
    is_joint (s_db s') (start_of f) a /\ lies (d_tol (s_db s)) (metres (d_unit (s_db s))) a p0 /\
    is_joint (s_db s') (end_of f) b /\ lies (d_tol (s_db s)) 1 b p1 /\ start_of f <> end_of f.
Proof.
  intros uuid s [[x0 y0] z0] [[x1 y1] z1] sec name n s' Hf H E. unfold add_frame in E.
  destruct (match name with Some _ => _ | None => _ end); [discriminate|].
  destruct (dget sec (d_secs (s_db s))) as [g|]; [|discriminate].
  rewrite (scale_units _ (proj1 (proj1 H))) in E. set (L := metres (d_unit (s_db s))) in *.
  destruct (joint_at uuid (x0*L) (y0*L) (z0*L) s) as [s1 n0] eqn:E0.
  destruct (joint_at uuid x1 y1 z1 s1) as [s2 n1] eqn:E1.
  destruct (joint_at_spec _ _ _ _ _ _ _ Hf H E0) as [H1 [G1 [a [Ia La]]]].
  destruct (joint_at_spec _ _ _ _ _ _ _ Hf H1 E1) as [H2 [G2 [b [Ib Lb]]]].
  destruct (order_ends n0 n1) as [[[p q] o]|] eqn:EO; [|discriminate].
  injection E as Es En. subst s'.
  pose proof (is_joint_grown _ _ _ _ G2 Ia) as Ia2.
  destruct G1 as [_ [F1 [T1 [U1 S1]]]]. destruct G2 as [_ [F2 [T2 [U2 S2]]]].
  exists (Frame n sec p q o), a, b. rewrite En. cbn [upd draw s_db with_frames d_frames].
  split; [rewrite F2, F1; reflexivity|]. split; [reflexivity|]. split; [reflexivity|].
  assert (Hne : n0 <> n1).
  { intro X. subst n1. unfold order_ends, String.ltb in EO. rewrite compare_refl in EO. discriminate. }
  assert (Hse : start_of (Frame n sec p q o) = n0 /\ end_of (Frame n sec p q o) = n1).
  { destruct (order_ends_spec _ _ _ _ _ EO) as [[-> [-> ->]]|[-> [-> ->]]]; split; reflexivity. }
  destruct Hse as [Hs He]. rewrite Hs, He. rewrite T1 in Lb.
  split; [exact Ia2|]. split; [apply lies_scale; exact La|]. split; [exact Ib|]. split; [exact Lb|exact Hne].
Qed.
