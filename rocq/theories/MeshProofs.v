(** Proofs about handing a drawing to the element model (C104). *)
From Coq Require Import Reals Lra Lia List String Arith Bool ZArith.
From Verif Require Import Base BaseFacts General SpecGeneral GeneralProofs GeneralProofs2 GeneralProofs3 GeneralProofs4 Mesh SpecMesh.
Import ListNotations.
Local Open Scope R_scope.

Lemma some_eq {A} (a b : A) : Some a = Some b -> a = b.
Proof. intro H. injection H as H. exact H. Qed.

(** ** What drawings hold *)
Definition names (d : db) : list string := map j_name (d_joints d).
Definition mok (d : db) : Prop :=
  (forall n, In n (dkeys (d_rest d)) -> In n (names d)) /\
  (forall l, In l (d_jloads d) -> In (jl_joint l) (names d)) /\
  (forall n s, dget n (d_secs d) = Some s -> dget (gs_mat s) (d_mats d) <> None) /\
  (forall f, In f (d_frames d) -> fr_order f = "01"%string \/ fr_order f = "10"%string).
Definition moks (s : session) : Prop := mok (s_db s) /\ mok (s_saved s).

Lemma mok_grow : forall d d', (forall n, In n (names d) -> In n (names d')) ->
  (forall n, In n (dkeys (d_rest d')) -> In n (dkeys (d_rest d)) \/ In n (names d')) ->
  (forall l, In l (d_jloads d') -> In l (d_jloads d) \/ In (jl_joint l) (names d')) ->
  (forall n s, dget n (d_secs d') = Some s -> dget n (d_secs d) = Some s \/ dget (gs_mat s) (d_mats d') <> None) ->
  (forall n, dget n (d_mats d) <> None -> dget n (d_mats d') <> None) ->
  (forall f, In f (d_frames d') -> In f (d_frames d)) -> mok d -> mok d'.
Proof.
  intros d d' N R L S M F [H1 [H2 [H3 H4]]]. split; [|split; [|split]].
  - intros n Hn. destruct (R n Hn) as [K|K]; auto.
  - intros l Hl. destruct (L l Hl) as [K|K]; auto.
  - intros n s Hs. destruct (S n s Hs) as [K|K]; [|exact K]. apply M. exact (H3 n s K).
  - intros f Hf. auto.
Qed.
Lemma moks_rollback : forall s, moks s -> moks (rollback s).
Proof. intros s [_ H]. split; exact H. Qed.
Lemma moks_commit : forall s, moks s -> moks (commit s).
Proof. intros s [H _]. split; exact H. Qed.
Lemma moks_upd : forall f s, mok (f (s_db s)) -> moks s -> moks (upd f s).
Proof. intros f s H [_ H2]. split; [exact H|exact H2]. Qed.

Lemma moks_add_joint : forall uuid x y z s, moks s -> moks (fst (add_joint uuid x y z s)).
Proof.
  intros uuid x y z s H. unfold add_joint. cbn [fst].
  apply (moks_upd (fun d => with_joints (d_joints d ++ [Joint (uuid (s_next s)) x y z]) d) s); [|exact H].
  apply mok_grow with (d := s_db s); try tauto; [|apply H].
  intros n Hn. unfold names in *. cbn [with_joints d_joints]. rewrite map_app. apply in_or_app. left. exact Hn.
Qed.
Lemma moks_joint_at : forall uuid x y z s, moks s -> moks (fst (joint_at uuid x y z s)).
Proof. intros. unfold joint_at. destruct (find _ _); [assumption|]. apply moks_add_joint. assumption. Qed.

Lemma find_joint_named : forall n d j, find_joint n d = Some j -> In n (names d).
Proof.
  intros n d j H. unfold find_joint in H. apply find_some in H. destruct H as [H1 H2].
  apply String.eqb_eq in H2. subst n. unfold names. apply in_map. exact H1.
Qed.
Lemma dkeys_dset : forall {A} k (v : A) d n, In n (dkeys (dset k v d)) -> n = k \/ In n (dkeys d).
Proof.
  intros A k v d n. induction d as [|[k' v'] r IH]; simpl; [intuition|].
  destruct (String.eqb k k') eqn:E; simpl; intuition.
Qed.
Lemma dget_dset_some : forall {A} k (v : A) d n, dget n d <> None -> dget n (dset k v d) <> None.
Proof.
  intros A k v d n H. destruct (String.eqb_spec n k) as [E|E]; [subst; rewrite dget_dset_eq; discriminate|].
  rewrite dget_dset_neq by exact E. exact H.
Qed.

Ltac mo1 := apply moks_upd; [|assumption];
  match goal with H : moks ?s |- _ => apply mok_grow with (d := s_db s); try tauto; [..|apply H] end.
Ltac mo0 := first [assumption | apply moks_rollback; assumption | solve [mo1]].

Lemma moks_step : forall uuid o s, plain o -> moks s -> moks (fst (gstep uuid s o)).
Proof.
  intros uuid o s P H. destruct o; cbn [gstep]; try contradiction.
  - unfold set_unit. destruct (existsb _ _); mo0.
  - unfold set_tolerance. destruct (scale _) as [[F L]|]; mo0.
  - unfold get_tolerance. destruct (scale _) as [[F L]|]; mo0.
  - pose proof (moks_add_joint uuid x y z s H) as H0. destruct (add_joint uuid x y z s). exact H0.
  - unfold set_joint_coordinate. destruct (find_joint _ _); [|mo0]. destruct (scale _) as [[F L]|]; [|mo0].
    cbn [fst]. mo1. intros k Hk. unfold names in *. cbn [with_joints d_joints]. rewrite map_set_names. exact Hk.
  - unfold get_joint_coordinate. destruct (find_joint _ _); [|mo0]. destruct (scale _) as [[F L]|]; mo0.
  - mo0.
  - unfold get_joint_name_by_coor. destruct (scale _) as [[F L]|]; mo0.
  - unfold set_joint_restraint. destruct (negb _); [mo0|]. destruct (find_joint _ _) eqn:Ej; [|mo0].
    apply find_joint_named in Ej.
    destruct (dget _ _); [|cbn [fst]; mo1; intros k Hk; cbn [with_rest d_rest] in Hk; apply dkeys_dset in Hk; destruct Hk as [->|Hk]; [right; exact Ej|left; exact Hk]].
    destruct (existsb _ _); cbn [fst]; mo1; intros k Hk; cbn [with_rest d_rest] in Hk.
    + apply dkeys_dset in Hk. destruct Hk as [->|Hk]; [right; exact Ej|left; exact Hk].
    + left. unfold dkeys in *. apply in_map_iff in Hk. destruct Hk as [[k' v] [E Hk]]. apply filter_In in Hk. apply in_map_iff. exists (k', v). tauto.
  - unfold set_joint_load. destruct (negb _); [mo0|]. destruct (find_joint _ _) eqn:Ej; [|mo0].
    apply find_joint_named in Ej.
    destruct (scale _) as [[F L]|]; [|mo0]. cbn [fst].
    apply moks_upd; [|exact H]. destruct (existsb _ _); [apply H|]. apply mok_grow with (d := s_db s); try tauto; [|apply H].
    intros k Hk. cbn [with_jloads d_jloads] in Hk. apply in_app_or in Hk. destruct Hk as [Hk|[Hk|[]]]; [left; exact Hk|right]. subst k. exact Ej.
  - unfold add_frame. destruct p0 as [[x0 y0] z0], p1 as [[x1 y1] z1].
    destruct (match name with Some _ => _ | None => _ end); [mo0|].
    destruct (dget section (d_secs (s_db s))) as [g|] eqn:Eg; [|mo0]. destruct (scale _) as [[F L]|]; [|mo0].
    pose proof (moks_joint_at uuid (x0*L) (y0*L) (z0*L) s H) as H0. destruct (joint_at uuid (x0*L) (y0*L) (z0*L) s) as [s1 n0] eqn:E0. cbn [fst] in H0.
    pose proof (moks_joint_at uuid x1 y1 z1 s1 H0) as H1. destruct (joint_at uuid x1 y1 z1 s1) as [s2 n1] eqn:E1. cbn [fst] in H1.
    destruct (order_ends n0 n1) as [[[p q] o]|] eqn:EO; [|exact H1]. cbn [fst]. destruct H1 as [[K1 [K2 [K3 K4]]] K]. split; [|exact K].
    cbn [draw upd s_db]. split; [exact K1|]. split; [exact K2|]. split; [exact K3|].
    intros f Hf. cbn [with_frames d_frames] in Hf. apply in_app_or in Hf. destruct Hf as [Hf|[Hf|[]]]; [exact (K4 f Hf)|].
    subst f. cbn [fr_order]. destruct (order_ends_spec _ _ _ _ _ EO) as [[E _]|[E _]]; auto.
  - unfold get_frame_end_names. destruct (bindO _ _) as [[a b]|]; mo0.
  - unfold get_frame_end_coors. destruct (scale _) as [[F L]|]; [|mo0]. destruct (bindO _ _) as [[a b]|]; mo0.
  - mo0.
  - unfold set_frame_load_distributed. destruct (negb _); [mo0|]. destruct (find_frame _ _); [|mo0]. destruct (scale _) as [[F L]|]; mo0.
  - unfold set_frame_load_concentrated. destruct (negb _); [mo0|]. destruct (find_frame _ _); [|mo0]. destruct (scale _) as [[F L]|]; mo0.
  - unfold add_material. destruct (dget _ _); [mo0|]. destruct (scale _) as [[F L]|]; [|mo0].
    destruct (String.eqb _ _); [destruct kw as [[E mu]|]; [|mo0]|]; cbn [fst]; mo1; intros k Hk; apply dget_dset_some; exact Hk.
  - unfold set_material_isotropic_elastic. destruct (dget _ _) as [[rho [p|]]|]; try mo0.
    cbn [fst]; mo1; intros k Hk; apply dget_dset_some; exact Hk.
  - unfold add_frame_section. destruct (dget n (d_secs (s_db s))) eqn:En; [mo0|]. destruct (dget mat (d_mats (s_db s))) eqn:Em; [|mo0]. destruct (scale _) as [[F L]|]; [|mo0].
    destruct (section_row _ _ _) as [[z [[[A J] I2] I3]]|]; [|mo0]. cbn [fst]. mo1.
    intros k g0 Hk. cbn [with_secs d_secs] in Hk. destruct (String.eqb_spec k n) as [E|E].
    + subst k. rewrite dget_dset_eq in Hk. injection Hk as <-. right. cbn [gs_mat with_secs d_mats]. rewrite Em. discriminate.
    + rewrite dget_dset_neq in Hk by exact E. left. exact Hk.
  - unfold add_loadcase. destruct (dget _ _); mo0.
  - unfold write_results. destruct (dget _ _); [|mo0]. destruct (negb _); [mo0|].
    destruct (result_rows _ _ _); [|mo0]. destruct (result_rows _ _ _); [|mo0]. destruct (_ || _)%bool; [mo0|]. apply moks_commit; mo0.
  - unfold get_result_joint_displacement. destruct (find_result _ _ _) as [r|]; [|mo0].
    destruct (scale _) as [[F L]|]; [|mo0]. destruct (jr_vals r) as [|a [|b [|c' [|d [|e [|f [|g l]]]]]]]; mo0.
  - unfold get_result_joint_reaction. destruct (find_result _ _ _) as [r|]; [|mo0].
    destruct (scale _) as [[F L]|]; [|mo0]. destruct (jr_vals r) as [|a [|b [|c' [|d [|e [|f [|g l]]]]]]]; mo0.
  - apply moks_commit; exact H.
  - unfold add_area_section. destruct (existsb _ _); [|mo0]. destruct (dget _ _); [mo0|]. destruct (scale _) as [[F L]|]; mo0.
  - rewrite add_area_fails. mo0.
  - rewrite add_area_batch_fails. mo0.
  - mo0.
  - mo0.
  - mo0.
  - mo0.
  - mo0.
  - mo0.
  - mo0.
  - unfold set_joint_mass. destruct (find_joint _ _); mo0.
  - unfold set_material_name. destruct (dget _ _); mo0.
  - unfold add_material_quick. destruct (String.eqb _ _); [|mo0]. unfold add_material. destruct (dget _ _); [mo0|]. destruct (scale _) as [[F L]|]; [|mo0].
    destruct (String.eqb _ _); cbn [fst]; mo1; intros k Hk; apply dget_dset_some; exact Hk.
  - mo0.
  - mo0.
  - mo0.
  - mo0.
Qed.

Lemma start_mok : mok start_db.
Proof.
  split; [intros n []|split; [intros l []|split; [|intros f []]]].
  intros n s E. unfold start_db in E. cbn [d_secs dget] in E. destruct (String.eqb n _); [|discriminate]. injection E as <-. discriminate.
Qed.
Lemma mok_drawn : forall uuid ops, Forall plain ops -> mok (s_db (fst (grun uuid create ops))).
Proof.
  intros uuid ops P. assert (K : forall s, moks s -> moks (fst (grun uuid s ops))).
  { induction P as [|o r Po Pr IH]; intros s H; [exact H|]. rewrite grun_fst_cons. apply IH, moks_step; assumption. }
  apply K. rewrite create_eq. split; exact start_mok.
Qed.

(** ** The nodes *)
Lemma mesh_nodes_calls : forall hid js k pn, fst (mesh_nodes hid k js pn) = map (fun j => CNode (j_x j) (j_y j) (j_z j)) js.
Proof.
  intros hid js. induction js as [|j r IH]; intros k pn; cbn [mesh_nodes map]; [reflexivity|].
  specialize (IH (S k) (dset (j_name j) (hid k) pn)). destruct (mesh_nodes hid (S k) r _) as [cs pn']. cbn [fst] in *. f_equal. exact IH.
Qed.
Lemma mesh_nodes_map : forall hid js k pn n h, NoDup (map j_name js) ->
  dget n (snd (mesh_nodes hid k js pn)) = Some h <->
  (exists i j, nth_error js i = Some j /\ j_name j = n /\ h = hid (k + i)%nat) \/ (~ In n (map j_name js) /\ dget n pn = Some h).
Proof.
  intros hid js. induction js as [|j r IH]; intros k pn n h ND; cbn [mesh_nodes map].
  - cbn [snd]. split; [intro H; right; split; [intros []|exact H]|]. intros [[i [j [H _]]]|[_ H]]; [destruct i; discriminate|exact H].
  - inversion ND as [|a l N1 N2]; subst. specialize (IH (S k) (dset (j_name j) (hid k) pn) n h N2).
    destruct (mesh_nodes hid (S k) r _) as [cs pn']. cbn [snd] in *. rewrite IH. clear IH. split.
    + intros [[i [a [A1 [A2 A3]]]]|[A1 A2]].
      * left. exists (S i), a. split; [exact A1|]. split; [exact A2|]. rewrite A3. f_equal. lia.
      * destruct (String.eqb_spec n (j_name j)) as [E|E].
        -- left. exists 0%nat, j. rewrite E, dget_dset_eq in A2. injection A2 as <-. split; [reflexivity|]. split; [symmetry; exact E|]. f_equal. lia.
        -- right. rewrite dget_dset_neq in A2 by exact E. split; [|exact A2]. intros [K|K]; [apply E; symmetry; exact K|exact (A1 K)].
    + intros [[i [a [A1 [A2 A3]]]]|[A1 A2]].
      * destruct i as [|i].
        -- injection A1 as <-. right. subst n. split; [exact N1|]. rewrite dget_dset_eq. f_equal. rewrite A3. f_equal. lia.
        -- left. exists i, a. split; [exact A1|]. split; [exact A2|]. rewrite A3. f_equal. lia.
      * right. split; [intro K; apply A1; right; exact K|]. rewrite dget_dset_neq; [exact A2|]. intro E. apply A1. left. symmetry. exact E.
Qed.
Lemma mesh_nodes_of : forall hid d n h, NoDup (names d) -> dget n (snd (mesh_nodes hid 0 (d_joints d) [])) = Some h <-> node_of hid d n h.
Proof.
  intros hid d n h ND. rewrite mesh_nodes_map by exact ND. split.
  - intros [H|[_ H]]; [exact H|discriminate].
  - intro H. left. exact H.
Qed.
Lemma mesh_nodes_some : forall hid d n, NoDup (names d) -> In n (names d) -> exists h, dget n (snd (mesh_nodes hid 0 (d_joints d) [])) = Some h /\ node_of hid d n h.
Proof.
  intros hid d n ND H. unfold names in H. apply in_map_iff in H. destruct H as [j [E Hj]]. apply In_nth_error in Hj. destruct Hj as [i Hi].
  exists (hid i). assert (K : node_of hid d n (hid i)) by (exists i, j; auto). split; [|exact K]. apply mesh_nodes_of; assumption.
Qed.

(** ** The beams *)
Lemma frames_meshed : forall hid d pn, (forall n, In n (names d) -> exists h, dget n pn = Some h /\ node_of hid d n h) -> all_elastic d ->
  (forall n s, dget n (d_secs d) = Some s -> dget (gs_mat s) (d_mats d) <> None) ->
  forall fs, (forall f, In f fs -> (exists a, is_joint d (fr_p0 f) a) /\ (exists b, is_joint d (fr_p1 f) b) /\ dget (fr_section f) (d_secs d) <> None) ->
  (forall f, In f fs -> fr_order f = "01"%string \/ fr_order f = "10"%string) ->
  exists bs, mesh_frames d pn fs = Some bs /\ Forall2 (beam_of hid d) fs bs.
Proof.
  intros hid d pn N EL SM fs. induction fs as [|f r IH]; intros F O; cbn [mesh_frames]; [exists []; split; [reflexivity|constructor]|].
  destruct IH as [bs [B1 B2]]; [intros g Hg; apply F; right; exact Hg|intros g Hg; apply O; right; exact Hg|].
  destruct (F f (or_introl eq_refl)) as [[a [Ia Na]] [[b [Ib Nb]] Sf]].
  destruct (N (fr_p0 f)) as [h0 [G0 K0]]; [rewrite <- Na; unfold names; apply in_map; exact Ia|].
  destruct (N (fr_p1 f)) as [h1 [G1 K1]]; [rewrite <- Nb; unfold names; apply in_map; exact Ib|].
  rewrite G0, G1. cbn [bindO]. unfold frame_constants.
  destruct (dget (fr_section f) (d_secs d)) as [s|] eqn:Es; [|congruence]. cbn [bindO].
  destruct (dget (gs_mat s) (d_mats d)) as [m|] eqn:Em; [|exfalso; exact (SM _ _ Es Em)]. cbn [bindO].
  destruct (gm_elastic m) as [[E mu]|] eqn:Ee; [|exfalso; exact (EL _ _ Em Ee)]. cbn [bindO fst snd].
  rewrite B1. cbn [bindO].
  assert (T : forall x y, node_of hid d (start_of f) x -> node_of hid d (end_of f) y ->
     beam_of hid d f (CBeam x y E mu (gs_A s) (gs_I2 s) (gs_I3 s) (gs_J s) (gm_rho m))).
  { intros x y X Y. exists x, y, s, m, E, mu. tauto. }
  destruct (O f (or_introl eq_refl)) as [Of|Of].
  - rewrite Of. cbn [String.eqb Ascii.eqb Bool.eqb]. eexists. split; [reflexivity|]. cbn [app]. constructor; [|exact B2].
    apply T; unfold start_of, end_of; rewrite Of; assumption.
  - rewrite Of. cbn [String.eqb Ascii.eqb Bool.eqb]. eexists. split; [reflexivity|]. cbn [app]. constructor; [|exact B2].
    apply T; unfold start_of, end_of; rewrite Of; assumption.
Qed.

Lemma rest_meshed : forall hid d pn, (forall n, In n (names d) -> exists h, dget n pn = Some h /\ node_of hid d n h) ->
  forall rs, (forall n, In n (dkeys rs) -> In n (names d)) ->
  exists cs, mesh_rest pn rs = Some cs /\ Forall2 (support_of hid d) rs cs.
Proof.
  intros hid d pn N rs. induction rs as [|[n v] r IH]; intro K; cbn [mesh_rest]; [exists []; split; [reflexivity|constructor]|].
  destruct IH as [cs [C1 C2]]; [intros k Hk; apply K; right; exact Hk|].
  destruct (N n) as [h [G Hn]]; [apply K; left; reflexivity|].
  rewrite G, C1. cbn [bindO]. eexists. split; [reflexivity|]. constructor; [|exact C2].
  exists h, (map (fun b : bool => if b then Some 0 else None) v). split; [exact Hn|]. split; [reflexivity|]. cbn [snd]. split; [apply map_length|].
  intro k. rewrite nth_error_map. destruct (nth_error v k) as [[|]|]; reflexivity.
Qed.

Lemma drawn_names : forall uuid ops, fresh_names uuid -> NoDup (names (s_db (fst (grun uuid create ops)))).
Proof.
  intros uuid ops F. assert (K : ginv uuid (fst (grun uuid create ops))).
  { apply ginv_run; [exact F|apply ginv_create]. }
  apply K.
Qed.

Lemma c104_mesh_partial : forall uuid ops hid, fresh_names uuid -> Forall plain ops ->
  let d := s_db (fst (grun uuid create ops)) in all_elastic d ->
  exists ns bs rs pn, mesh hid d = Some (ns ++ bs ++ rs, pn) /\
    ns = map (fun j => CNode (j_x j) (j_y j) (j_z j)) (d_joints d) /\
    Forall2 (beam_of hid d) (d_frames d) bs /\ Forall2 (support_of hid d) (d_rest d) rs /\
    forall n h, dget n pn = Some h <-> node_of hid d n h.
Proof.
  intros uuid ops hid F P d EL.
  pose proof (c73_partial uuid ops P) as FO. pose proof (mok_drawn uuid ops P) as [R [_ [S O]]]. pose proof (drawn_names uuid ops F) as ND.
  fold d in FO, R, S, O, ND.
  pose proof (fun n => mesh_nodes_some hid d n ND) as N.
  destruct (frames_meshed hid d _ N EL S (d_frames d) FO O) as [bs [B1 B2]].
  destruct (rest_meshed hid d _ N (d_rest d) R) as [rs [R1 R2]].
  exists (fst (mesh_nodes hid 0 (d_joints d) [])), bs, rs, (snd (mesh_nodes hid 0 (d_joints d) [])).
  split; [|split; [apply mesh_nodes_calls|split; [exact B2|split; [exact R2|intros n h; apply mesh_nodes_of; exact ND]]]].
  unfold mesh. destruct (mesh_nodes hid 0 (d_joints d) []) as [ns pn]. cbn [fst snd] in *. rewrite B1. cbn [bindO]. rewrite R1. reflexivity.
Qed.

(** ** Loads *)
Lemma force_at_app : forall h k a b, force_at h k (a ++ b) = force_at h k a + force_at h k b.
Proof. intros h k a b. induction a as [|[x y z|n0 n1 E mu A I2 I3 J rho|n d|n f] r IH]; cbn [app force_at]; try assumption; lra. Qed.
Lemma force_total_app : forall k a b, force_total k (a ++ b) = force_total k a + force_total k b.
Proof. intros k a b. induction a as [|[x y z|n0 n1 E mu A I2 I3 J rho|n d|n f] r IH]; cbn [app force_total]; try assumption; lra. Qed.

Lemma nth_cols : forall cols k, nth k (map (fun v => match v with Some v => v | None => 0 end) cols) 0 = match nth_error cols k with Some (Some v) => v | _ => 0 end.
Proof. intros cols. induction cols as [|[v|] r IH]; intros [|k]; cbn [map nth nth_error]; try reflexivity; apply IH. Qed.

Lemma loads_at : forall pn c h k ls cs,
  load_calls pn (map (fun l => (jl_joint l, map (fun v => match v with Some v => v | None => 0 end) (jl_cols l))) (filter (fun l => String.eqb (jl_case l) c) ls)) = Some cs ->
  force_at h k cs = stored_at pn c h k ls /\ force_total k cs = stored_total c k ls.
Proof.
  intros pn c h k ls. induction ls as [|l r IH]; intros cs H; cbn [filter map load_calls stored_at stored_total] in *.
  - injection H as <-. split; reflexivity.
  - destruct (String.eqb (jl_case l) c); cbn [andb].
    + cbn [map load_calls] in H. destruct (dget (jl_joint l) pn) as [n|]; [|discriminate]. cbn [bindO] in H.
      destruct (load_calls pn _) as [cs'|] eqn:E; [|discriminate]. cbn [bindO] in H. injection H as <-.
      destruct (IH cs' eq_refl) as [H1 H2]. cbn [force_at force_total]. rewrite H1, H2, nth_cols. split; reflexivity.
    + destruct (IH cs H) as [H1 H2]. rewrite H1, H2. split; lra.
Qed.

Lemma weight_at : forall w beams h k, force_at h k (weight_calls w beams) = if Nat.eqb k 2 then - (981/100) * w * mass_at h beams else 0.
Proof.
  intros w beams h k. induction beams as [|[[a b] m] r IH]; unfold weight_calls in *; cbn [flat_map mass_at app].
  - cbn [force_at]. destruct (Nat.eqb k 2); lra.
  - cbn [force_at]. rewrite IH. clear IH. destruct k as [|[|[|[|[|[|k]]]]]]; cbn [nth Nat.eqb]; destruct (Nat.eqb a h), (Nat.eqb b h); try lra; destruct k; lra.
Qed.
Lemma weight_total : forall w beams k, force_total k (weight_calls w beams) = if Nat.eqb k 2 then - (981/100) * w * mass_total beams else 0.
Proof.
  intros w beams k. induction beams as [|[[a b] m] r IH]; unfold weight_calls in *; cbn [flat_map mass_total app].
  - cbn [force_total]. destruct (Nat.eqb k 2); lra.
  - cbn [force_total]. rewrite IH. clear IH. destruct k as [|[|[|[|[|[|k]]]]]]; cbn [nth Nat.eqb]; try lra; destruct k; lra.
Qed.

Lemma c104_loads : forall weight beams pn c d cs h k, apply_load weight beams pn c d = Some cs ->
  force_at h k cs = own_force weight beams pn d h k c.
Proof.
  intros weight beams pn c d cs h k H. unfold apply_load, applied_loads in H. unfold own_force.
  destruct (load_calls pn _) as [ls|] eqn:E; [|discriminate]. cbn [bindO] in H. destruct (loads_at pn c h k _ _ E) as [L _].
  destruct beams as [|b r].
  - injection H as <-. rewrite L. cbn [mass_at]. destruct (Nat.eqb k 2); [|lra]. destruct (weight c); lra.
  - destruct (weight c) as [w|]; [|discriminate]. cbn [bindO] in H. apply some_eq in H. subst cs. rewrite force_at_app, L, weight_at. reflexivity.
Qed.
Lemma c104_weight : forall weight beams pn c d cs w k, apply_load weight beams pn c d = Some cs -> weight c = Some w ->
  force_total k cs = stored_total c k (d_jloads d) + if Nat.eqb k 2 then - (981/100) * w * mass_total beams else 0.
Proof.
  intros weight beams pn c d cs w k H W. unfold apply_load, applied_loads in H.
  destruct (load_calls pn _) as [ls|] eqn:E; [|discriminate]. cbn [bindO] in H. destruct (loads_at pn c 0 k _ _ E) as [_ L].
  destruct beams as [|b r].
  - injection H as <-. rewrite L. cbn [mass_total]. destruct (Nat.eqb k 2); lra.
  - rewrite W in H. cbn [bindO] in H. apply some_eq in H. subst cs. rewrite force_total_app, L, weight_total. reflexivity.
Qed.

Lemma load_calls_some : forall pn ls, (forall n v, In (n, v) ls -> dget n pn <> None) -> exists cs, load_calls pn ls = Some cs.
Proof.
  intros pn ls. induction ls as [|[n v] r IH]; intro H; cbn [load_calls]; [eexists; reflexivity|].
  destruct IH as [cs E]; [intros k u Hk; apply (H k u); right; exact Hk|]. rewrite E.
  destruct (dget n pn) as [h|] eqn:G; [|exfalso; exact (H n v (or_introl eq_refl) G)]. eexists. reflexivity.
Qed.
Lemma c104_applies : forall uuid ops hid weight beams c w cs pn, fresh_names uuid -> Forall plain ops ->
  let d := s_db (fst (grun uuid create ops)) in mesh hid d = Some (cs, pn) -> weight c = Some w ->
  exists fs, apply_load weight beams pn c d = Some fs.
Proof.
  intros uuid ops hid weight beams c w cs pn F P d M W.
  pose proof (mok_drawn uuid ops P) as [_ [JL _]]. pose proof (drawn_names uuid ops F) as ND. fold d in JL, ND.
  assert (E : pn = snd (mesh_nodes hid 0 (d_joints d) [])).
  { unfold mesh in M. destruct (mesh_nodes hid 0 (d_joints d) []) as [ns pn']. destruct (mesh_frames d pn' (d_frames d)); [|discriminate]. cbn [bindO] in M.
    destruct (mesh_rest pn' (d_rest d)); [|discriminate]. cbn [bindO] in M. injection M as _ <-. reflexivity. }
  destruct (load_calls_some pn (applied_loads c d)) as [ls L].
  { intros n v H. unfold applied_loads in H. apply in_map_iff in H. destruct H as [l [Hl Il]]. apply filter_In in Il. injection Hl as <- _.
    destruct (mesh_nodes_some hid d (jl_joint l) ND (JL l (proj1 Il))) as [h [G _]]. rewrite E, G. discriminate. }
  unfold apply_load. rewrite L. cbn [bindO]. destruct beams; [eexists; reflexivity|]. rewrite W. eexists; reflexivity.
Qed.

(** ** Runs *)
Lemma run_from : forall weight beams pn d cases so_far c cs, In (c, cs) (run_calls weight beams pn d so_far cases) ->
  exists before after, cases = before ++ c :: after /\
    forall h k, force_at h k cs = force_at h k so_far + total (map (own_force weight beams pn d h k) (filter (is_static d) (before ++ [c]))).
Proof.
  intros weight beams pn d cases. induction cases as [|a r IH]; intros so_far c cs H; cbn [run_calls] in H; [contradiction|].
  destruct (dget a (d_cases d)) as [ty|] eqn:Ea; [|contradiction].
  destruct (String.eqb ty "static-linear") eqn:Et.
  - assert (SA : is_static d a = true) by (unfold is_static; rewrite Ea; exact Et).
    destruct (apply_load weight beams pn a d) as [ls|] eqn:L; [|contradiction]. destruct H as [H|H].
    + injection H as <- <-. exists [], r. split; [reflexivity|]. intros h k. cbn [app filter]. rewrite SA. cbn [map total fold_right].
      rewrite force_at_app, (c104_loads _ _ _ _ _ _ h k L). lra.
    + destruct (IH _ _ _ H) as [b [e [E K]]]. exists (a :: b), e. split; [rewrite E; reflexivity|]. intros h k. rewrite K, force_at_app, (c104_loads _ _ _ _ _ _ h k L).
      cbn [app filter]. rewrite SA. cbn [map]. unfold total. cbn [fold_right]. lra.
  - assert (SA : is_static d a = false) by (unfold is_static; rewrite Ea; exact Et).
    destruct (IH _ _ _ H) as [b [e [E K]]]. exists (a :: b), e. split; [rewrite E; reflexivity|]. intros h k. rewrite K. cbn [app filter]. rewrite SA. reflexivity.
Qed.
Lemma c104_run : forall weight beams pn d cases c cs, In (c, cs) (run_calls weight beams pn d [] cases) ->
  exists before after, cases = before ++ c :: after /\
    forall h k, force_at h k cs = total (map (own_force weight beams pn d h k) (filter (is_static d) (before ++ [c]))).
Proof.
  intros. destruct (run_from _ _ _ _ _ _ _ _ H) as [b [e [E K]]]. exists b, e. split; [exact E|]. intros h k. rewrite K. cbn [force_at]. lra.
Qed.
Lemma c104_alone : forall weight beams pn d c cs h k, run_calls weight beams pn d [] [c] = [(c, cs)] -> force_at h k cs = own_force weight beams pn d h k c.
Proof.
  intros weight beams pn d c cs h k H. cbn [run_calls] in H. destruct (dget c (d_cases d)) as [ty|]; [|discriminate].
  destruct (String.eqb ty "static-linear"); [|discriminate]. destruct (apply_load weight beams pn c d) as [ls|] eqn:L; [|discriminate].
  injection H as <-. cbn [app]. exact (c104_loads _ _ _ _ _ _ h k L).
Qed.

(** ** The element model there is *)
Lemma c104_core : forall hid d cs pn, mesh hid d = Some (cs, pn) -> Forall (fun c => accepted c = false) cs /\ (d_joints d <> [] -> cs <> []).
Proof.
  intros hid d cs pn M. split.
  - apply Forall_forall. intros [x y z|n0 n1 E mu A I2 I3 J rho|n v|n f] _; reflexivity.
  - intros J K. subst cs. unfold mesh in M. pose proof (mesh_nodes_calls hid (d_joints d) 0 []) as E.
    destruct (mesh_nodes hid 0 (d_joints d) []) as [ns pn']. cbn [fst] in E. destruct (mesh_frames d pn' (d_frames d)); [|discriminate]. cbn [bindO] in M.
    destruct (mesh_rest pn' (d_rest d)); [|discriminate]. cbn [bindO] in M. injection M as M _. apply app_eq_nil in M. destruct M as [M _]. subst ns.
    destruct (d_joints d); [apply J; reflexivity|discriminate].
Qed.
