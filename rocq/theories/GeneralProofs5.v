(** Areas, deletions, listings and stock materials of the drawing model. *)
From Coq Require Import Reals Lra Lia List String Arith Bool.
From Verif Require Import Base BaseFacts General SpecGeneral GeneralProofs GeneralProofs2.
Import ListNotations.
Local Open Scope R_scope.

(** ** What every drawn session keeps *)
Definition tidy (d : db) : Prop :=
  d_areas d = [] /\ dget "Q345"%string (d_mats d) <> None /\ NoDup (dkeys (d_mats d)) /\ NoDup (dkeys (d_secs d)) /\ NoDup (dkeys (d_asecs d)) /\ NoDup (dkeys (d_cases d)).
Definition tidys (s : session) : Prop := tidy (s_db s) /\ tidy (s_saved s).
Lemma tidys_rollback s : tidys s -> tidys (rollback s). Proof. intros [_ H]. split; exact H. Qed.
Lemma tidys_commit s : tidys s -> tidys (commit s). Proof. intros [H _]. split; exact H. Qed.
Lemma tidys_draw s : tidys s -> tidys (draw s). Proof. intro H. exact H. Qed.
Lemma tidy_same d d' : d_areas d' = d_areas d -> d_mats d' = d_mats d -> d_secs d' = d_secs d -> d_asecs d' = d_asecs d -> d_cases d' = d_cases d -> tidy d -> tidy d'.
Proof. intros E1 E2 E3 E4 E5. unfold tidy. rewrite E1, E2, E3, E4, E5. tauto. Qed.
Lemma tidys_upd f s : d_areas (f (s_db s)) = d_areas (s_db s) -> d_mats (f (s_db s)) = d_mats (s_db s) -> d_secs (f (s_db s)) = d_secs (s_db s) ->
  d_asecs (f (s_db s)) = d_asecs (s_db s) -> d_cases (f (s_db s)) = d_cases (s_db s) -> tidys s -> tidys (upd f s).
Proof. intros E1 E2 E3 E4 E5 [H1 H2]. split; [|exact H2]. exact (tidy_same _ _ E1 E2 E3 E4 E5 H1). Qed.
Lemma tidys_mats m s : NoDup (dkeys m) -> dget "Q345"%string m <> None -> tidys s -> tidys (upd (with_mats m) s).
Proof. intros N Q [(A & B & C & D & E & F) H2]. split; [|exact H2]. repeat split; assumption. Qed.

Ltac td0 := first [assumption | apply tidys_rollback; assumption | (apply tidys_upd; [reflexivity|reflexivity|reflexivity|reflexivity|reflexivity|assumption])].

Lemma tidys_joint_at uuid x y z s : tidys s -> tidys (fst (joint_at uuid x y z s)).
Proof. intro H. unfold joint_at. destruct (find _ _); [exact H|]. unfold add_joint. cbn [fst]. apply tidys_draw. td0. Qed.
Lemma tidys_batch_joints uuid L pts : forall s, tidys s -> tidys (fst (batch_joints uuid L pts s)).
Proof.
  induction pts as [|[[[x0 y0] z0] [[x1 y1] z1]] r IH]; intros s H; [exact H|]. cbn [batch_joints add_joint].
  match goal with |- context [batch_joints uuid L r ?S] => assert (K : tidys S) end.
  { apply tidys_draw. apply tidys_upd; try reflexivity. apply tidys_draw. td0. }
  match goal with |- context [batch_joints uuid L r ?S] => specialize (IH S K); destruct (batch_joints uuid L r S) as [s' l] end. exact IH.
Qed.
Lemma tidys_batch_frames uuid sec m ends : forall s, tidys s -> tidys (fst (batch_frames uuid sec m ends s)).
Proof.
  induction ends as [|[a b] r IH]; intros s H; [exact H|].
  cbn [batch_frames]. destruct (bindO _ _) as [[[a' b'] o]|]; [|apply IH; exact H].
  match goal with |- context [batch_frames uuid sec m r ?S] => assert (K : tidys S) by (apply tidys_draw; td0); specialize (IH S K); destruct (batch_frames uuid sec m r S) as [s' l] end.
  exact IH.
Qed.
Lemma tidys_remove rm d s : remove_joints rm (s_db s) = Some d -> tidys s -> tidys (upd (fun _ => d) s).
Proof.
  intros E H. unfold remove_joints in E. destruct (forallb _ _); [|discriminate]. injection E as <-. apply (tidys_upd (fun _ => _)); try reflexivity. exact H.
Qed.
Lemma tidys_material n rho ty kw s : tidys s -> tidys (fst (add_material n rho ty kw s)).
Proof.
  intro H. unfold add_material. destruct (dget n _) eqn:E; [td0|]. destruct (scale _) as [[F L]|]; [|td0].
  assert (K : forall g, tidys (upd (fun d => with_mats (dset n g (d_mats d)) d) s)).
  { intro g. destruct H as [(A & B & C & D & E' & F') H2]. split; [|exact H2].
    split; [exact A|]. split; [|split; [apply nodup_dset; exact C|repeat split; assumption]]. cbn [upd s_db with_mats d_mats].
    destruct (String.eqb_spec n "Q345") as [->|NE]; [rewrite dget_dset_eq; discriminate|rewrite dget_dset_neq by congruence; exact B]. }
  destruct (String.eqb _ _); [|apply K]. destruct kw as [[e mu]|]; [apply K|td0].
Qed.
Lemma tidys_elastic n e mu s : tidys s -> tidys (fst (set_material_isotropic_elastic n e mu s)).
Proof.
  intro H. unfold set_material_isotropic_elastic. destruct (dget n _) as [[rho [p|]]|] eqn:E; try td0.
  destruct H as [(A & B & C & D & E' & F') H2]. split; [|exact H2].
  split; [exact A|]. split; [|split; [apply nodup_dset; exact C|repeat split; assumption]]. cbn [fst upd s_db with_mats d_mats].
  destruct (String.eqb_spec n "Q345") as [->|NE]; [rewrite dget_dset_eq; discriminate|rewrite dget_dset_neq by congruence; exact B].
Qed.
Lemma tidys_section n m ty sz s : tidys s -> tidys (fst (add_frame_section n m ty sz s)).
Proof.
  intro H. unfold add_frame_section. destruct (dget n _); [td0|]. destruct (dget m _); [|td0]. destruct (scale _) as [[F L]|]; [|td0].
  destruct (section_row _ _ _) as [[z [[[A J] I2] I3]]|]; [|td0].
  destruct H as [(A' & B & C & D & E' & F') H2]. split; [|exact H2]. split; [exact A'|]. split; [exact B|]. split; [exact C|]. split; [apply nodup_dset; exact D|split; assumption].
Qed.
Lemma tidys_case n ty s : tidys s -> tidys (fst (add_loadcase n ty s)).
Proof.
  intro H. unfold add_loadcase. destruct (dget n _); [td0|].
  destruct H as [(A' & B & C & D & E' & F') H2]. split; [|exact H2]. split; [exact A'|]. split; [exact B|]. split; [exact C|]. split; [exact D|split; [exact E'|apply nodup_dset; exact F']].
Qed.
Lemma tidys_asec n m ty t s : tidys s -> tidys (fst (add_area_section n m ty t s)).
Proof.
  intro H. unfold add_area_section. destruct (existsb _ _); [|td0]. destruct (dget n _); [td0|]. destruct (scale _) as [[F L]|]; [|td0].
  destruct H as [(A' & B & C & D & E' & F') H2]. split; [|exact H2]. split; [exact A'|]. split; [exact B|]. split; [exact C|]. split; [exact D|split; [apply nodup_dset; exact E'|exact F']].
Qed.

Lemma tidys_step uuid o s : tidys s -> tidys (fst (gstep uuid s o)).
Proof.
  intro H. destruct o; cbn [gstep];
    try (apply tidys_case; assumption); try (apply tidys_section; assumption); try (apply tidys_material; assumption); try (apply tidys_elastic; assumption); try (apply tidys_asec; assumption); try td0.
  - unfold set_unit. destruct (existsb _ _); td0.
  - unfold set_tolerance. destruct (scale _) as [[F L]|]; td0.
  - unfold get_tolerance. destruct (scale _) as [[F L]|]; td0.
  - unfold set_joint_coordinate. destruct (find_joint _ _); [|td0]. destruct (scale _) as [[F L]|]; td0.
  - unfold get_joint_coordinate. destruct (find_joint _ _); [|td0]. destruct (scale _) as [[F L]|]; td0.
  - unfold get_joint_name_by_coor. destruct (scale _) as [[F L]|]; td0.
  - unfold set_joint_restraint. destruct (negb _); [td0|]. destruct (find_joint _ _); [|td0]. destruct (dget _ _); [|td0]. destruct (existsb _ _); td0.
  - unfold set_joint_load. destruct (negb _); [td0|]. destruct (find_joint _ _); [|td0].
    destruct (scale _) as [[F L]|]; [|td0]. apply tidys_upd; try assumption; destruct (existsb _ _); reflexivity.
  - unfold merge_joints. destruct (scale _) as [[F L]|]; [|td0]. destruct (remove_joints _ _) as [d|] eqn:E; [|td0]. exact (tidys_remove _ _ _ E H).
  - unfold add_frame. destruct p0 as [[x0 y0] z0], p1 as [[x1 y1] z1].
    destruct (match name with Some _ => _ | None => _ end); [td0|]. destruct (dget _ _); [|td0]. destruct (scale _) as [[F L]|]; [|td0].
    pose proof (tidys_joint_at uuid (x0*L) (y0*L) (z0*L) s H) as H0. destruct (joint_at uuid (x0*L) (y0*L) (z0*L) s) as [s1 n0]. cbn [fst] in H0.
    pose proof (tidys_joint_at uuid x1 y1 z1 s1 H0) as H1. destruct (joint_at uuid x1 y1 z1 s1) as [s2 n1]. cbn [fst] in H1.
    destruct (order_ends n0 n1) as [[[a b] o]|]; [|td0]. apply tidys_draw; td0.
  - unfold add_frame_batch. destruct pts as [|p pts]; [td0|]. destruct (dget _ _); [|td0]. destruct (scale _) as [[F L]|]; [|td0].
    pose proof (tidys_batch_joints uuid L (p :: pts) s H) as H0. destruct (batch_joints uuid L (p :: pts) s) as [s1 ends]. cbn [fst] in H0.
    destruct (merge_map _ _) as [m rm].
    pose proof (tidys_batch_frames uuid section m ends s1 H0) as H1. destruct (batch_frames uuid section m ends s1) as [s2 names]. cbn [fst] in H1.
    destruct (remove_joints rm (s_db s2)) as [d|] eqn:E; [|td0]. apply tidys_commit. exact (tidys_remove _ _ _ E H1).
  - unfold get_frame_end_names. destruct (bindO _ _) as [[a b]|]; td0.
  - unfold get_frame_end_coors. destruct (scale _) as [[F L]|]; [|td0]. destruct (bindO _ _) as [[a b]|]; td0.
  - unfold set_frame_load_distributed. destruct (negb _); [td0|]. destruct (find_frame _ _); [|td0]. destruct (scale _) as [[F L]|]; td0.
  - unfold set_frame_load_concentrated. destruct (negb _); [td0|]. destruct (find_frame _ _); [|td0]. destruct (scale _) as [[F L]|]; td0.
  - unfold set_frame_section. destruct (find_frame _ _); td0.
  - unfold write_results. destruct (dget _ _); [|td0]. destruct (negb _); [td0|].
    destruct (result_rows _ _ _); [|td0]. destruct (result_rows _ _ _); [|td0]. destruct (_ || _)%bool; [td0|]. apply tidys_commit; td0.
  - unfold get_result_joint_displacement. destruct (find_result _ _ _) as [r|]; [|td0].
    destruct (scale _) as [[F L]|]; [|td0]. destruct (jr_vals r) as [|a [|b [|c' [|d [|e [|f [|g l]]]]]]]; td0.
  - unfold get_result_joint_reaction. destruct (find_result _ _ _) as [r|]; [|td0].
    destruct (scale _) as [[F L]|]; [|td0]. destruct (jr_vals r) as [|a [|b [|c' [|d [|e [|f [|g l]]]]]]]; td0.
  - apply tidys_commit; exact H.
  - rewrite add_area_fails. td0.
  - rewrite add_area_batch_fails. td0.
  - unfold set_joint_mass. destruct (find_joint _ _); td0.
  - unfold set_material_name. destruct (dget _ _); td0.
  - unfold add_material_quick. destruct (String.eqb _ _); [|td0]. apply tidys_material; assumption.
Qed.
Lemma tidys_drawn uuid s : drawn uuid s -> tidys s.
Proof.
  intros (ops & ->). assert (K : forall s, tidys s -> tidys (fst (grun uuid s ops))).
  { induction ops as [|o r IH]; intros s H; [exact H|]. rewrite grun_fst_cons. apply IH, tidys_step, H. }
  apply K. rewrite create_eq. assert (T : tidy start_db); [|split; exact T].
  unfold tidy, start_db. cbn. split; [reflexivity|]. split; [discriminate|]. repeat split; repeat constructor; cbn; intuition discriminate.
Qed.

(** ** C125 *)
Lemma c125_none uuid s : drawn uuid s -> d_areas (s_db s) = [].
Proof. intro D. exact (proj1 (proj1 (tidys_drawn uuid s D))). Qed.
Lemma c125_never uuid s o : match o with GAddArea _ _ _ _ _ _ | GAddAreaBatch _ _ => True | _ => False end ->
  snd (gstep uuid s o) = GFalse /\ s_db (fst (gstep uuid s o)) = s_saved s.
Proof. destruct o; try contradiction; intros _; cbn [gstep]; [rewrite add_area_fails|rewrite add_area_batch_fails]; split; reflexivity. Qed.

Definition three_corners : list gop := [GAddJoint 0 0 0; GAddJoint 1 0 0; GAddJoint 0 1 0].
Lemma c125_refuted : exists uuid s p0 p1 p2 sec, fresh_names uuid /\ drawn uuid s
  /\ (exists a b c, In a (d_joints (s_db s)) /\ pos a = p0 /\ In b (d_joints (s_db s)) /\ pos b = p1 /\ In c (d_joints (s_db s)) /\ pos c = p2)
  /\ p0 <> p1 /\ p1 <> p2 /\ p2 <> p0 /\ dget sec (d_asecs (s_db s)) <> None /\ d_unit (s_db s) = "N_m_C"%string
  /\ snd (gstep uuid s (GAddArea p0 p1 p2 None sec None)) = GFalse
  /\ d_areas (s_db (fst (gstep uuid s (GAddArea p0 p1 p2 None sec None)))) = []
  /\ d_joints (s_db (fst (gstep uuid s (GAddArea p0 p1 p2 None sec None)))) = [].
Proof.
  exists ticks, (fst (grun ticks create three_corners)), ((0, 0), 0), ((1, 0), 0), ((0, 1), 0), "A-M120"%string.
  split; [exact ticks_fresh|]. split; [exists three_corners; reflexivity|].
  destruct (c125_never ticks (fst (grun ticks create three_corners)) (GAddArea ((0, 0), 0) ((1, 0), 0) ((0, 1), 0) None "A-M120" None) I) as (A & B).
  rewrite A, B. rewrite create_eq. unfold three_corners. cbn [grun gstep add_joint fst snd upd draw s_db s_saved s_next with_joints d_joints d_asecs d_areas d_unit start_db app].
  split; [do 3 eexists; split; [left; reflexivity|]; split; [reflexivity|]; split; [right; left; reflexivity|]; split; [reflexivity|]; split; [right; right; left; reflexivity|reflexivity]|].
  split; [intro E; injection E; lra|]. split; [intro E; injection E; lra|]. split; [intro E; injection E; lra|]. split; [discriminate|]. repeat split.
Qed.

(** ** C126 *)
Lemma c126_kept uuid s o : deletes o ->
  (snd (gstep uuid s o) = GFalse /\ s_db (fst (gstep uuid s o)) = s_saved s) \/ (snd (gstep uuid s o) = GRaise /\ s_db (fst (gstep uuid s o)) = s_db s).
Proof. destruct o; try contradiction; intros _; cbn; tauto. Qed.
Lemma c126_refuted : exists uuid s n j, fresh_names uuid /\ drawn uuid s /\ is_joint (s_db s) n j /\ d_frames (s_db s) = [] /\ d_rest (s_db s) = []
  /\ is_joint (s_db (fst (gstep uuid s (GDeleteJoint n)))) n j
  /\ snd (gstep uuid s (GDeleteCase "S")) = GRaise /\ dget "S"%string (d_cases (s_db (fst (gstep uuid s (GDeleteCase "S"))))) <> None.
Proof.
  exists ticks, (fst (grun ticks create [GAddJoint 0 0 0; GSave])), (ticks 0), (Joint (ticks 0) 0 0 0).
  split; [exact ticks_fresh|]. split; [eexists; reflexivity|]. rewrite create_eq.
  cbn [grun gstep add_joint fst snd upd draw commit s_db s_saved s_next with_joints d_joints d_frames d_rest d_cases start_db app delete_by_query delete_by_query_log fails rollback].
  split; [split; [left; reflexivity|reflexivity]|]. split; [reflexivity|]. split; [reflexivity|]. split; [split; [left; reflexivity|reflexivity]|]. split; [reflexivity|discriminate].
Qed.

(** ** C127 *)
Lemma c127_frames uuid s n m ty size : dget m (d_mats (s_db s)) = None -> snd (gstep uuid s (GAddSection n m ty size)) = GFalse.
Proof. intro H. cbn [gstep]. unfold add_frame_section. rewrite H. destruct (dget n _); reflexivity. Qed.
Lemma c127_refuted : exists uuid s n m, fresh_names uuid /\ drawn uuid s /\ dget m (d_mats (s_db s)) = None
  /\ snd (gstep uuid s (GAddAreaSec n m "m" 1)) = GTrue
  /\ exists a, dget n (d_asecs (s_db (fst (gstep uuid s (GAddAreaSec n m "m" 1))))) = Some a /\ gas_mat a = m.
Proof.
  exists ticks, create, "A"%string, "none"%string. split; [exact ticks_fresh|]. split; [exists []; reflexivity|]. rewrite create_eq.
  split; [reflexivity|]. split; [reflexivity|]. eexists. split; reflexivity.
Qed.
Lemma c55_thickness uuid s n m ty u t : In u units -> d_unit (s_db s) = u -> dget n (d_asecs (s_db s)) = None -> In ty ["m"; "p"; "s"; "n"]%string ->
  snd (gstep uuid s (GAddAreaSec n m ty t)) = GTrue /\
  dget n (d_asecs (s_db (fst (gstep uuid s (GAddAreaSec n m ty t))))) = Some (GASec m ty (t * metres u)).
Proof.
  intros U E N T. cbn [gstep]. unfold add_area_section. rewrite N, E, (scale_units u U).
  assert (X : existsb (String.eqb ty) area_types = true) by (apply existsb_exists; exists ty; split; [exact T|apply String.eqb_refl]). rewrite X.
  split; [reflexivity|]. cbn [fst upd s_db with_asecs d_asecs]. apply dget_dset_eq.
Qed.

(** ** C128 *)
Lemma c128_mass uuid s n j m : is_joint (s_db s) n j -> gstep uuid s (GSetJointMass n m) = (s, GTrue).
Proof.
  intros (I & <-). cbn [gstep]. unfold set_joint_mass, find_joint. destruct (find _ _) eqn:F; [reflexivity|].
  exfalso. pose proof (find_none _ _ F j I) as K. cbn beta in K. rewrite String.eqb_refl in K. discriminate.
Qed.
Lemma c128_quick uuid s code : drawn uuid s -> snd (gstep uuid s (GAddQuick code)) = GNone
  /\ s_db (fst (gstep uuid s (GAddQuick code))) = if String.eqb code "Q345" then s_saved s else s_db s.
Proof.
  intro D. destruct (tidys_drawn uuid s D) as ((_ & Q & _) & _). cbn [gstep]. unfold add_material_quick.
  destruct (String.eqb_spec code "Q345") as [->|NE]; [|split; reflexivity]. split; [reflexivity|].
  unfold add_material. destruct (dget "Q345"%string (d_mats (s_db s))); [reflexivity|contradiction].
Qed.
Lemma c128_refuted : exists uuid s n j m code, fresh_names uuid /\ drawn uuid s /\ is_joint (s_db s) n j /\ m <> [0; 0; 0; 0; 0; 0]
  /\ gstep uuid s (GSetJointMass n m) = (s, GTrue)
  /\ In code ["Q345"]%string /\ d_joints (s_db (fst (gstep uuid s (GAddQuick code)))) = [].
Proof.
  exists ticks, (fst (grun ticks create [GAddJoint 0 0 0])), (ticks 0), (Joint (ticks 0) 0 0 0), [1; 1; 1; 0; 0; 0], "Q345"%string.
  split; [exact ticks_fresh|]. assert (D : drawn ticks (fst (grun ticks create [GAddJoint 0 0 0]))) by (eexists; reflexivity). split; [exact D|].
  assert (I : is_joint (s_db (fst (grun ticks create [GAddJoint 0 0 0]))) (ticks 0) (Joint (ticks 0) 0 0 0)).
  { rewrite create_eq. split; [left; reflexivity|reflexivity]. }
  split; [exact I|]. split; [intro E; injection E; lra|]. split; [exact (c128_mass ticks _ _ _ _ I)|]. split; [left; reflexivity|].
  rewrite (proj2 (c128_quick ticks _ "Q345" D)). rewrite create_eq. reflexivity.
Qed.

(** ** C129 *)
Lemma keys_listed {A} (t : dict A) : NoDup (dkeys t) -> lists_keys t (GNames (map fst t)).
Proof.
  intro N. exists (map fst t). split; [reflexivity|]. split; [exact N|]. intro n. split.
  - intros I E. apply dget_none_notin in E. exact (E I).
  - intro H. destruct (dget n t) as [v|] eqn:E; [|contradiction]. apply dget_in_keys. exists v. exact E.
Qed.
Lemma c129_listings uuid s : fresh_names uuid -> drawn uuid s ->
  lists_keys (d_mats (s_db s)) (snd (gstep uuid s GMaterialNames)) /\ lists_keys (d_secs (s_db s)) (snd (gstep uuid s GSectionNames))
  /\ lists_keys (d_asecs (s_db s)) (snd (gstep uuid s GAreaSecNames)) /\ lists_keys (d_cases (s_db s)) (snd (gstep uuid s GCaseNames))
  /\ exists l, snd (gstep uuid s GJointNames) = GNames l /\ NoDup l /\ forall n, In n l <-> exists j, is_joint (s_db s) n j.
Proof.
  intros F D. destruct (tidys_drawn uuid s D) as ((_ & _ & A & B & C & E) & _).
  split; [apply keys_listed; exact A|]. split; [apply keys_listed; exact B|]. split; [apply keys_listed; exact C|]. split; [apply keys_listed; exact E|].
  destruct D as (ops & ->). destruct (ginv_run uuid ops create F (ginv_create uuid)) as ((_ & N & _) & _).
  eexists. split; [reflexivity|]. split; [exact N|]. intro n. rewrite in_map_iff. split; intros (j & X & Y); exists j; split; assumption.
Qed.
