(** Proofs about areas and the exchange with dxf files (C94-C96). *)
From Coq Require Import Reals List String Bool Lra Lia.
From Verif Require Import Base BaseFacts General SpecGeneral Dxf SpecDxf GeneralProofs GeneralProofs2 GeneralProofs3 GeneralProofs4 BatchProofs.
Import ListNotations.
Local Open Scope R_scope.

(** ** Areas (C94) *)
Lemma c94_refused uuid p0 p1 p2 p3 sec name s : add_area uuid p0 p1 p2 p3 sec name s = (rollback s, GFalse).
Proof. apply add_area_fails. Qed.
Lemma c94_batch_refused areas sec s : add_area_batch areas sec s = (rollback s, GFalse).
Proof. apply add_area_batch_fails. Qed.
Lemma c94_refuted : exists uuid s p0 p1 p2 a b c, fresh_names uuid /\ drawn uuid s /\ d_joints (s_db s) = [a; b; c]
  /\ scaled (metres (d_unit (s_db s))) p0 = pos a /\ scaled (metres (d_unit (s_db s))) p1 = pos b /\ scaled (metres (d_unit (s_db s))) p2 = pos c
  /\ dget "A-M120" (d_asecs (s_db s)) <> None
  /\ exists s', add_area uuid p0 p1 p2 None "A-M120" None s = (s', GFalse) /\ d_joints (s_db s') = [].
Proof.
  exists ticks, (fst (grun ticks create [GAddJoint 0 0 0; GAddJoint 1 0 0; GAddJoint 0 1 0])), ((0, 0), 0), ((1, 0), 0), ((0, 1), 0),
    (Joint (ticks 0) 0 0 0), (Joint (ticks 1) 1 0 0), (Joint (ticks 2) 0 1 0).
  split; [exact ticks_fresh|]. split; [eexists; reflexivity|]. rewrite create_eq. rewrite !grun_fst_cons.
  cbn [grun fst gstep add_joint draw upd s_db s_saved s_next with_joints d_joints start_db app d_unit].
  assert (M : metres "N_m_C" = 1) by reflexivity. unfold pos, scaled. cbn [j_x j_y j_z]. rewrite M.
  split; [reflexivity|]. do 3 (split; [f_equal; [f_equal|]; ring|]). split; [discriminate|].
  eexists. split; [apply c94_refused|]. reflexivity.
Qed.

(** ** Import (C95) *)
Lemma wanted_spec layers e : wanted layers e = true <-> on_layers layers e.
Proof.
  unfold wanted, on_layers. destruct layers as [|a l]; [split; auto|]. rewrite existsb_exists. split.
  - intros (x & Hx & E). apply String.eqb_eq in E. subst x. auto.
  - intros [E|Hx]; [discriminate|]. exists (layer_of e). split; [exact Hx|apply String.eqb_refl].
Qed.
Lemma lines_spec layers es ps : lines_on layers es ps -> dxf_lines layers true es = ps.
Proof.
  unfold dxf_lines. induction 1 as [|l p q es ps W _ IH|e es ps W _ IH]; [reflexivity| |]; cbn [flat_map].
  - apply wanted_spec in W. rewrite W, IH. reflexivity.
  - rewrite IH. destruct (wanted layers e) eqn:E; [|reflexivity]. apply wanted_spec in E.
    destruct W as [W|W]; [contradiction|]. destruct e; try reflexivity. exfalso. eapply W. reflexivity.
Qed.
Lemma faces_spec layers es : no_faces layers es -> dxf_faces layers true es = [].
Proof.
  unfold dxf_faces, no_faces. induction es as [|e es IH]; intro N; [reflexivity|]. cbn [flat_map].
  rewrite IH by (intros l a b c d H; apply N; right; exact H). destruct (wanted layers e) eqn:E; [|reflexivity].
  apply wanted_spec in E. destruct e; try reflexivity. exfalso. eapply N; [left; reflexivity|exact E].
Qed.
Lemma faces_off layers es : dxf_faces layers false es = [].
Proof. unfold dxf_faces. induction es as [|e es IH]; [reflexivity|]. cbn [flat_map]. rewrite IH. destruct (wanted layers e); [destruct e|]; reflexivity. Qed.

Lemma c95_frames : forall uuid es layers areas sec asec s ps,
  fresh_names uuid -> drawn uuid s -> d_tol (s_db s) <> 0 -> lines_on layers es ps -> ps <> [] ->
  (areas = true -> no_faces layers es) ->
  dget sec (d_secs (s_db s)) <> None -> d_rest (s_db s) = [] -> d_jloads (s_db s) = [] ->
  Forall (fun pq => fst pq <> snd pq) ps ->
  well_apart (d_tol (s_db s)) (map pos (d_joints (s_db s)) ++ batch_places (metres (d_unit (s_db s))) ps) ->
  exists s' fs, import_dxf uuid es layers true areas (Some sec) (Some asec) s = (s', ITrue (Some (map fr_name fs)) None)
    /\ d_frames (s_db s') = d_frames (s_db s) ++ fs
    /\ Forall2 (fun pq f => fr_section f = sec
         /\ runs (s_db s') f (scaled (metres (d_unit (s_db s))) (fst pq)) (scaled (metres (d_unit (s_db s))) (snd pq))) ps fs
    /\ (forall a b, In a (d_joints (s_db s')) -> In b (d_joints (s_db s')) -> pos a = pos b -> a = b)
    /\ s_saved s' = s_db s'.
Proof.
  intros uuid es layers areas sec asec s ps Hf Hd T Hl Np Na Ns Hr Hj PP WA.
  destruct (c69_answers uuid s ps sec Hf Hd Np Ns Hr Hj) as (s' & names & E).
  destruct (c69_placed uuid s ps sec s' names Hf Hd T PP WA E) as (fs & F1 & F2 & F3 & F4).
  exists s', fs. split; [|split; [exact F1|split; [exact F3|split; [exact F4|]]]].
  - unfold import_dxf. rewrite (lines_spec _ _ _ Hl). cbn [gstep] in E.
    assert (F : dxf_faces layers areas es = []) by (destruct areas; [apply faces_spec, Na; reflexivity|apply faces_off]).
    rewrite F. destruct ps as [|pq ps]; [congruence|]. rewrite E, F2. reflexivity.
  - cbn [gstep] in E. unfold add_frame_batch in E. destruct ps as [|pq ps]; [congruence|].
    destruct (dget sec (d_secs (s_db s))); [|congruence]. destruct (scale (d_unit (s_db s))) as [[F L]|]; [|discriminate].
    destruct (batch_joints uuid L (pq :: ps) s) as [s1 ends]. destruct (merge_map (d_tol (s_db s1)) (d_joints (s_db s1))) as [m rm].
    destruct (batch_frames uuid sec m ends s1) as [s2 nm]. destruct (remove_joints rm (s_db s2)); [|discriminate].
    injection E as <- _. reflexivity.
Qed.
(** Sections left out are the first ones. *)
Lemma c95_defaults uuid es layers frames areas s sec asec : hd_error (dkeys (d_secs (s_db s))) = Some sec -> hd_error (dkeys (d_asecs (s_db s))) = Some asec ->
  import_dxf uuid es layers frames areas None None s = import_dxf uuid es layers frames areas (Some sec) (Some asec) s.
Proof. intros E1 E2. unfold import_dxf. rewrite E1, E2. reflexivity. Qed.
(** With a face the answer is False. *)
Lemma c95_faces uuid es layers frames fsec asec s : dxf_faces layers true es <> [] ->
  snd (import_dxf uuid es layers frames true fsec asec s) = IFalse.
Proof.
  intro N. unfold import_dxf. destruct (match fsec with Some n => Some n | None => _ end) as [f|]; [|reflexivity].
  destruct (match asec with Some n => Some n | None => _ end) as [a|]; [|reflexivity].
  destruct (match dxf_lines layers frames es with [] => _ | _ => _ end) as [s1 [fn|]]; [|reflexivity].
  destruct (dxf_faces layers true es) as [|x r]; [congruence|]. rewrite c94_batch_refused. reflexivity.
Qed.
Lemma c95_face_refused : forall uuid es layers frames fsec asec s l a b c d, In (EFace l a b c d) es -> on_layers layers (EFace l a b c d) ->
  snd (import_dxf uuid es layers frames true fsec asec s) = IFalse.
Proof.
  intros uuid es layers frames fsec asec s l a b c d Hin W. apply c95_faces. apply wanted_spec in W. intro E.
  assert (X : In (a, b, c, if same_point c d then None else Some d) (dxf_faces layers true es)).
  { unfold dxf_faces. apply in_flat_map. exists (EFace l a b c d). split; [exact Hin|]. rewrite W. left. reflexivity. }
  rewrite E in X. exact X.
Qed.

(** ** Export (C96) *)
Lemma scaled_div L x y z : L <> 0 -> scaled L ((x / L, y / L), z / L) = ((x, y), z).
Proof. intro H. unfold scaled. f_equal; [f_equal|]; field; exact H. Qed.
Lemma find_frame_unique d f : NoDup (map fr_name (d_frames d)) -> In f (d_frames d) -> find_frame (fr_name f) d = Some f.
Proof.
  unfold find_frame. induction (d_frames d) as [|g l IH]; intros N Hin; [destruct Hin|]. destruct Hin as [E|H]; cbn [find].
  - subst g. rewrite String.eqb_refl. reflexivity.
  - inversion N as [|? ? N1 N2]. destruct (String.eqb_spec (fr_name g) (fr_name f)) as [E|_]; [|apply IH; assumption].
    exfalso. apply N1. rewrite E. apply in_map, H.
Qed.
Lemma export_one uuid s f : ginv uuid s -> frames_ok (s_db s) -> NoDup (map fr_name (d_frames (s_db s))) -> In f (d_frames (s_db s)) ->
  exists p q, get_frame_end_coors (fr_name f) s = (s, GVals [fst (fst p); snd (fst p); snd p; fst (fst q); snd (fst q); snd q])
    /\ joins (s_db s) f (scaled (metres (d_unit (s_db s))) p) (scaled (metres (d_unit (s_db s))) q).
Proof.
  intros [H _] Hok N Hf. destruct (Hok f Hf) as [[a Ha] [[b Hb] _]]. unfold get_frame_end_coors.
  rewrite (scale_units _ (proj1 H)), (find_frame_unique _ _ N Hf). cbn [bindO].
  rewrite (proj2 (find_joint_is _ _ _ _ _ H) Ha), (proj2 (find_joint_is _ _ _ _ _ H) Hb). cbn [bindO].
  set (L := metres (d_unit (s_db s))). assert (L0 : L <> 0) by (pose proof (metres_pos (d_unit (s_db s))); fold L in H0; lra).
  exists ((j_x a / L, j_y a / L), j_z a / L), ((j_x b / L, j_y b / L), j_z b / L). split; [reflexivity|].
  rewrite !scaled_div by exact L0. unfold joins, runs, start_of, end_of. destruct (String.eqb (fr_order f) "01").
  - left. split; [exists a|exists b]; split; auto.
  - right. split; [exists b|exists a]; split; auto.
Qed.
Definition drawn_as (s : session) (f : frame) (e : entity) : Prop := exists p q, e = ELine "0" p q
  /\ joins (s_db s) f (scaled (metres (d_unit (s_db s))) p) (scaled (metres (d_unit (s_db s))) q).
Lemma end_coors_all uuid s : ginv uuid s -> frames_ok (s_db s) -> NoDup (map fr_name (d_frames (s_db s))) ->
  forall fs, (forall f, In f fs -> In f (d_frames (s_db s))) ->
  exists l es, end_coors (map fr_name fs) s = (s, l) /\ mapM line_of l = Some es /\ Forall2 (drawn_as s) fs es.
Proof.
  intros H Hok N. induction fs as [|f fs IH]; intro Hin; [exists [], []; repeat split; constructor|].
  destruct (export_one uuid s f H Hok N (Hin f (or_introl eq_refl))) as ([[x y] z] & [[x' y'] z'] & E & J).
  destruct IH as (l & es & E1 & E2 & E3); [intros g Hg; apply Hin; right; exact Hg|].
  exists (GVals [x; y; z; x'; y'; z'] :: l), (ELine "0" ((x, y), z) ((x', y'), z') :: es). cbn [map end_coors]. rewrite E. cbn [fst snd].
  rewrite E1. split; [reflexivity|]. split; [cbn [mapM line_of]; rewrite E2; reflexivity|]. constructor; [|exact E3].
  exists ((x, y), z), ((x', y'), z'). auto.
Qed.
Lemma c96_export : forall uuid s, fresh_names uuid -> drawn uuid s -> frames_ok (s_db s) -> NoDup (map fr_name (d_frames (s_db s))) ->
  exists es, export_dxf false s = (s, Some es) /\ Forall2 (fun f e => exists p q, e = ELine "0" p q
    /\ joins (s_db s) f (scaled (metres (d_unit (s_db s))) p) (scaled (metres (d_unit (s_db s))) q)) (d_frames (s_db s)) es.
Proof.
  intros uuid s Hf Hd Hok N. destruct (end_coors_all uuid s (drawn_inv _ _ Hf Hd) Hok N (d_frames (s_db s))) as (l & es & E1 & E2 & E3); [auto|].
  exists es. split; [unfold export_dxf; rewrite E1, E2; reflexivity|exact E3].
Qed.

(** ** There and back (C96) *)
Lemma scaled_scaled L L0 p : L <> 0 -> scaled L0 p = scaled (L0 / L) (scaled L p).
Proof. intro H. destruct p as [[x y] z]. unfold scaled. f_equal; [f_equal|]; field; exact H. Qed.
Lemma scaled_dist k p q : place_dist2 (scaled k p) (scaled k q) = k^2 * place_dist2 p q.
Proof. destruct p as [[x y] z], q as [[x' y'] z']. unfold scaled, place_dist2. ring. Qed.
Lemma place_self p : place_dist2 p p = 0.
Proof. destruct p as [[x y] z]. unfold place_dist2. ring. Qed.
Lemma joins_pos d f p q : joins d f p q -> exists a b, In a (d_joints d) /\ In b (d_joints d) /\ pos a = p /\ pos b = q
  /\ ((j_name a = start_of f /\ j_name b = end_of f) \/ (j_name a = end_of f /\ j_name b = start_of f)).
Proof.
  intros [[(a & [A1 A2] & A3) (b & [B1 B2] & B3)]|[(a & [A1 A2] & A3) (b & [B1 B2] & B3)]].
  - exists a, b. auto 10.
  - exists b, a. auto 10.
Qed.
Lemma c96_round : forall uuid s uuid0 s0 sec asec, fresh_names uuid -> drawn uuid s -> frames_ok (s_db s) ->
  NoDup (map fr_name (d_frames (s_db s))) -> d_frames (s_db s) <> [] -> (forall f, In f (d_frames (s_db s)) -> start_of f <> end_of f) ->
  fresh_names uuid0 -> drawn uuid0 s0 -> d_joints (s_db s0) = [] -> d_frames (s_db s0) = [] -> d_rest (s_db s0) = [] -> d_jloads (s_db s0) = [] ->
  dget sec (d_secs (s_db s0)) <> None -> d_tol (s_db s0) <> 0 ->
  (forall a b, In a (d_joints (s_db s)) -> In b (d_joints (s_db s)) -> a = b \/
     d_tol (s_db s0) ^ 2 <= (metres (d_unit (s_db s0)) / metres (d_unit (s_db s))) ^ 2 * place_dist2 (pos a) (pos b)) ->
  exists es s' fs, export_dxf false s = (s, Some es)
    /\ import_dxf uuid0 es [] true true (Some sec) (Some asec) s0 = (s', ITrue (Some (map fr_name fs)) None)
    /\ d_frames (s_db s') = fs
    /\ Forall2 (fun f f' => exists p q, joins (s_db s) f p q
         /\ runs (s_db s') f' (scaled (metres (d_unit (s_db s0)) / metres (d_unit (s_db s))) p) (scaled (metres (d_unit (s_db s0)) / metres (d_unit (s_db s))) q))
       (d_frames (s_db s)) fs.
Proof.
  intros uuid s uuid0 s0 sec asec Hf Hd Hok N Nf Hne Hf0 Hd0 J0 F0 R0 L0 Ns T Ap.
  destruct (c96_export uuid s Hf Hd Hok N) as (es & E & A).
  set (L := metres (d_unit (s_db s))) in *. set (K := metres (d_unit (s_db s0))) in *.
  assert (HL : L <> 0) by (pose proof (metres_pos (d_unit (s_db s))); fold L in H; lra).
  assert (X : exists ps, lines_on [] es ps /\ (forall l a b c d, ~ In (EFace l a b c d) es)
    /\ Forall2 (fun f pq => joins (s_db s) f (scaled L (fst pq)) (scaled L (snd pq))) (d_frames (s_db s)) ps).
  { clear - A. induction A as [|f e fs es (p & q & -> & J) A (ps & I1 & I2 & I3)]; [exists []; repeat split; [constructor|intros ? ? ? ? ? []|constructor]|].
    exists ((p, q) :: ps). split; [apply lines_take; [left; reflexivity|exact I1]|]. split; [|constructor; assumption].
    intros l a b c d [H|H]; [discriminate|exact (I2 _ _ _ _ _ H)]. }
  destruct X as (ps & I1 & I2 & I3).
  assert (PL : forall x, In x (batch_places K ps) -> exists a, In a (d_joints (s_db s)) /\ x = scaled (K / L) (pos a)).
  { intros x Hx. unfold batch_places in Hx. apply in_flat_map in Hx. destruct Hx as (pq & Hpq & Hx).
    destruct (Forall2_in_left _ _ _ _ I3 Hpq) as (f & Hfin & J). destruct (joins_pos _ _ _ _ J) as (a & b & A1 & B1 & A2 & B2 & _).
    destruct Hx as [<-|[<-|[]]]; [exists a|exists b]; (split; [assumption|]).
    - rewrite A2. apply scaled_scaled, HL.
    - rewrite B2. apply scaled_scaled, HL. }
  assert (ND : Forall (fun pq => fst pq <> snd pq) ps).
  { apply Forall_forall. intros pq Hpq Eq. destruct (Forall2_in_left _ _ _ _ I3 Hpq) as (f & Hfin & J).
    destruct (joins_pos _ _ _ _ J) as (a & b & A1 & B1 & A2 & B2 & Nm). rewrite Eq in A2.
    destruct (Ap a b A1 B1) as [<-|D].
    - apply (Hne f Hfin). destruct Nm as [[<- <-]|[<- <-]]; reflexivity.
    - rewrite A2, B2, place_self, Rmult_0_r in D. pose proof (Rsqr_pos_lt _ T) as P. unfold Rsqr in P. simpl in D. lra. }
  destruct (c95_frames uuid0 es [] true sec asec s0 ps Hf0 Hd0 T I1) as (s' & fs & G1 & G2 & G3 & _); auto.
  - intros ->. inversion I3 as [X|]. congruence.
  - intros _ l a b c d H. destruct (I2 _ _ _ _ _ H).
  - rewrite J0. cbn [map app]. intros x y Hx Hy. destruct (PL x Hx) as (a & A1 & ->), (PL y Hy) as (b & B1 & ->).
    destruct (Ap a b A1 B1) as [<-|D]; [left; reflexivity|right]. rewrite scaled_dist. exact D.
  - rewrite F0 in G2. exists es, s', fs. split; [exact E|]. split; [exact G1|]. split; [exact G2|].
    fold K in G3. clear - I3 G3 HL. revert fs G3. induction I3 as [|f pq fl ps J I3 IH]; intros fs G3.
    + inversion G3. constructor.
    + inversion G3 as [|? f' ? fs' [_ G] G4]; subst. constructor; [|apply IH; exact G4].
      exists (scaled L (fst pq)), (scaled L (snd pq)). split; [exact J|]. rewrite <- !scaled_scaled by exact HL. exact G.
Qed.

(** One member of three metres. *)
Definition beam_ops : list gop := [GAddFrame ((0, 0), 0) ((3, 0), 0) dflt (Some "F"%string)].
Definition beam_db (f : frame) (a b : string) : db := with_frames [f] (with_joints [Joint a (0*1) (0*1) (0*1); Joint b 3 0 0] start_db).
Ltac draws := rewrite create_eq; unfold beam_ops; rewrite grun_fst_cons; cbn [grun fst gstep]; unfold add_frame;
  cbn [s_db start_db d_unit d_secs d_frames find_frame find dget dflt String.eqb Ascii.eqb Bool.eqb scale fst];
  unfold joint_at at 1; cbn [upd s_db d_joints start_db find]; cbn [add_joint];
  unfold joint_at; cbn [draw upd s_db d_joints start_db with_joints find app d_tol];
  unfold at_point; cbn [j_x j_y j_z]; rdec; cbn [andb]; reflexivity.
Definition beam_up : frame := Frame "F" dflt (ticks 0) (ticks 1) "01".
Definition beam_down : frame := Frame "F" dflt (ticks 0) (ticks 1) "10".
Lemma beam_ticks : fst (grun ticks create beam_ops) = Session (beam_db beam_up (ticks 0) (ticks 1)) start_db 3.
Proof. draws. Qed.
Lemma beam_swapped : fst (grun swapped create beam_ops) = Session (beam_db beam_down (ticks 1) (ticks 0)) start_db 3.
Proof. draws. Qed.
(** The line goes against the member. *)
Lemma c96_direction_refuted : exists uuid s f p q, fresh_names uuid /\ drawn uuid s /\ frames_ok (s_db s) /\ d_frames (s_db s) = [f]
  /\ export_dxf false s = (s, Some [ELine "0" p q])
  /\ ~ runs (s_db s) f (scaled (metres (d_unit (s_db s))) p) (scaled (metres (d_unit (s_db s))) q).
Proof.
  exists swapped, (fst (grun swapped create beam_ops)), beam_down, ((3/1, 0/1), 0/1), ((0*1/1, 0*1/1), 0*1/1).
  split; [exact swapped_fresh|]. split; [exists beam_ops; reflexivity|]. rewrite beam_swapped. cbn [s_db].
  split; [|split; [reflexivity|split; [reflexivity|]]].
  - intros g [<-|[]]. split; [|split].
    + eexists. split; [right; left; reflexivity|reflexivity].
    + eexists. split; [left; reflexivity|reflexivity].
    + discriminate.
  - intros [(a & [A1 A2] & A3) _]. change (start_of beam_down) with (ticks 1) in A2. destruct A1 as [<-|[<-|[]]]; [|discriminate].
    change (metres (d_unit (beam_db beam_down (ticks 1) (ticks 0)))) with 1 in A3. unfold pos, scaled in A3. cbn [j_x] in A3. injection A3. intros. lra.
Qed.
(** Drawn in metres, written in millimetres and read in metres. *)
Definition mm_session : session := Session (with_unit "N_mm_C" (beam_db beam_up (ticks 0) (ticks 1))) start_db 3.
Lemma mm_eq : fst (grun ticks create (beam_ops ++ [GSetUnit "N_mm_C"])) = mm_session.
Proof.
  assert (E : forall ops ops' s, fst (grun ticks s (ops ++ ops')) = fst (grun ticks (fst (grun ticks s ops)) ops')).
  { induction ops as [|o r IH]; intros ops' s; [reflexivity|]. cbn [app]. rewrite !grun_fst_cons. apply IH. }
  rewrite E, beam_ticks. reflexivity.
Qed.
Lemma beam_frames_ok u : frames_ok (with_unit u (beam_db beam_up (ticks 0) (ticks 1))).
Proof.
  intros g [<-|[]]. split; [|split].
  - eexists. split; [left; reflexivity|reflexivity].
  - eexists. split; [right; left; reflexivity|reflexivity].
  - discriminate.
Qed.
Lemma c96_unit_refuted : exists uuid s f f' p q es s', fresh_names uuid /\ drawn uuid s /\ d_frames (s_db s) = [f]
  /\ export_dxf false s = (s, Some es)
  /\ import_dxf uuid es [] true true None None create = (s', ITrue (Some [fr_name f']) None) /\ d_frames (s_db s') = [f']
  /\ joins (s_db s) f p q /\ p <> q /\ runs (s_db s') f' (scaled 1000 p) (scaled 1000 q).
Proof.
  destruct (c96_round ticks mm_session ticks create dflt "A-M120") as (es & s' & fs & E1 & E2 & E3 & E4).
  - exact ticks_fresh.
  - eexists. symmetry. exact mm_eq.
  - apply beam_frames_ok.
  - repeat constructor. intros [].
  - discriminate.
  - intros f [<-|[]]. discriminate.
  - exact ticks_fresh.
  - exists []. reflexivity.
  - rewrite create_eq. reflexivity.
  - rewrite create_eq. reflexivity.
  - rewrite create_eq. reflexivity.
  - rewrite create_eq. reflexivity.
  - rewrite create_eq. discriminate.
  - rewrite create_eq. cbn [s_db start_db d_tol]. lra.
  - rewrite create_eq. change (metres (d_unit (s_db mm_session))) with (/1000). change (metres (d_unit (s_db (Session start_db start_db 0)))) with 1.
    cbn [s_db start_db d_tol]. intros a b [<-|[<-|[]]] [<-|[<-|[]]]; try (left; reflexivity); right; unfold place_dist2, pos; cbn [j_x j_y j_z]; lra.
  - change (d_frames (s_db mm_session)) with [beam_up] in E4. inversion E4 as [|? f' ? ? (p & q & J & Rn) E5]; subst. inversion E5; subst.
    exists ticks, mm_session, beam_up, f', p, q, es, s'. split; [exact ticks_fresh|]. split; [eexists; symmetry; exact mm_eq|]. split; [reflexivity|].
    split; [exact E1|]. split; [|split; [symmetry; assumption|split; [exact J|split]]].
    + rewrite (c95_defaults _ _ _ _ _ _ dflt "A-M120"%string) by (rewrite ?create_eq; reflexivity). rewrite E2, <- H1. reflexivity.
    + destruct (joins_pos _ _ _ _ J) as (a & b & A1 & B1 & <- & <- & Nm). change (start_of beam_up) with (ticks 0) in Nm. change (end_of beam_up) with (ticks 1) in Nm.
      intro X. destruct A1 as [<-|[<-|[]]], B1 as [<-|[<-|[]]]; cbn [j_name] in Nm; try (destruct Nm as [[? ?]|[? ?]]; discriminate);
        unfold pos in X; cbn [j_x] in X; injection X; intros; lra.
    + replace 1000 with (metres (d_unit (s_db create)) / metres (d_unit (s_db mm_session))); [exact Rn|]. rewrite create_eq.
      change (1 / (/1000) = 1000). field.
Qed.

(** A drawing with a line and a face: the answer is False and the line has been imported. *)
Definition line_and_face : list entity := [ELine "0" ((0, 0), 0) ((3, 0), 0); EFace "0" ((0, 0), 0) ((1, 0), 0) ((1, 1), 0) ((1, 1), 0)].
Lemma c95_refuted : exists uuid s es s', fresh_names uuid /\ drawn uuid s
  /\ import_dxf uuid es [] true true None None s = (s', IFalse) /\ d_frames (s_saved s) = [] /\ List.length (d_frames (s_saved s')) = 1%nat.
Proof.
  exists ticks, create, line_and_face.
  destruct (c95_frames ticks line_and_face [] false dflt "A-M120" create [(((0, 0), 0), ((3, 0), 0))]) as (s' & fs & E1 & E2 & E3 & _ & E5).
  - exact ticks_fresh.
  - exists []. reflexivity.
  - rewrite create_eq. cbn [s_db start_db d_tol]. lra.
  - apply lines_take; [left; reflexivity|]. apply lines_skip; [right; intros; discriminate|]. constructor.
  - discriminate.
  - discriminate.
  - rewrite create_eq. discriminate.
  - rewrite create_eq. reflexivity.
  - rewrite create_eq. reflexivity.
  - repeat constructor. cbn [fst snd]. intro X. injection X. intros. lra.
  - rewrite create_eq. change (metres (d_unit (s_db (Session start_db start_db 0)))) with 1. cbn [s_db start_db d_joints d_tol map app batch_places flat_map fst snd scaled].
    intros p q [<-|[<-|[]]] [<-|[<-|[]]]; try (left; reflexivity); right; unfold place_dist2; lra.
  - exists (rollback s'). split; [exact ticks_fresh|]. split; [exists []; reflexivity|]. rewrite (c95_defaults _ _ _ _ _ _ dflt "A-M120"%string) by (rewrite ?create_eq; reflexivity).
    split; [|split; [rewrite create_eq; reflexivity|]].
    + unfold import_dxf in E1 |- *. change (dxf_lines [] true line_and_face) with [(((0, 0), 0), ((3, 0), 0))] in *.
      destruct (add_frame_batch ticks [(((0, 0), 0), ((3, 0), 0))] dflt create) as [s1 a]. change (dxf_faces [] false line_and_face) with (@nil (point * point * point * option point)) in E1.
      destruct a; try discriminate. injection E1 as <- _.
      destruct (dxf_faces [] true line_and_face) as [|x r] eqn:Ef; [|rewrite c94_batch_refused; reflexivity].
      exfalso. revert Ef. unfold dxf_faces, line_and_face. cbn [flat_map wanted app]. discriminate.
    + cbn [rollback s_saved]. rewrite E5, E2. rewrite create_eq. cbn [s_db start_db d_frames app].
      clear - E3. inversion E3 as [|? f ? l G G']; subst. inversion G'; subst. reflexivity.
Qed.
