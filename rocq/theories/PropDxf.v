(** Properties C94-C96: areas and the exchange with dxf files.
    Only statements, each closed by a lemma proved elsewhere, with the assumptions it
    rests on and an instance of its hypotheses. *)
From Coq Require Import Reals Lra Lia List String Arith Bool ZArith Sorting.Permutation Sorting.Sorted.
From Verif Require Import Base BaseFacts General SpecGeneral Dxf SpecDxf GeneralProofs GeneralProofs2 GeneralProofs3 GeneralProofs4 BatchProofs DxfProofs.
Import ListNotations.
Local Open Scope string_scope.
Local Open Scope list_scope.
Local Open Scope R_scope.

(** C94. No area is ever added: every call is answered by False and everything since the last save is undone. *)
Theorem C94_refused uuid p0 p1 p2 p3 sec name s : add_area uuid p0 p1 p2 p3 sec name s = (rollback s, GFalse).
Proof. exact (c94_refused uuid p0 p1 p2 p3 sec name s). Qed.
Print Assumptions C94_refused.
Example C94_refused_example : snd (add_area ticks ((0, 0), 0) ((1, 0), 0) ((0, 1), 0) None "A-M120" None create) = GFalse.
Proof. rewrite C94_refused. reflexivity. Qed.

(** C94. The same of batches. *)
Theorem C94_batch_refused areas sec s : add_area_batch areas sec s = (rollback s, GFalse).
Proof. exact (c94_batch_refused areas sec s). Qed.
Print Assumptions C94_batch_refused.
Example C94_batch_refused_example : snd (add_area_batch [(((0, 0), 0), ((1, 0), 0), ((0, 1), 0), None)] "A-M120" create) = GFalse.
Proof. rewrite C94_batch_refused. reflexivity. Qed.

(** C94 is false: an area between three joints of the model, of a section of the model, is refused, and the joints are gone. *)
Theorem C94_refuted : exists uuid s p0 p1 p2 a b c, fresh_names uuid /\ drawn uuid s /\ d_joints (s_db s) = [a; b; c]
  /\ scaled (metres (d_unit (s_db s))) p0 = pos a /\ scaled (metres (d_unit (s_db s))) p1 = pos b /\ scaled (metres (d_unit (s_db s))) p2 = pos c
  /\ dget "A-M120" (d_asecs (s_db s)) <> None
  /\ exists s', add_area uuid p0 p1 p2 None "A-M120" None s = (s', GFalse) /\ d_joints (s_db s') = [].
Proof. exact c94_refuted. Qed.
Print Assumptions C94_refuted.


(** C95. Of a drawing without faces each line on the layers asked for becomes one frame at its place, in the unit of the model, of the section asked for; lines that meet share a joint and the result is saved.  Missing: faces, points closer than the tolerance. *)
Theorem C95_frames_partial : forall uuid es layers areas sec asec s ps,
  fresh_names uuid -> drawn uuid s -> d_tol (s_db s) <> 0 -> lines_on layers es ps -> ps <> [] ->
  (areas = true -> no_faces layers es) ->
  dget sec (d_secs (s_db s)) <> None -> d_rest (s_db s) = [] -> d_jloads (s_db s) = [] ->
  Forall (fun pq => fst pq <> snd pq) ps ->
  well_apart (d_tol (s_db s)) (map pos (d_joints (s_db s)) ++ batch_places (metres (d_unit (s_db s))) ps) ->
  exists s' fs, import_dxf uuid es layers true areas (Some sec) (Some asec) s = (s', ITrue (Some (map fr_name fs)) None)
    /\ d_frames (s_db s') = d_frames (s_db s) ++ fs
    /\ Forall2 (fun pq f => fr_section f = sec
         /\ runs (s_db s') f (scaled (metres (d_unit (s_db s))) (fst pq)) (scaled (metres (d_unit (s_db s))) (snd pq))) ps fs
    /\ (forall a b, In a (d_joints (s_db s')) -> In b (d_joints (s_db s')) -> pos a = pos b -> a = b)
    /\ s_saved s' = s_db s'.
Proof. exact c95_frames. Qed.
Print Assumptions C95_frames_partial.
Definition two_layers : list entity := [ELine "beams" ((0, 0), 0) ((3, 0), 0); EOther "beams"; ELine "text" ((1, 1), 1) ((2, 2), 2); ELine "beams" ((3, 0), 0) ((3, 4), 0)].
Lemma two_layers_lines : lines_on ["beams"%string] two_layers [(((0, 0), 0), ((3, 0), 0)); (((3, 0), 0), ((3, 4), 0))].
Proof.
  apply lines_take; [right; left; reflexivity|]. apply lines_skip; [right; intros; discriminate|].
  apply lines_skip; [left; intros [X|[X|[]]]; discriminate|]. apply lines_take; [right; left; reflexivity|]. constructor.
Qed.
Example C95_frames_example : exists s' f g a, import_dxf ticks two_layers ["beams"%string] true true (Some dflt) (Some "A-M120"%string) create = (s', ITrue (Some [fr_name f; fr_name g]) None) /\
  is_joint (s_db s') (end_of f) a /\ is_joint (s_db s') (start_of g) a /\ fr_section g = dflt.
Proof.
  destruct (C95_frames_partial ticks two_layers ["beams"%string] true dflt "A-M120"%string create [(((0, 0), 0), ((3, 0), 0)); (((3, 0), 0), ((3, 4), 0))])
    as (s' & fs & E & F1 & F3 & F4 & _); [exact ticks_fresh|exists []; reflexivity|rewrite create_eq; cbn [s_db start_db d_tol]; lra|exact two_layers_lines|discriminate| | | | | | |].
  - intros _ l a b c d [X|[X|[X|[X|[]]]]]; discriminate.
  - rewrite create_eq; discriminate.
  - rewrite create_eq; reflexivity.
  - rewrite create_eq; reflexivity.
  - repeat constructor; cbn [fst snd]; intro X; injection X; intros; lra.
  - rewrite create_eq. change (metres (d_unit (s_db (Session start_db start_db 0)))) with 1.
    cbn [s_db start_db d_joints d_tol map app batch_places flat_map fst snd scaled].
    intros p q [<-|[<-|[<-|[<-|[]]]]] [<-|[<-|[<-|[<-|[]]]]]; try (left; reflexivity); right; unfold place_dist2; lra.
  - inversion F3 as [|? f ? l G G']; subst. inversion G' as [|? g ? l' K K']; subst. inversion K'; subst.
    cbn [fst snd] in G, K. destruct G as [_ [_ (a & A1 & A2)]], K as [Sg [(b & B1 & B2) _]].
    assert (b = a) by (apply F4; [exact (proj1 B1)|exact (proj1 A1)|congruence]). subst b.
    exists s', f, g, a. split; [exact E|]. split; [exact A1|]. split; [exact B1|]. exact Sg.
Qed.

(** C95. Sections left out are the first ones of the model. *)
Theorem C95_defaults uuid es layers frames areas s sec asec : hd_error (dkeys (d_secs (s_db s))) = Some sec -> hd_error (dkeys (d_asecs (s_db s))) = Some asec ->
  import_dxf uuid es layers frames areas None None s = import_dxf uuid es layers frames areas (Some sec) (Some asec) s.
Proof. exact (c95_defaults uuid es layers frames areas s sec asec). Qed.
Print Assumptions C95_defaults.
Example C95_defaults_example : import_dxf ticks two_layers [] true false None None create = import_dxf ticks two_layers [] true false (Some dflt) (Some "A-M120"%string) create.
Proof. apply C95_defaults; rewrite create_eq; reflexivity. Qed.

(** C95. A drawing with a face is always answered by False. *)
Theorem C95_face_refused : forall uuid es layers frames fsec asec s l a b c d, In (EFace l a b c d) es -> on_layers layers (EFace l a b c d) ->
  snd (import_dxf uuid es layers frames true fsec asec s) = IFalse.
Proof. exact c95_face_refused. Qed.
Print Assumptions C95_face_refused.
Example C95_face_example : snd (import_dxf ticks line_and_face ["0"%string] true true None None create) = IFalse.
Proof. eapply C95_face_refused; [right; left; reflexivity|right; left; reflexivity]. Qed.

(** C95 is false: a drawing with a line and a face is answered by False, and the line has been imported and saved. *)
Theorem C95_refuted : exists uuid s es s', fresh_names uuid /\ drawn uuid s
  /\ import_dxf uuid es [] true true None None s = (s', IFalse) /\ d_frames (s_saved s) = [] /\ List.length (d_frames (s_saved s')) = 1%nat.
Proof. exact c95_refuted. Qed.
Print Assumptions C95_refuted.


(** C96. Each frame is written as one line between its two ends, in the unit of the model, and the model stays as it was. *)
Theorem C96_export : forall uuid s, fresh_names uuid -> drawn uuid s -> frames_ok (s_db s) -> NoDup (map fr_name (d_frames (s_db s))) ->
  exists es, export_dxf false s = (s, Some es) /\ Forall2 (fun f e => exists p q, e = ELine "0" p q
    /\ joins (s_db s) f (scaled (metres (d_unit (s_db s))) p) (scaled (metres (d_unit (s_db s))) q)) (d_frames (s_db s)) es.
Proof. exact c96_export. Qed.
Print Assumptions C96_export.
Example C96_export_example : exists es, export_dxf false mm_session = (mm_session, Some es) /\ List.length es = 1%nat.
Proof.
  destruct (C96_export ticks mm_session) as (es & E & F); [exact ticks_fresh|eexists; symmetry; exact mm_eq|apply beam_frames_ok|repeat constructor; intros []|].
  exists es. split; [exact E|]. change (d_frames (s_db mm_session)) with [beam_up] in F. inversion F as [|? e ? l G G']; subst. inversion G'; subst. reflexivity.
Qed.

(** C96, partial: written and read into an empty model each frame is there again, up to its direction and the ratio of the units.  Missing: the direction (see C96_direction_refuted), the unit (see C96_unit_refuted) and the sections, which the file does not have. *)
Theorem C96_round_partial : forall uuid s uuid0 s0 sec asec, fresh_names uuid -> drawn uuid s -> frames_ok (s_db s) ->
  NoDup (map fr_name (d_frames (s_db s))) -> d_frames (s_db s) <> [] -> (forall f, In f (d_frames (s_db s)) -> start_of f <> end_of f) ->
  fresh_names uuid0 -> drawn uuid0 s0 -> d_joints (s_db s0) = [] -> d_frames (s_db s0) = [] -> d_rest (s_db s0) = [] -> d_jloads (s_db s0) = [] ->
  dget sec (d_secs (s_db s0)) <> None -> d_tol (s_db s0) <> 0 ->
  (forall a b, In a (d_joints (s_db s)) -> In b (d_joints (s_db s)) -> a = b \/
     d_tol (s_db s0) ^ 2 <= (metres (d_unit (s_db s0)) / metres (d_unit (s_db s))) ^ 2 * place_dist2 (pos a) (pos b)) ->
  exists es s' fs, export_dxf false s = (s, Some es)
    /\ import_dxf uuid0 es [] true true (Some sec) (Some asec) s0 = (s', ITrue (Some (map fr_name fs)) None)
    /\ d_frames (s_db s') = fs
    /\ Forall2 (fun f f' => exists p q, joins (s_db s) f p q
         /\ runs (s_db s') f' (scaled (metres (d_unit (s_db s0)) / metres (d_unit (s_db s))) p) (scaled (metres (d_unit (s_db s0)) / metres (d_unit (s_db s))) q))
       (d_frames (s_db s)) fs.
Proof. exact c96_round. Qed.
Print Assumptions C96_round_partial.
Example C96_round_example : exists es s' f, export_dxf false (fst (grun ticks create beam_ops)) = (fst (grun ticks create beam_ops), Some es) /\
  import_dxf ticks es [] true true (Some dflt) (Some "A-M120"%string) create = (s', ITrue (Some [fr_name f]) None) /\
  exists p q, joins (s_db (fst (grun ticks create beam_ops))) beam_up p q /\ runs (s_db s') f (scaled (1/1) p) (scaled (1/1) q).
Proof.
  destruct (C96_round_partial ticks (fst (grun ticks create beam_ops)) ticks create dflt "A-M120") as (es & s' & fs & E1 & E2 & E3 & E4).
  - exact ticks_fresh.
  - eexists. reflexivity.
  - rewrite beam_ticks. apply (beam_frames_ok "N_m_C").
  - rewrite beam_ticks. repeat constructor. intros [].
  - rewrite beam_ticks. discriminate.
  - rewrite beam_ticks. intros f [<-|[]]. discriminate.
  - exact ticks_fresh.
  - exists []. reflexivity.
  - rewrite create_eq. reflexivity.
  - rewrite create_eq. reflexivity.
  - rewrite create_eq. reflexivity.
  - rewrite create_eq. reflexivity.
  - rewrite create_eq. discriminate.
  - rewrite create_eq. cbn [s_db start_db d_tol]. lra.
  - rewrite beam_ticks, create_eq. change (metres (d_unit (s_db (Session (beam_db beam_up (ticks 0) (ticks 1)) start_db 3)))) with 1.
    change (metres (d_unit (s_db (Session start_db start_db 0)))) with 1.
    cbn [s_db start_db d_tol]. intros a b [<-|[<-|[]]] [<-|[<-|[]]]; try (left; reflexivity); right; unfold place_dist2, pos; cbn [j_x j_y j_z]; lra.
  - rewrite beam_ticks in *. change (d_frames (s_db (Session (beam_db beam_up (ticks 0) (ticks 1)) start_db 3))) with [beam_up] in E4.
    inversion E4 as [|? f ? l (p & q & J & Rn) E5]; subst. inversion E5; subst.
    exists es, s', f. split; [exact E1|]. split; [|exists p, q; split; [exact J|]].
    + rewrite E2, <- H1. reflexivity.
    + rewrite create_eq in Rn. exact Rn.
Qed.

(** C96 is false of directions: a member whose first joint has the later name is written from its end to its start. *)
Theorem C96_direction_refuted : exists uuid s f p q, fresh_names uuid /\ drawn uuid s /\ frames_ok (s_db s) /\ d_frames (s_db s) = [f]
  /\ export_dxf false s = (s, Some [ELine "0" p q])
  /\ ~ runs (s_db s) f (scaled (metres (d_unit (s_db s))) p) (scaled (metres (d_unit (s_db s))) q).
Proof. exact c96_direction_refuted. Qed.
Print Assumptions C96_direction_refuted.


(** C96 is false of units: the file does not have one, and what is written in millimetres is read a thousand times as large in metres. *)
Theorem C96_unit_refuted : exists uuid s f f' p q es s', fresh_names uuid /\ drawn uuid s /\ d_frames (s_db s) = [f]
  /\ export_dxf false s = (s, Some es)
  /\ import_dxf uuid es [] true true None None create = (s', ITrue (Some [fr_name f']) None) /\ d_frames (s_db s') = [f']
  /\ joins (s_db s) f p q /\ p <> q /\ runs (s_db s') f' (scaled 1000 p) (scaled 1000 q).
Proof. exact c96_unit_refuted. Qed.
Print Assumptions C96_unit_refuted.

