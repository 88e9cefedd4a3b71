(** Properties C55, C56, C68-C73: the drawing model in the database.
    Only statements, each closed by a lemma proved elsewhere, with the assumptions it
    rests on and an instance of its hypotheses. *)
From Coq Require Import Reals Lra Lia List String Arith Bool ZArith Sorting.Permutation Sorting.Sorted.
From Verif Require Import Base BaseFacts General SpecGeneral SpecSection GeneralProofs GeneralProofs2 GeneralProofs3 GeneralProofs4 BatchProofs BatchProofs2.
Import ListNotations.
Local Open Scope string_scope.
Local Open Scope list_scope.
Local Open Scope R_scope.

(** C55. A joint is placed where the coordinates given in any unit say and is read, in any unit, at that place. *)
Theorem C55_coordinates : forall uuid s n j u v x y z,
  fresh_names uuid -> drawn uuid s -> is_joint (s_db s) n j -> In u units -> In v units ->
  snd (grun uuid s [GSetUnit u; GSetCoordinate n x y z; GSetUnit v; GGetCoordinate n])
  = [GTrue; GTrue; GTrue; GVals [x * metres u / metres v; y * metres u / metres v; z * metres u / metres v]].
Proof. exact c55_coordinates. Qed.
Print Assumptions C55_coordinates.
Example C55_coordinates_example : snd (grun ticks (fst (grun ticks create [GAddJoint 1 0 0])) [GSetUnit "kN_mm_C"; GSetCoordinate (ticks 0) 500 0 20; GSetUnit "kN_m_C"; GGetCoordinate (ticks 0)])
  = [GTrue; GTrue; GTrue; GVals [500 * metres "kN_mm_C" / metres "kN_m_C"; 0 * metres "kN_mm_C" / metres "kN_m_C"; 20 * metres "kN_mm_C" / metres "kN_m_C"]].
Proof.
  apply (C55_coordinates ticks _ (ticks 0) (Joint (ticks 0) 1 0 0)); [exact ticks_fresh|eexists; reflexivity| |simpl; auto|simpl; auto].
  rewrite create_eq. split; [left; reflexivity|reflexivity].
Qed.

(** C55. Coordinates are read back as given. *)
Theorem C55_roundtrip : forall uuid s n j x y z,
  fresh_names uuid -> drawn uuid s -> is_joint (s_db s) n j ->
  snd (grun uuid s [GSetCoordinate n x y z; GGetCoordinate n]) = [GTrue; GVals [x; y; z]].
Proof. exact c55_roundtrip. Qed.
Print Assumptions C55_roundtrip.
Example C55_roundtrip_example : snd (grun ticks (fst (grun ticks create [GAddJoint 1 0 0; GSetUnit "N_mm_C"])) [GSetCoordinate (ticks 0) 5 6 7; GGetCoordinate (ticks 0)]) = [GTrue; GVals [5; 6; 7]].
Proof.
  apply (C55_roundtrip ticks _ (ticks 0) (Joint (ticks 0) 1 0 0)); [exact ticks_fresh|eexists; reflexivity|].
  rewrite create_eq. split; [left; reflexivity|reflexivity].
Qed.

(** C55. The same place given in two units is stored as the same numbers. *)
Theorem C55_same_place : forall uuid s n j u v x y z x' y' z',
  fresh_names uuid -> drawn uuid s -> is_joint (s_db s) n j -> In u units -> In v units ->
  x * metres u = x' * metres v -> y * metres u = y' * metres v -> z * metres u = z' * metres v ->
  let a := s_db (fst (grun uuid s [GSetUnit u; GSetCoordinate n x y z])) in
  let b := s_db (fst (grun uuid s [GSetUnit v; GSetCoordinate n x' y' z'])) in
  d_joints a = d_joints b /\ is_joint a n (Joint n (x * metres u) (y * metres u) (z * metres u)).
Proof. exact c55_same. Qed.
Print Assumptions C55_same_place.
Example C55_same_place_example :
  d_joints (s_db (fst (grun ticks (fst (grun ticks create [GAddJoint 1 0 0])) [GSetUnit "N_m_C"; GSetCoordinate (ticks 0) 2 3 4])))
  = d_joints (s_db (fst (grun ticks (fst (grun ticks create [GAddJoint 1 0 0])) [GSetUnit "kN_mm_C"; GSetCoordinate (ticks 0) 2000 3000 4000]))).
Proof.
  apply (C55_same_place ticks _ (ticks 0) (Joint (ticks 0) 1 0 0)); [exact ticks_fresh|eexists; reflexivity| |simpl; auto|simpl; auto|..];
    [rewrite create_eq; split; [left; reflexivity|reflexivity]|unfold metres; cbn; lra..].
Qed.

(** C55. The tolerance, likewise. *)
Theorem C55_tolerance : forall uuid s u v t,
  In u units -> In v units ->
  snd (grun uuid s [GSetUnit u; GSetTolerance t; GSetUnit v; GGetTolerance]) = [GTrue; GTrue; GTrue; GVals [t * metres u / metres v]].
Proof. exact c55_tolerance. Qed.
Print Assumptions C55_tolerance.
Example C55_tolerance_example : snd (grun ticks create [GSetUnit "N_mm_C"; GSetTolerance 2; GSetUnit "N_m_C"; GGetTolerance]) = [GTrue; GTrue; GTrue; GVals [2 * metres "N_mm_C" / metres "N_m_C"]].
Proof. apply C55_tolerance; simpl; auto. Qed.

(** C55. Displacements stored in SI by a run are read in any unit as the same displacements. *)
Theorem C55_displacement : forall uuid s n j c disp reac u,
  dget c (d_cases (s_db s)) = Some "static-linear"%string ->
  (forall r, In r (d_disps (s_db s)) -> jr_case r <> c) -> (forall r, In r (d_reacs (s_db s)) -> jr_case r <> c) ->
  (forall n, List.length (disp n) = 6%nat) -> (forall n, List.length (reac n) = 6%nat) ->
  is_joint (s_db s) n j -> In u units ->
  exists v, snd (grun uuid s [GResults c disp reac; GSetUnit u; GDisplacement n c]) = [GNone; GTrue; GVals v] /\
            in_si [metres u; metres u; metres u; 1; 1; 1] v = disp n.
Proof. exact c55_displacement. Qed.
Print Assumptions C55_displacement.
Example C55_displacement_example : exists v,
  snd (grun ticks (fst (grun ticks create [GAddJoint 1 0 0])) [GResults "S" (fun _ => [1;2;3;4;5;6]) (fun _ => [1;2;3;4;5;6]); GSetUnit "N_mm_C"; GDisplacement (ticks 0) "S"]) = [GNone; GTrue; GVals v] /\
  in_si [metres "N_mm_C"; metres "N_mm_C"; metres "N_mm_C"; 1; 1; 1] v = [1;2;3;4;5;6].
Proof.
  apply (C55_displacement ticks _ (ticks 0) (Joint (ticks 0) 1 0 0) "S" (fun _ => [1;2;3;4;5;6]));
    rewrite ?create_eq; [reflexivity|intros r []|intros r []|reflexivity|reflexivity|split; [left; reflexivity|reflexivity]|simpl; auto].
Qed.

(** C55. And so are reactions. *)
Theorem C55_reaction : forall uuid s n r c disp reac u,
  dget c (d_cases (s_db s)) = Some "static-linear"%string ->
  (forall r, In r (d_disps (s_db s)) -> jr_case r <> c) -> (forall r, In r (d_reacs (s_db s)) -> jr_case r <> c) ->
  (forall n, List.length (disp n) = 6%nat) -> (forall n, List.length (reac n) = 6%nat) ->
  dget n (d_rest (s_db s)) = Some r -> In u units ->
  exists v, snd (grun uuid s [GResults c disp reac; GSetUnit u; GReaction n c]) = [GNone; GTrue; GVals v] /\
            in_si [newtons u; newtons u; newtons u; newtons u * metres u; newtons u * metres u; newtons u * metres u] v = reac n.
Proof. exact c55_reaction. Qed.
Print Assumptions C55_reaction.
Example C55_reaction_example : exists v,
  snd (grun ticks (fst (grun ticks create [GAddJoint 1 0 0; GSetRestraint (ticks 0) [true;true;true;false;false;false]])) [GResults "S" (fun _ => [1;2;3;4;5;6]) (fun _ => [1;2;3;4;5;6]); GSetUnit "kN_mm_C"; GReaction (ticks 0) "S"]) = [GNone; GTrue; GVals v] /\
  in_si (let N := newtons "kN_mm_C" in let m := metres "kN_mm_C" in [N; N; N; N * m; N * m; N * m]) v = [1;2;3;4;5;6].
Proof.
  apply (C55_reaction ticks _ (ticks 0) [true;true;true;false;false;false] "S" (fun _ => [1;2;3;4;5;6]) (fun _ => [1;2;3;4;5;6]));
    rewrite ?create_eq; [reflexivity|intros r []|intros r []|reflexivity|reflexivity|reflexivity|simpl; auto].
Qed.

(** C55. A concentrated load on a frame is stored in newtons and newton metres, and replaces the one before. *)
Theorem C55_concentrated : forall uuid s n f c u load loc,
  In f (d_frames (s_db s)) -> fr_name f = n -> In u units -> List.length load = 6%nat -> 0 <= loc <= 1 ->
  let s' := fst (grun uuid s [GSetUnit u; GSetConc n c load loc]) in
  snd (grun uuid s [GSetUnit u; GSetConc n c load loc]) = [GTrue; GTrue] /\
  (exists l, In l (d_conc (s_db s')) /\ fl_frame l = n /\ fl_case l = c) /\
  forall l, In l (d_conc (s_db s')) -> fl_frame l = n -> fl_case l = c ->
    fl_cols l = in_si [newtons u; newtons u; newtons u; newtons u * metres u; newtons u * metres u; newtons u * metres u] load ++ [loc].
Proof. exact c55_concentrated. Qed.
Print Assumptions C55_concentrated.
Example C55_concentrated_example :
  snd (grun ticks (fst (grun ticks create old_frame)) [GSetUnit "kN_mm_C"; GSetConc "F" "S" [1;2;3;4;5;6] (1/2)]) = [GTrue; GTrue].
Proof.
  apply (C55_concentrated ticks _ "F" (Frame "F" dflt (ticks 0) (ticks 1) "01")); [rewrite old_frame_eq; left; reflexivity|reflexivity|simpl; auto|reflexivity|lra].
Qed.

(** C55. A distributed load is, in units with metres; missing: millimetres (see C55_distributed_refuted). *)
Theorem C55_distributed_partial : forall uuid s n f c u load,
  In f (d_frames (s_db s)) -> fr_name f = n -> In u units -> List.length load = 12%nat -> metres u = 1 ->
  let s' := fst (grun uuid s [GSetUnit u; GSetDist n c load]) in
  (exists l, In l (d_dist (s_db s')) /\ fl_frame l = n /\ fl_case l = c) /\
  forall l, In l (d_dist (s_db s')) -> fl_frame l = n -> fl_case l = c ->
    let p := newtons u / metres u in let m := newtons u in
    fl_cols l = in_si [p; p; p; m; m; m; p; p; p; m; m; m] load.
Proof. exact c55_distributed_metre. Qed.
Print Assumptions C55_distributed_partial.
Example C55_distributed_example : exists l, In l (d_dist (s_db (fst (grun ticks (fst (grun ticks create old_frame)) [GSetUnit "kN_m_C"; GSetDist "F" "S" [1;2;3;4;5;6;7;8;9;10;11;12]])))) /\ fl_frame l = "F"%string /\ fl_case l = "S"%string.
Proof.
  apply (C55_distributed_partial ticks _ "F" (Frame "F" dflt (ticks 0) (ticks 1) "01")); [rewrite old_frame_eq; left; reflexivity|reflexivity|simpl; auto|reflexivity|reflexivity].
Qed.

(** C55. In millimetres a distributed load is multiplied by the length where it should be divided. *)
Theorem C55_distributed_refuted : exists uuid s n f c u load l, fresh_names uuid /\ drawn uuid s /\ In u units /\
  In f (d_frames (s_db s)) /\ fr_name f = n /\ List.length load = 12%nat /\
  snd (grun uuid s [GSetUnit u; GSetDist n c load]) = [GTrue; GTrue] /\
  In l (d_dist (s_db (fst (grun uuid s [GSetUnit u; GSetDist n c load])))) /\ fl_frame l = n /\ fl_case l = c /\
  nth 0 (fl_cols l) 0 <> nth 0 load 0 * (newtons u / metres u) /\ nth 3 (fl_cols l) 0 <> nth 3 load 0 * newtons u.
Proof. exact c55_distributed_refuted. Qed.
Print Assumptions C55_distributed_refuted.


(** C55. Loads on joints: whatever was set, in whatever unit, zeros are applied. *)
Theorem C55_joint_loads_lost : forall uuid s c p, drawn uuid s -> In p (applied_loads c (s_db s)) -> snd p = [0; 0; 0; 0; 0; 0].
Proof. exact c55_joint_loads_lost. Qed.
Print Assumptions C55_joint_loads_lost.
Example C55_joint_loads_lost_example : In (ticks 0, [0; 0; 0; 0; 0; 0]) (applied_loads "S" (s_db (fst (grun ticks create [GAddJoint 1 0 0; GSetJointLoad (ticks 0) "S" [1;2;3;4;5;6]])))).
Proof. rewrite create_eq. left. reflexivity. Qed.

(** C55. A load of 1000 N accepted for a joint acts as zero. *)
Theorem C55_joint_load_refuted : exists uuid s n j c load, fresh_names uuid /\ drawn uuid s /\ is_joint (s_db s) n j /\
  snd (gstep uuid s (GSetJointLoad n c load)) = GTrue /\
  let s' := fst (gstep uuid s (GSetJointLoad n c load)) in
  d_unit (s_db s') = "N_m_C"%string /\ load = [1000; 0; 0; 0; 0; 0] /\ applied_loads c (s_db s') = [(n, [0; 0; 0; 0; 0; 0])].
Proof. exact c55_joint_load_refuted. Qed.
Print Assumptions C55_joint_load_refuted.


(** C55. Materials are added in SI. *)
Theorem C55_material : forall uuid s n u rho E mu, In u units -> dget n (d_mats (s_db s)) = None ->
  snd (grun uuid s [GSetUnit u; GAddMaterial n rho "isotropic_elastic" (Some (E, mu))]) = [GTrue; GTrue] /\
  dget n (d_mats (s_db (fst (grun uuid s [GSetUnit u; GAddMaterial n rho "isotropic_elastic" (Some (E, mu))]))))
  = Some (GMat (rho * (newtons u / metres u) / metres u ^ 3) (Some (E * newtons u / metres u ^ 2, mu))).
Proof. exact c55_material. Qed.
Print Assumptions C55_material.
Example C55_material_example : snd (grun ticks create [GSetUnit "N_mm_C"; GAddMaterial "M" (785 / 100000000000) "isotropic_elastic" (Some (206000, 3/10))]) = [GTrue; GTrue].
Proof. apply C55_material; [simpl; auto|rewrite create_eq; reflexivity]. Qed.

(** C55. But changing the modulus of a material stores the number as given. *)
Theorem C55_elastic_refuted : exists uuid s n u E mu rho E', fresh_names uuid /\ drawn uuid s /\ In u units /\
  snd (grun uuid s [GSetUnit u; GSetElastic n E mu]) = [GTrue; GTrue] /\
  dget n (d_mats (s_db (fst (grun uuid s [GSetUnit u; GSetElastic n E mu])))) = Some (GMat rho (Some (E', mu))) /\
  E' <> E * newtons u / metres u ^ 2.
Proof. exact c55_elastic_refuted. Qed.
Print Assumptions C55_elastic_refuted.


(** C56. A frame drawn in any unit starts at the joint at its first point; it ends at the joint at its second point if the unit of length is the metre.  Missing: the second point in millimetres (see C56_refuted). *)
Theorem C56_partial : forall uuid s p0 p1 sec name n s',
  fresh_names uuid -> drawn uuid s -> gstep uuid s (GAddFrame p0 p1 sec name) = (s', GName n) ->
  exists f a b, d_frames (s_db s') = d_frames (s_db s) ++ [f] /\ fr_name f = n /\ fr_section f = sec /\ start_of f <> end_of f /\
    is_joint (s_db s') (start_of f) a /\ lies (d_tol (s_db s)) (metres (d_unit (s_db s))) a p0 /\
    is_joint (s_db s') (end_of f) b /\ (metres (d_unit (s_db s)) = 1 -> lies (d_tol (s_db s)) (metres (d_unit (s_db s))) b p1).
Proof. exact c56_partial. Qed.
Print Assumptions C56_partial.
Example C56_example : exists n s', gstep ticks create (GAddFrame ((0, 0), 0) ((3, 0), 4) dflt None) = (s', GName n).
Proof.
  destruct (c56_answers ticks create ((0, 0), 0) ((3, 0), 4) dflt None ticks_fresh) as [n E].
  - exists []. reflexivity.
  - rewrite create_eq. reflexivity.
  - rewrite create_eq. discriminate.
  - intros n f X. discriminate.
  - rewrite create_eq. left. split; [lra|]. rewrite Rabs_minus_sym, Rabs_pos_eq; simpl; lra.
  - exists n, (fst (gstep ticks create (GAddFrame ((0, 0), 0) ((3, 0), 4) dflt None))). rewrite <- E. destruct (gstep _ _ _). reflexivity.
Qed.

(** C56. In metres a frame between two points apart from each other is drawn. *)
Theorem C56_drawn : forall uuid s p0 p1 sec name,
  fresh_names uuid -> drawn uuid s -> metres (d_unit (s_db s)) = 1 -> dget sec (d_secs (s_db s)) <> None ->
  (forall n f, name = Some n -> In f (d_frames (s_db s)) -> fr_name f <> n) ->
  apart (d_tol (s_db s)) p0 p1 ->
  exists n, snd (gstep uuid s (GAddFrame p0 p1 sec name)) = GName n.
Proof. exact c56_answers. Qed.
Print Assumptions C56_drawn.
Example C56_drawn_example : exists n, snd (gstep ticks create (GAddFrame ((0, 0), 0) ((0, 0), 4) dflt (Some "F"%string))) = GName n.
Proof.
  apply C56_drawn; [exact ticks_fresh|exists []; reflexivity|rewrite create_eq; reflexivity|rewrite create_eq; discriminate|rewrite create_eq; intros n f _ []|].
  rewrite create_eq. right. right. split; [lra|]. rewrite Rabs_minus_sym, Rabs_pos_eq; simpl; lra.
Qed.

(** C56. In millimetres the second end is taken for metres. *)
Theorem C56_refuted : exists uuid s p0 p1 n s', fresh_names uuid /\ drawn uuid s /\
  gstep uuid s (GAddFrame p0 p1 dflt None) = (s', GName n) /\
  forall f b, In f (d_frames (s_db s')) -> fr_name f = n -> is_joint (s_db s') (end_of f) b ->
    ~ lies (d_tol (s_db s)) (metres (d_unit (s_db s))) b p1.
Proof. exact c56_refuted. Qed.
Print Assumptions C56_refuted.


(** C68. Right after a save a call that answers False changes nothing.  Missing: calls after unsaved edits (see C68_refuted) and calls that raise (see C68_raise_refuted). *)
Theorem C68_partial : forall uuid s o s', s_db s = s_saved s -> gstep uuid s o = (s', GFalse) -> s_db s' = s_db s.
Proof. exact c68_partial. Qed.
Print Assumptions C68_partial.
Example C68_example : s_db (fst (gstep ticks create (GSetRestraint "K" [true; true; true; false; false; false]))) = s_db create.
Proof. apply (C68_partial ticks create (GSetRestraint "K" [true; true; true; false; false; false])); rewrite create_eq; reflexivity. Qed.

(** C68. A failing call discards the edits since the last save. *)
Theorem C68_refuted : exists uuid s o s', fresh_names uuid /\ drawn uuid s /\ gstep uuid s o = (s', GFalse) /\
  d_joints (s_db s) <> [] /\ d_joints (s_db s') = [].
Proof. exact c68_refuted. Qed.
Print Assumptions C68_refuted.


(** C68. A frame refused because its ends coincide leaves a joint behind. *)
Theorem C68_raise_refuted : exists uuid s o s', fresh_names uuid /\ drawn uuid s /\ s_db s = s_saved s /\ gstep uuid s o = (s', GRaise) /\
  s_db s' <> s_db s.
Proof. exact c68_raise_refuted. Qed.
Print Assumptions C68_raise_refuted.


(** C69. The frames of a batch run between two different joints of the model and have the section asked for.  Missing: that these joints are at the points given and that earlier frames keep theirs (see below). *)
Theorem C69_new_frames_partial : forall uuid s pts sec s' names,
  fresh_names uuid -> drawn uuid s -> gstep uuid s (GAddBatch pts sec) = (s', GNames names) ->
  exists fs, d_frames (s_db s') = d_frames (s_db s) ++ fs /\ map fr_name fs = names /\
    forall f, In f fs -> fr_section f = sec /\ start_of f <> end_of f /\
      (exists a, is_joint (s_db s') (start_of f) a) /\ (exists b, is_joint (s_db s') (end_of f) b).
Proof. exact c69_new_frames. Qed.
Print Assumptions C69_new_frames_partial.
Example C69_example : drawn ticks create /\ exists s', gstep ticks create (GAddBatch [(((0, 0), 0), ((3, 0), 0))] dflt) = (s', GNames [ticks 2]).
Proof.
  split; [exists []; reflexivity|]. rewrite create_eq. eexists. cbn [gstep]. unfold add_frame_batch.
  cbn [s_db start_db d_secs d_unit dget dflt String.eqb Ascii.eqb Bool.eqb scale].
  cbn [batch_joints add_joint draw upd s_db s_next with_joints d_joints d_tol app start_db].
  unfold merge_map, sort_joints. cbn [fold_right insert_joint]. unfold joint_le. jdec.
  rewrite merge_pairs_cons. unfold dist2. cbn [j_x j_y j_z]. rdec. reflexivity.
Qed.

(** C69. If joints and points given coincide or are at least the tolerance apart, each frame of the batch runs from the one point to the other and frames that meet share a joint.  Missing: points closer than the tolerance (see C69_distance_refuted). *)
Theorem C69_placed_partial : forall uuid s pts sec s' names, fresh_names uuid -> drawn uuid s -> d_tol (s_db s) <> 0 ->
  Forall (fun pq => fst pq <> snd pq) pts ->
  well_apart (d_tol (s_db s)) (map pos (d_joints (s_db s)) ++ batch_places (metres (d_unit (s_db s))) pts) ->
  gstep uuid s (GAddBatch pts sec) = (s', GNames names) ->
  exists fs, d_frames (s_db s') = d_frames (s_db s) ++ fs /\ map fr_name fs = names
    /\ Forall2 (fun pq f => fr_section f = sec
         /\ runs (s_db s') f (scaled (metres (d_unit (s_db s))) (fst pq)) (scaled (metres (d_unit (s_db s))) (snd pq))) pts fs
    /\ (forall a b, In a (d_joints (s_db s')) -> In b (d_joints (s_db s')) -> pos a = pos b -> a = b).
Proof. exact c69_placed. Qed.
Print Assumptions C69_placed_partial.
Definition corner : list (point * point) := [(((0, 0), 0), ((3, 0), 0)); (((3, 0), 0), ((3, 4), 0))].
Lemma corner_apart : well_apart (d_tol (s_db create)) (map pos (d_joints (s_db create)) ++ batch_places (metres (d_unit (s_db create))) corner).
Proof.
  rewrite create_eq. change (metres (d_unit (s_db (Session start_db start_db 0)))) with 1.
  cbn [s_db start_db d_joints d_tol map app batch_places flat_map fst snd scaled corner].
  intros p q [<-|[<-|[<-|[<-|[]]]]] [<-|[<-|[<-|[<-|[]]]]]; try (left; reflexivity); right; unfold place_dist2; lra.
Qed.
Example C69_placed_example : exists s' f g a, gstep ticks create (GAddBatch corner dflt) = (s', GNames [fr_name f; fr_name g]) /\
  is_joint (s_db s') (end_of f) a /\ is_joint (s_db s') (start_of g) a /\ pos a = ((3 * 1, 0 * 1), 0 * 1).
Proof.
  destruct (c69_answers ticks create corner dflt) as (s' & names & E);
    [exact ticks_fresh|exists []; reflexivity|discriminate|rewrite create_eq; discriminate|rewrite create_eq; reflexivity|rewrite create_eq; reflexivity|].
  destruct (C69_placed_partial ticks create corner dflt s' names ticks_fresh) as (fs & F1 & F2 & F3 & F4);
    [exists []; reflexivity|rewrite create_eq; cbn [s_db start_db d_tol]; lra| |exact corner_apart|exact E|].
  - repeat constructor; cbn [fst snd]; intro X; injection X; intros; lra.
  - unfold corner in F3. inversion F3 as [|? f ? l G G']; subst. inversion G' as [|? g ? l' K K']; subst. inversion K'; subst.
    cbn [fst snd] in G, K. destruct G as [_ [_ (a & A1 & A2)]], K as [_ [(b & B1 & B2) _]].
    assert (b = a) by (apply F4; [exact (proj1 B1)|exact (proj1 A1)|congruence]). subst b.
    exists s', f, g, a. split; [exact E|]. split; [exact A1|]. split; [exact B1|]. rewrite A2, create_eq.
    change (metres (d_unit (s_db (Session start_db start_db 0)))) with 1. reflexivity.
Qed.

(** C69. A batch with a section of the model is carried out if no joint has restraints or loads. *)
Theorem C69_answers : forall uuid s pts sec, fresh_names uuid -> drawn uuid s -> pts <> [] -> dget sec (d_secs (s_db s)) <> None ->
  d_rest (s_db s) = [] -> d_jloads (s_db s) = [] -> exists s' names, gstep uuid s (GAddBatch pts sec) = (s', GNames names).
Proof. exact c69_answers. Qed.
Print Assumptions C69_answers.
Example C69_answers_example : exists s' names, gstep ticks create (GAddBatch corner dflt) = (s', GNames names).
Proof. apply C69_answers; [exact ticks_fresh|exists []; reflexivity|discriminate|rewrite create_eq; discriminate|rewrite create_eq; reflexivity|rewrite create_eq; reflexivity]. Qed.

(** C69. Under the same condition, with earlier joints at different places, earlier joints stay, earlier frames stay and run as before. *)
Theorem C69_earlier_partial : forall uuid s pts sec s' names, fresh_names uuid -> drawn uuid s ->
  (forall a b, In a (d_joints (s_db s)) -> In b (d_joints (s_db s)) -> pos a = pos b -> a = b) ->
  well_apart (d_tol (s_db s)) (map pos (d_joints (s_db s)) ++ batch_places (metres (d_unit (s_db s))) pts) ->
  gstep uuid s (GAddBatch pts sec) = (s', GNames names) ->
  (forall j, In j (d_joints (s_db s)) -> In j (d_joints (s_db s'))) /\ (forall f, In f (d_frames (s_db s)) -> In f (d_frames (s_db s')))
  /\ (forall f p q, runs (s_db s) f p q -> runs (s_db s') f p q).
Proof. exact c69_earlier. Qed.
Print Assumptions C69_earlier_partial.
Example C69_earlier_example : exists s' names, gstep ticks create (GAddBatch corner dflt) = (s', GNames names) /\
  forall f p q, runs (s_db create) f p q -> runs (s_db s') f p q.
Proof.
  destruct (c69_answers ticks create corner dflt) as (s' & names & E);
    [exact ticks_fresh|exists []; reflexivity|discriminate|rewrite create_eq; discriminate|rewrite create_eq; reflexivity|rewrite create_eq; reflexivity|].
  exists s', names. split; [exact E|].
  apply (C69_earlier_partial ticks create corner dflt s' names); [exact ticks_fresh|exists []; reflexivity|rewrite create_eq; intros a b []|exact corner_apart|exact E].
Qed.
(** With a member already there: it ends where the batch begins. *)
Example C69_earlier_hypotheses : let d := old_db in
  (forall a b, In a (d_joints d) -> In b (d_joints d) -> pos a = pos b -> a = b) /\
  well_apart (d_tol d) (map pos (d_joints d) ++ batch_places (metres (d_unit d)) [(((10, 0), 0), ((10, 4), 0))]).
Proof.
  cbv zeta. change (metres (d_unit old_db)) with 1. unfold old_db.
  cbn [with_frames with_joints with_tol start_db d_joints d_tol map app batch_places flat_map fst snd scaled]. split.
  - intros a b [<-|[<-|[]]] [<-|[<-|[]]] E; try reflexivity; unfold pos in E; cbn [j_x j_y j_z] in E; injection E; intros; lra.
  - intros p q [<-|[<-|[<-|[<-|[]]]]] [<-|[<-|[<-|[<-|[]]]]]; unfold pos, place_dist2; cbn [j_x j_y j_z];
      try (left; reflexivity); try (left; f_equal; [f_equal|]; lra); right; lra.
Qed.

(** C69. The chain of merged joints may move an end further than the tolerance. *)
Theorem C69_distance_refuted : exists uuid s p q s' n, fresh_names uuid /\ drawn uuid s /\
  gstep uuid s (GAddBatch [(p, q)] dflt) = (s', GNames [n]) /\
  forall f a, In f (d_frames (s_db s')) -> fr_name f = n -> is_joint (s_db s') (start_of f) a ->
    ~ lies (d_tol (s_db s)) (metres (d_unit (s_db s))) a p.
Proof. exact c69_distance_refuted. Qed.
Print Assumptions C69_distance_refuted.


(** C69. A batch may remove the joint of a frame drawn before. *)
Theorem C69_earlier_refuted : exists uuid s p q s' names f, fresh_names uuid /\ drawn uuid s /\ frames_ok (s_db s) /\
  gstep uuid s (GAddBatch [(p, q)] dflt) = (s', GNames names) /\
  In f (d_frames (s_db s')) /\ (forall a, ~ is_joint (s_db s') (fr_p0 f) a) /\
  snd (gstep uuid s' (GEndNames (fr_name f))) = GNone.
Proof. exact c69_earlier_refuted. Qed.
Print Assumptions C69_earlier_refuted.


(** C70. In metres the joints found by coordinates are those within the tolerance.  Missing: millimetres (see C70_refuted). *)
Theorem C70_partial : forall uuid s x y z, fresh_names uuid -> drawn uuid s -> metres (d_unit (s_db s)) = 1 ->
  exists names, gstep uuid s (GByCoor x y z) = (s, GNames names) /\
  forall n, In n names <-> exists j, is_joint (s_db s) n j /\
    fits (d_tol (s_db s)) (metres (d_unit (s_db s))) x (j_x j) /\ fits (d_tol (s_db s)) (metres (d_unit (s_db s))) y (j_y j) /\
    fits (d_tol (s_db s)) (metres (d_unit (s_db s))) z (j_z j).
Proof. exact c70_partial. Qed.
Print Assumptions C70_partial.
Example C70_example : exists names, gstep ticks create (GByCoor (Some 1) None None) = (create, GNames names) /\
  forall n, In n names <-> exists j, is_joint (s_db create) n j /\ fits (d_tol (s_db create)) (metres (d_unit (s_db create))) (Some 1) (j_x j) /\
    fits (d_tol (s_db create)) (metres (d_unit (s_db create))) None (j_y j) /\ fits (d_tol (s_db create)) (metres (d_unit (s_db create))) None (j_z j).
Proof. apply C70_partial; [exact ticks_fresh|exists []; reflexivity|rewrite create_eq; reflexivity]. Qed.

(** C70. In millimetres a joint is not found at the coordinates it is read at. *)
Theorem C70_refuted : exists uuid s j, fresh_names uuid /\ drawn uuid s /\ is_joint (s_db s) (j_name j) j /\
  let L := metres (d_unit (s_db s)) in
  snd (gstep uuid s (GByCoor (Some (j_x j / L)) (Some (j_y j / L)) (Some (j_z j / L)))) = GNames [].
Proof. exact c70_refuted. Qed.
Print Assumptions C70_refuted.


(** C71. A circular section is stored with its size and constants in SI. *)
Theorem C71_circle : forall uuid s n m u d, In u units -> dget n (d_secs (s_db s)) = None -> dget m (d_mats (s_db s)) <> None -> 0 < d ->
  let r := d * metres u / 2 in
  snd (grun uuid s [GSetUnit u; GAddSection n m "o" [d]]) = [GTrue; GTrue] /\
  dget n (d_secs (s_db (fst (grun uuid s [GSetUnit u; GAddSection n m "o" [d]]))))
  = Some (GSec m [d * metres u] (PI * r^2) (PI * r^4 / 2) (PI * r^4 / 4) (PI * r^4 / 4)).
Proof. exact c71_circle. Qed.
Print Assumptions C71_circle.
Example C71_circle_example : snd (grun ticks create [GSetUnit "N_mm_C"; GAddSection "c" "Q345" "o" [100]]) = [GTrue; GTrue].
Proof. apply C71_circle; [simpl; auto|rewrite create_eq; reflexivity|rewrite create_eq; discriminate|lra]. Qed.

(** C71. So are size, area and second moments of a pipe.  Missing: the torsional constant (see C71_pipe_refuted). *)
Theorem C71_pipe_partial : forall uuid s n m u d t, In u units -> dget n (d_secs (s_db s)) = None -> dget m (d_mats (s_db s)) <> None ->
  0 < t -> 2 * t <= d ->
  let ro := d * metres u / 2 in let ri := ro - t * metres u in
  exists J, dget n (d_secs (s_db (fst (grun uuid s [GSetUnit u; GAddSection n m "O" [d; t]]))))
  = Some (GSec m [d * metres u; t * metres u] (PI * (ro^2 - ri^2)) J (PI * (ro^4 - ri^4) / 4) (PI * (ro^4 - ri^4) / 4)).
Proof. exact c71_pipe_partial. Qed.
Print Assumptions C71_pipe_partial.
Example C71_pipe_example : exists J, dget "p" (d_secs (s_db (fst (grun ticks create [GSetUnit "N_m_C"; GAddSection "p" "Q345" "O" [2; 1/4]]))))
  = Some (GSec "Q345" [2 * metres "N_m_C"; 1/4 * metres "N_m_C"] (PI * ((2 * metres "N_m_C" / 2)^2 - (2 * metres "N_m_C" / 2 - 1/4 * metres "N_m_C")^2)) J
    (PI * ((2 * metres "N_m_C" / 2)^4 - (2 * metres "N_m_C" / 2 - 1/4 * metres "N_m_C")^4) / 4) (PI * ((2 * metres "N_m_C" / 2)^4 - (2 * metres "N_m_C" / 2 - 1/4 * metres "N_m_C")^4) / 4)).
Proof. apply C71_pipe_partial; [simpl; auto|rewrite create_eq; reflexivity|rewrite create_eq; discriminate|lra|lra]. Qed.

(** C71. The torsional constant of a pipe is not the polar moment. *)
Theorem C71_pipe_refuted : exists uuid s n m d t g, fresh_names uuid /\ drawn uuid s /\ 0 < t /\ 2 * t <= d /\
  d_unit (s_db s) = "N_m_C"%string /\ snd (gstep uuid s (GAddSection n m "O" [d; t])) = GTrue /\
  dget n (d_secs (s_db (fst (gstep uuid s (GAddSection n m "O" [d; t]))))) = Some g /\
  gs_J g <> PI * ((d / 2)^4 - (d / 2 - t)^4) / 2.
Proof. exact c71_pipe_refuted. Qed.
Print Assumptions C71_pipe_refuted.


(** C71. The constants of the I section every new project has are not those of the profile it is named after. *)
Theorem C71_I_refuted : exists uuid s g, fresh_names uuid /\ drawn uuid s /\ dget dflt (d_secs (s_db s)) = Some g /\
  gs_A g <> area (I_parts (4/10) (2/10) (14/1000) (2/100)) /\
  gs_I3 g <> inertia_height (I_parts (4/10) (2/10) (14/1000) (2/100)) /\
  gs_I2 g <> inertia_width (I_parts (4/10) (2/10) (14/1000) (2/100)).
Proof. exact c71_I_refuted. Qed.
Print Assumptions C71_I_refuted.


(** C71. Box sections are refused. *)
Theorem C71_box_refuted : exists uuid s n m h b tw tf, fresh_names uuid /\ drawn uuid s /\ dget n (d_secs (s_db s)) = None /\
  dget m (d_mats (s_db s)) <> None /\ 0 < tw /\ 2 * tw < b /\ 0 < tf /\ 2 * tf < h /\
  snd (gstep uuid s (GAddSection n m "B" [h; b; tw; tf])) = GFalse.
Proof. exact c71_box_refuted. Qed.
Print Assumptions C71_box_refuted.


(** C72. The ends of a frame are answered in one order or the other, and start first if it was drawn in ascending order of names.  Missing: start first always (see C72_refuted). *)
Theorem C72_partial : forall uuid s f, fresh_names uuid -> drawn uuid s -> frames_ok (s_db s) ->
  In f (d_frames (s_db s)) -> (forall g, In g (d_frames (s_db s)) -> fr_name g = fr_name f -> g = f) ->
  exists n m, snd (gstep uuid s (GEndNames (fr_name f))) = GNames [n; m] /\
    ((n = start_of f /\ m = end_of f) \/ (n = end_of f /\ m = start_of f)) /\ (fr_order f = "01"%string -> n = start_of f /\ m = end_of f).
Proof. exact c72_partial. Qed.
Print Assumptions C72_partial.
Example C72_example : snd (gstep ticks (fst (grun ticks create old_frame)) (GEndNames "F")) = GNames [ticks 0; ticks 1].
Proof. rewrite old_frame_eq. reflexivity. Qed.
Example C72_hypotheses : frames_ok (s_db (fst (grun ticks create old_frame))).
Proof.
  rewrite old_frame_eq. intros g [<-|[]]. split; [|split].
  - eexists. split; [left; reflexivity|reflexivity].
  - eexists. split; [right; left; reflexivity|reflexivity].
  - discriminate.
Qed.

(** C72. A frame may be answered end first. *)
Theorem C72_refuted : exists uuid s f, fresh_names uuid /\ drawn uuid s /\ frames_ok (s_db s) /\ d_frames (s_db s) = [f] /\
  snd (gstep uuid s (GEndNames (fr_name f))) = GNames [end_of f; start_of f] /\ start_of f <> end_of f.
Proof. exact c72_refuted. Qed.
Print Assumptions C72_refuted.


(** C73. Without merging, batches and changes of section every frame keeps its two joints and its section.  Missing: those three calls (see below and C69_earlier_refuted). *)
Theorem C73_partial : forall uuid ops, Forall plain ops -> frames_ok (s_db (fst (grun uuid create ops))).
Proof. exact c73_partial. Qed.
Print Assumptions C73_partial.
Example C73_example : frames_ok (s_db (fst (grun ticks create (old_frame ++ [GGetCoordinate "none"; GAddFrame ((0, 0), 0) ((5, 0), 0) dflt None; GSave])))).
Proof. apply C73_partial. repeat constructor. Qed.

(** C73. A frame may be given a section that does not exist. *)
Theorem C73_section_refuted : exists uuid s f, fresh_names uuid /\ drawn uuid s /\ In f (d_frames (s_db s)) /\ dget (fr_section f) (d_secs (s_db s)) = None.
Proof. exact c73_section_refuted. Qed.
Print Assumptions C73_section_refuted.


(** C73. Merging may remove the joint of a frame. *)
Theorem C73_merge_refuted : exists uuid s s' f tol, fresh_names uuid /\ drawn uuid s /\ frames_ok (s_db s) /\
  gstep uuid s (GMerge tol) = (s', GTrue) /\ In f (d_frames (s_db s')) /\ forall a, ~ is_joint (s_db s') (fr_p0 f) a.
Proof. exact c73_merge_refuted. Qed.
Print Assumptions C73_merge_refuted.

