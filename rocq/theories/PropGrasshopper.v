(** Properties C80 to C82: the script written from a Grasshopper drawing builds that drawing.
    Only statements, each closed by a lemma proved elsewhere, with the assumptions it
    rests on and an instance of its hypotheses. *)
From Coq Require Import Reals Lra Lia List String Arith Bool ZArith Sorting.Permutation Sorting.Sorted.
From Verif Require Import Base BaseFacts Csys Sections Element Load FeModel Assembly Solver Post Api SpecGeom SpecApi SpecTold Grasshopper SpecGrasshopper SpecSection GrasshopperProofs GrasshopperProofs2 GrasshopperProofs3 GrasshopperProofs4.
Import ListNotations.
Local Open Scope string_scope.
Local Open Scope list_scope.
Local Open Scope R_scope.

(** C80. Every restraint and every load is given a node of the model that is its own point or closer to
    it than the tolerance. *)
Theorem C80_entries tol d :
  Forall2 (entry_ok tol (mg_nodes (merge tol d))) (map gr_node (dr_rests d)) (mg_rests (merge tol d))
  /\ Forall2 (entry_ok tol (mg_nodes (merge tol d))) (map gl_node (dr_loads d)) (mg_loads (merge tol d)).
Proof. exact (c80_entries tol d). Qed.
Print Assumptions C80_entries.
Definition work_shape : gshape := SGeneral 10000 0 0 20000000 10000000 10000000.
Definition work : drawing := post_drawing work_shape (0, 0, 5, 0, 0, 0).
Example C80_entries_example : exists p, mg_rests (merge 1 work) = [p] /\ near 1 origin (gn_pt p).
Proof.
  destruct (C80_entries 1 work) as (F & _). inversion F as [|? p ? r (_ & N) F']; subst. inversion F'; subst. exists p. auto.
Qed.

(** C80. Every beam is connected to two nodes of the model, each of them its own end or closer to it
    than the tolerance, if the beams have different names. *)
Theorem C80_ends tol d b : distinct_beams d -> In b (dr_beams d) -> joined tol (mg_nodes (merge tol d)) (mg_conn (merge tol d)) b.
Proof. exact (c80_ends tol d b). Qed.
Print Assumptions C80_ends.
Example C80_ends_example : distinct_beams work /\ In (post (tube work_shape)) (dr_beams work)
  /\ joined 1 (mg_nodes (merge 1 work)) (mg_conn (merge 1 work)) (post (tube work_shape)).
Proof. split; [apply post_distinct|]. split; [now left|]. apply C80_ends; [apply post_distinct|now left]. Qed.

(** C80. If no beam is shorter than the tolerance, no two nodes are closer than the tolerance. *)
Theorem C80_apart tol d : (forall b, In b (dr_beams d) -> tol <= distance (gb_start b) (gb_end b)) -> apart tol (mg_nodes (merge tol d)).
Proof. exact (c80_apart tol d). Qed.
Print Assumptions C80_apart.
Example C80_apart_example : apart 1 (mg_nodes (merge 1 work)).
Proof. apply C80_apart. intros b [<-|[]]. cbn [post gb_start gb_end]. rewrite post_length. lra. Qed.

(** C80. False without that condition: both ends of a beam are looked up before either is added, so a
    short beam gets two nodes closer than the tolerance. *)
Theorem C80_short_refuted : exists tol d, 0 < tol /\ ~ apart tol (mg_nodes (merge tol d)).
Proof. exact c80_short_refuted. Qed.
Print Assumptions C80_short_refuted.
Example C80_short_refuted_example : distance origin (V3 0 0 (1/2)) < 1.
Proof.
  unfold distance, origin. cbn [vx vy vz]. replace ((0-0)^2 + (0-0)^2 + (0-1/2)^2) with ((1/2) * (1/2)) by field. rewrite sqrt_square; lra.
Qed.

(** C81. If in the drawing one name is one node and no name begins with gen_, the nodes of the model have
    different names. *)
Theorem C81_names tol d : 0 < tol -> well_named d -> NoDup (map gn_name (mg_nodes (merge tol d))).
Proof. exact (c81_names tol d). Qed.
Print Assumptions C81_names.
Example C81_names_example : well_named work /\ NoDup (map gn_name (mg_nodes (merge 1 work))).
Proof. split; [apply post_named|]. apply C81_names; [lra|apply post_named]. Qed.

(** C81. False for the names the repository's own components give: two node components both count from
    1, and the later node takes the name; no node is left where the restraint was drawn. *)
Theorem C81_nodes_refuted : exists tol d lines, 0 < tol /\ script "Meters" "N" tol d = Some lines /\ callable lines
  /\ (exists r, dr_rests d = [r] /\ gn_pt (gr_node r) = V3 0 0 0)
  /\ forall ext x, answer ext (final ext init (executed lines)) (OpNodeLocation x) <> RVec3 (V3 0 0 0).
Proof. exact c81_refuted. Qed.
Print Assumptions C81_nodes_refuted.
Example C81_nodes_refuted_example : map gn_name (mg_nodes (merge 1 twice)) = ["1"; "1"].
Proof. rewrite twice_nodes. reflexivity. Qed.

(** C81. Likewise two beam components both count from 0: the first beam is connected to the nodes of the
    second. *)
Theorem C81_beams_refuted : exists tol d b, 0 < tol /\ In b (dr_beams d) /\ ~ joined tol (mg_nodes (merge tol d)) (mg_conn (merge tol d)) b.
Proof. exact c81_beams_refuted. Qed.
Print Assumptions C81_beams_refuted.
Example C81_beams_refuted_example : map gb_name (dr_beams two_posts) = ["0"; "0"].
Proof. reflexivity. Qed.

(** C82. The script is written and every line of it can be called, if the units are known, the beams
    have different names, the materials carry a coefficient of expansion and the sections are
    general, I or rectangular. *)
Theorem C82_runs us fu tol d sc fs : gh_scale us = Some sc -> gh_fscale fu = Some fs -> distinct_beams d ->
  (forall b, In b (dr_beams d) -> gm_a (gs_mat (gb_sec b)) <> None) ->
  (forall b, In b (dr_beams d) -> match gs_shape (gb_sec b) with SGeneral _ _ _ _ _ _ | SI _ _ _ _ | SRectangle _ _ => True | _ => False end) ->
  exists lines, script us fu tol d = Some lines /\ callable lines.
Proof. exact (c82_runs us fu tol d sc fs). Qed.
Print Assumptions C82_runs.
Example C82_runs_example : exists lines, script "Millimeters" "N" 1 work = Some lines /\ callable lines.
Proof. apply (C82_runs _ _ _ _ (1/1000) 1); [reflexivity|reflexivity|apply post_distinct| |]; intros b [<-|[]]; [discriminate|exact I]. Qed.

(** C82. After the script a beam of the drawing is either missing or connects two nodes that stand where
    its ends are drawn, in metres, and has the section stored under the name of its section. *)
Theorem C82_beam ext us fu tol d lines sc b : script us fu tol d = Some lines -> callable lines -> gh_scale us = Some sc ->
  0 < tol -> well_named d -> distinct_beams d -> In b (dr_beams d) ->
  let w := final ext init (executed lines) in
  answer ext w (OpBeamNodeNames (gb_name b)) = RNone
  \/ exists x y bm p, answer ext w (OpBeamNodeNames (gb_name b)) = RNames [x; y]
     /\ stands ext w tol sc x (gb_start b) /\ stands ext w tol sc y (gb_end b)
     /\ dget (gb_name b) (f_beams (k_fem (w_core w))) = Some bm /\ b_prop bm = PSection p
     /\ dget (gs_name (gb_sec b)) (f_bsecs (k_fem (w_core w))) = Some p.
Proof. exact (c82_beam ext us fu tol d lines sc b). Qed.
Print Assumptions C82_beam.
Example C82_beam_example : exists lines, script "Millimeters" "N" 1 work = Some lines /\ callable lines /\ gh_scale "Millimeters" = Some (1/1000)
  /\ well_named work /\ distinct_beams work /\ In (post (tube work_shape)) (dr_beams work).
Proof.
  destruct C82_runs_example as (lines & HS & HC). exists lines. split; [exact HS|]. split; [exact HC|]. split; [reflexivity|].
  split; [apply post_named|]. split; [apply post_distinct|now left].
Qed.

(** C82. A beam with a general section that is long enough is in the model, and its section and material
    are those drawn, converted to metres and by the force factor, to six decimals. *)
Theorem C82_there ext us fu tol d lines sc fs b A As2 As3 J I2 I3 : script us fu tol d = Some lines -> callable lines ->
  gh_scale us = Some sc -> gh_fscale fu = Some fs -> 0 < tol -> well_named d -> distinct_beams d -> tidy d -> In b (dr_beams d) ->
  gs_shape (gb_sec b) = SGeneral A As2 As3 J I2 I3 -> 2 * tol + 2 / 1000000 / sc <= distance (gb_start b) (gb_end b) ->
  let w := final ext init (executed lines) in exists bm p, dget (gb_name b) (f_beams (k_fem (w_core w))) = Some bm
  /\ b_prop bm = PSection p /\ converted sc fs (gs_mat (gb_sec b)) A As2 As3 J I2 I3 p.
Proof. exact (c82_there ext us fu tol d lines sc fs b A As2 As3 J I2 I3). Qed.
Print Assumptions C82_there.
Example C82_there_example : exists lines, script "Millimeters" "N" 1 work = Some lines /\ callable lines
  /\ forall ext, exists bm p, dget "0" (f_beams (k_fem (w_core (final ext init (executed lines))))) = Some bm
     /\ b_prop bm = PSection p /\ six_decimals (1/100000) (s_I22 p).
Proof.
  destruct C82_runs_example as (lines & HS & HC). exists lines. split; [exact HS|]. split; [exact HC|]. intros ext.
  destruct (C82_there ext "Millimeters" "N" 1 work lines (1/1000) 1 (post (tube work_shape)) 10000 0 0 20000000 10000000 10000000 HS HC eq_refl eq_refl
    ltac:(lra) (post_named _ _) (post_distinct _ _) (post_tidy _ _) (or_introl eq_refl) eq_refl) as (bm & p & E & P & (_ & _ & _ & _ & S & _)).
  { cbn [post gb_start gb_end]. rewrite post_length. lra. }
  exists bm, p. split; [exact E|]. split; [exact P|]. replace (1/100000) with (10000000 * (1/1000)^4) by field. exact S.
Qed.

(** C82. So is a long enough beam with a rectangular section: its area and second moments are those of
    the rectangle whose sizes are the drawn ones in metres, to six decimals. *)
Theorem C82_there_rectangle ext us fu tol d lines sc fs b h bw : script us fu tol d = Some lines -> callable lines ->
  gh_scale us = Some sc -> gh_fscale fu = Some fs -> 0 < tol -> well_named d -> distinct_beams d -> tidy d -> In b (dr_beams d) ->
  gs_shape (gb_sec b) = SRectangle h bw -> 1 / 1000000 <= h * sc -> 1 / 1000000 <= bw * sc ->
  2 * tol + 2 / 1000000 / sc <= distance (gb_start b) (gb_end b) ->
  let w := final ext init (executed lines) in exists bm p h' b', dget (gb_name b) (f_beams (k_fem (w_core w))) = Some bm
  /\ b_prop bm = PSection p /\ stuff sc fs (gs_mat (gb_sec b)) (s_mat p) /\ six_decimals (h * sc) h' /\ six_decimals (bw * sc) b'
  /\ s_A p = area [Part b' h' 0 0] /\ s_I22 p = inertia_width [Part b' h' 0 0] /\ s_I33 p = inertia_height [Part b' h' 0 0].
Proof. exact (c82_there_rectangle ext us fu tol d lines sc fs b h bw). Qed.
Print Assumptions C82_there_rectangle.
Example C82_there_rectangle_example : let d := post_drawing (SRectangle 300 200) (0, 0, 5, 0, 0, 0) in
  exists lines, script "Millimeters" "N" 1 d = Some lines /\ callable lines
  /\ forall ext, exists bm p h' b', dget "0" (f_beams (k_fem (w_core (final ext init (executed lines))))) = Some bm
     /\ b_prop bm = PSection p /\ six_decimals (3/10) h' /\ six_decimals (2/10) b' /\ s_I33 p = inertia_height [Part b' h' 0 0].
Proof.
  intros d. destruct (C82_runs "Millimeters" "N" 1 d (1/1000) 1) as (lines & HS & HC); [reflexivity|reflexivity|apply post_distinct| | |];
    try (intros b [<-|[]]; [discriminate || exact I]).
  exists lines. split; [exact HS|]. split; [exact HC|]. intros ext.
  destruct (C82_there_rectangle ext "Millimeters" "N" 1 d lines (1/1000) 1 (post (tube (SRectangle 300 200))) 300 200 HS HC eq_refl eq_refl
    ltac:(lra) (post_named _ _) (post_distinct _ _) (post_tidy _ _) (or_introl eq_refl) eq_refl) as (bm & p & h' & b' & E & P & _ & Hh & Hb & _ & _ & I3); [lra|lra| |].
  { cbn [post gb_start gb_end]. rewrite post_length. lra. }
  exists bm, p, h', b'. split; [exact E|]. split; [exact P|].
  replace (3/10) with (300 * (1/1000)) by field. replace (2/10) with (200 * (1/1000)) by field. auto.
Qed.

(** C82. And one with an I section, whose area and strong second moment are those of its flanges and web;
    the weak one has the excess of C43. *)
Theorem C82_there_I ext us fu tol d lines sc fs b h bw tw tf : script us fu tol d = Some lines -> callable lines ->
  gh_scale us = Some sc -> gh_fscale fu = Some fs -> 0 < tol -> well_named d -> distinct_beams d -> tidy d -> In b (dr_beams d) ->
  gs_shape (gb_sec b) = SI h bw tw tf -> 1 / 1000000 <= tw * sc -> tw * sc + 1 / 1000000 <= bw * sc -> 1 / 1000000 <= tf * sc ->
  2 * (tf * sc) + 2 / 1000000 <= h * sc ->
  2 * tol + 2 / 1000000 / sc <= distance (gb_start b) (gb_end b) ->
  let w := final ext init (executed lines) in exists bm p h' b' tw' tf', dget (gb_name b) (f_beams (k_fem (w_core w))) = Some bm
  /\ b_prop bm = PSection p /\ stuff sc fs (gs_mat (gb_sec b)) (s_mat p) /\ six_decimals (h * sc) h' /\ six_decimals (bw * sc) b'
  /\ six_decimals (tw * sc) tw' /\ six_decimals (tf * sc) tf'
  /\ s_A p = area (I_parts h' b' tw' tf') /\ s_I33 p = inertia_height (I_parts h' b' tw' tf')
  /\ s_I22 p = inertia_width (I_parts h' b' tw' tf') + tf' * tw' ^ 3 / 6.
Proof. exact (c82_there_I ext us fu tol d lines sc fs b h bw tw tf). Qed.
Print Assumptions C82_there_I.
Example C82_there_I_example : let d := post_drawing (SI 300 200 10 15) (0, 0, 5, 0, 0, 0) in
  exists lines, script "Millimeters" "N" 1 d = Some lines /\ callable lines
  /\ forall ext, exists bm p h' b' tw' tf', dget "0" (f_beams (k_fem (w_core (final ext init (executed lines))))) = Some bm
     /\ b_prop bm = PSection p /\ six_decimals (1/100) tw' /\ six_decimals (15/1000) tf' /\ s_I33 p = inertia_height (I_parts h' b' tw' tf').
Proof.
  intros d. destruct (C82_runs "Millimeters" "N" 1 d (1/1000) 1) as (lines & HS & HC); [reflexivity|reflexivity|apply post_distinct| | |];
    try (intros b [<-|[]]; [discriminate || exact I]).
  exists lines. split; [exact HS|]. split; [exact HC|]. intros ext.
  destruct (C82_there_I ext "Millimeters" "N" 1 d lines (1/1000) 1 (post (tube (SI 300 200 10 15))) 300 200 10 15 HS HC eq_refl eq_refl
    ltac:(lra) (post_named _ _) (post_distinct _ _) (post_tidy _ _) (or_introl eq_refl) eq_refl)
    as (bm & p & h' & b' & tw' & tf' & E & P & _ & _ & _ & Hw & Hf & _ & I3 & _); [lra|lra|lra|lra| |].
  { cbn [post gb_start gb_end]. rewrite post_length. lra. }
  exists bm, p, h', b', tw', tf'. split; [exact E|]. split; [exact P|].
  replace (1/100) with (10 * (1/1000)) by field. replace (15/1000) with (15 * (1/1000)) by field. auto.
Qed.

(** C82. After the script the restraints drawn at a point are those of a node standing there, unless a
    later entry lies within twice the tolerance. *)
Theorem C82_restraint ext us fu tol d lines sc l1 r l2 : script us fu tol d = Some lines -> callable lines -> gh_scale us = Some sc ->
  0 < tol -> well_named d -> dr_rests d = l1 ++ r :: l2 ->
  (forall r', In r' l2 -> 2 * tol <= distance (gn_pt (gr_node r)) (gn_pt (gr_node r'))) ->
  let w := final ext init (executed lines) in exists x rows, stands ext w tol sc x (gn_pt (gr_node r))
  /\ answer ext w (OpNodeRestraints None) = RFlags rows /\ dget x rows = Some (as_list (gr_flags r)).
Proof. exact (c82_rest ext us fu tol d lines sc l1 r l2). Qed.
Print Assumptions C82_restraint.
Example C82_restraint_example : exists lines, script "Millimeters" "N" 1 work = Some lines /\ callable lines /\ forall ext,
  let w := final ext init (executed lines) in exists x rows, stands ext w 1 (1/1000) x origin
  /\ answer ext w (OpNodeRestraints None) = RFlags rows /\ dget x rows = Some [true; true; true; true; true; true].
Proof.
  destruct C82_runs_example as (lines & HS & HC). exists lines. split; [exact HS|]. split; [exact HC|]. intros ext w.
  exact (C82_restraint ext "Millimeters" "N" 1 work lines (1/1000) [] (GRest (GNode "1" origin) all_fixed) [] HS HC eq_refl ltac:(lra) (post_named _ _) eq_refl ltac:(intros ? [])).
Qed.

(** C82. After the script the load pattern pat1 holds, at a node standing at the drawn point, the drawn
    forces times the force factor and the moments times its square, to six decimals. *)
Theorem C82_load ext us fu tol d lines sc fs l1 r l2 f1 f2 f3 m1 m2 m3 : script us fu tol d = Some lines -> callable lines -> gh_scale us = Some sc ->
  gh_fscale fu = Some fs -> 0 < tol -> well_named d -> dr_loads d = l1 ++ r :: l2 -> gl_f r = (f1, f2, f3, m1, m2, m3) ->
  (forall r', In r' l2 -> 2 * tol <= distance (gn_pt (gl_node r)) (gn_pt (gl_node r'))) ->
  let w := final ext init (executed lines) in exists x g1 g2 g3 h1 h2 h3, stands ext w tol sc x (gn_pt (gl_node r))
  /\ answer ext w (OpGetNodalLoad "pat1" x) = RVec [g1; g2; g3; h1; h2; h3]
  /\ six_decimals (f1 * fs) g1 /\ six_decimals (f2 * fs) g2 /\ six_decimals (f3 * fs) g3
  /\ six_decimals (m1 * fs^2) h1 /\ six_decimals (m2 * fs^2) h2 /\ six_decimals (m3 * fs^2) h3.
Proof. exact (c82_load ext us fu tol d lines sc fs l1 r l2 f1 f2 f3 m1 m2 m3). Qed.
Print Assumptions C82_load.
Example C82_load_example : exists lines, script "Millimeters" "N" 1 work = Some lines /\ callable lines /\ forall ext,
  let w := final ext init (executed lines) in exists x g1 g2 g3 h1 h2 h3, stands ext w 1 (1/1000) x (V3 0 0 3000)
  /\ answer ext w (OpGetNodalLoad "pat1" x) = RVec [g1; g2; g3; h1; h2; h3] /\ six_decimals (5 * 1) g3.
Proof.
  destruct C82_runs_example as (lines & HS & HC). exists lines. split; [exact HS|]. split; [exact HC|]. intros ext w.
  destruct (C82_load ext "Millimeters" "N" 1 work lines (1/1000) 1 [] (GLoad (GNode "2" (V3 0 0 3000)) (0, 0, 5, 0, 0, 0)) [] 0 0 5 0 0 0 HS HC eq_refl eq_refl
    ltac:(lra) (post_named _ _) eq_refl eq_refl ltac:(intros ? [])) as (x & g1 & g2 & g3 & h1 & h2 & h3 & ST & AN & _ & _ & S3 & _).
  exists x, g1, g2, g3, h1, h2, h3. auto.
Qed.

(** C82. False for kilonewtons: the factor is 1/1000, so a load of 1 kN is stored as 0.001 N. *)
Theorem C82_kilonewton_refuted : exists d lines r, script "Meters" "KN" (1/1000) d = Some lines /\ callable lines /\ well_named d
  /\ dr_loads d = [r] /\ gl_f r = (1, 0, 0, 0, 0, 0)
  /\ forall ext, exists x, stands ext (final ext init (executed lines)) (1/1000) 1 x (gn_pt (gl_node r))
     /\ answer ext (final ext init (executed lines)) (OpGetNodalLoad "pat1" x) = RVec [1/1000; 0; 0; 0; 0; 0].
Proof. exact c82_kn_refuted. Qed.
Print Assumptions C82_kilonewton_refuted.
Example C82_kilonewton_refuted_example : gh_fscale "KN" = Some (1/1000) /\ 1/1000 <> 1000.
Proof. split; [reflexivity|lra]. Qed.

(** C82. False for moments drawn in millimetres: 1000 N mm, which is 1 N m, is stored as 1000. *)
Theorem C82_moment_refuted : exists d lines r, script "Millimeters" "N" 1 d = Some lines /\ callable lines /\ well_named d
  /\ dr_loads d = [r] /\ gl_f r = (0, 0, 0, 1000, 0, 0)
  /\ forall ext, exists x, stands ext (final ext init (executed lines)) 1 (1/1000) x (gn_pt (gl_node r))
     /\ answer ext (final ext init (executed lines)) (OpGetNodalLoad "pat1" x) = RVec [0; 0; 0; 1000; 0; 0].
Proof. exact c82_moment_refuted. Qed.
Print Assumptions C82_moment_refuted.
Example C82_moment_refuted_example : gh_scale "Millimeters" = Some (1/1000) /\ 1000 * (1/1000) <> 1000.
Proof. split; [reflexivity|lra]. Qed.

(** C82. Six decimals of a metre are not enough for second moments of area: 10000 mm^4 becomes 0 and the
    beam has no bending stiffness. *)
Theorem C82_digits_refuted : exists d lines b A As2 As3 J I3, script "Millimeters" "N" 1 d = Some lines /\ callable lines /\ In b (dr_beams d)
  /\ gs_shape (gb_sec b) = SGeneral A As2 As3 J 10000 I3
  /\ forall ext, exists bm p, dget (gb_name b) (f_beams (k_fem (w_core (final ext init (executed lines))))) = Some bm
     /\ b_prop bm = PSection p /\ s_I22 p = 0.
Proof. exact c82_digits_refuted. Qed.
Print Assumptions C82_digits_refuted.
Example C82_digits_refuted_example : six_decimals (10000 * (1/1000)^4) 0 /\ 10000 * (1/1000)^4 <> 0.
Proof. split; [exists 0%Z; split; lra|lra]. Qed.

(** C82. The repository's own material component makes objects without the coefficient of expansion the
    script needs: with any beam of such a material the component raises before the script is run. *)
Theorem C82_own_material us fu tol d b : tidy d -> In b (dr_beams d) -> gm_a (gs_mat (gb_sec b)) = None -> script us fu tol d = None.
Proof. exact (c82_own_material us fu tol d b). Qed.
Print Assumptions C82_own_material.
Definition own : gmaterial := GMaterial 1 "steel" 7850 200000000000 (3/10) None.
Example C82_own_material_example : script "Meters" "N" 1 (Drawing [] [] [post (GSection 2 "tube" own plain_tube)]) = None.
Proof. apply (C82_own_material _ _ _ _ (post (GSection 2 "tube" own plain_tube))); [|now left|reflexivity]. intros b c [<-|[]] [<-|[]]. repeat split; reflexivity. Qed.

(** C82. A box section is never written (its branch tests for I again): the component raises. *)
Theorem C82_box us fu tol d b h w tw tf : tidy d -> In b (dr_beams d) -> gs_shape (gb_sec b) = SBox h w tw tf -> script us fu tol d = None.
Proof. exact (c82_box us fu tol d b h w tw tf). Qed.
Print Assumptions C82_box.
Example C82_box_example : script "Meters" "N" 1 (post_drawing (SBox 1 1 (1/10) (1/10)) (0, 0, 5, 0, 0, 0)) = None.
Proof. apply (C82_box _ _ _ _ (post (tube (SBox 1 1 (1/10) (1/10)))) 1 1 (1/10) (1/10)); [apply post_tidy|now left|reflexivity]. Qed.

(** C82. A circular or pipe section is written as an I section with too few sizes: the script stops
    there and adds no node. *)
Theorem C82_round us fu tol d b lines : tidy d -> In b (dr_beams d) ->
  (exists dd, gs_shape (gb_sec b) = SCircle dd) \/ (exists dd t, gs_shape (gb_sec b) = SPipe dd t) ->
  script us fu tol d = Some lines -> forall n x y z, ~ In (OpAddNode n x y z) (executed lines).
Proof. exact (c82_round us fu tol d b lines). Qed.
Print Assumptions C82_round.
Example C82_round_example : exists lines, script "Meters" "N" 1 (post_drawing (SCircle 1) (0, 0, 5, 0, 0, 0)) = Some lines
  /\ forall n x y z, ~ In (OpAddNode n x y z) (executed lines).
Proof.
  set (d := post_drawing (SCircle 1) (0, 0, 5, 0, 0, 0)).
  assert (X : exists lines, script "Meters" "N" 1 d = Some lines).
  { unfold script. cbn [gh_scale gh_fscale String.eqb Ascii.eqb Bool.eqb bindO].
    destruct (C80_ends 1 d (post (tube (SCircle 1))) (post_distinct _ _) (or_introl eq_refl)) as (i & j & a & c & D & A & _ & C & _).
    assert (B : exists r, mapM (beam_line (mg_nodes (merge 1 d)) (mg_conn (merge 1 d))) (dr_beams d) = Some r).
    { change (dr_beams d) with [post (tube (SCircle 1))]. cbn [mapM]. unfold beam_line. rewrite D. cbn [bindO fst snd]. rewrite A. cbn [bindO]. rewrite C.
      eexists. reflexivity. }
    destruct B as (r & B). rewrite B. eexists. reflexivity. }
  destruct X as (lines & X). exists lines. split; [exact X|].
  apply (C82_round "Meters" "N" 1 d (post (tube (SCircle 1))) lines); [apply post_tidy|now left|left; eexists; reflexivity|exact X].
Qed.
