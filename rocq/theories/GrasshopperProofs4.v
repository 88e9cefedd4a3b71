(** When the script can be written and run, and where the component goes wrong (C80-C82). *)
From Coq Require Import Reals Lra Lia List String Arith Bool ZArith.
From Verif Require Import Base BaseFacts Csys Sections Element Load FeModel Assembly Solver Post Api SpecApi ApiFacts WfFacts HidFacts LoadFacts
  SpecGeom CsysFacts SpecBeam BeamFacts AsmFacts SpecAsm AsmProofs AsmTotal AsmProofs2 AsmProofs3 SpecLoad LoadProofs SpecTold ToldProofs SpecToldLoad ToldLoadProofs
  Demo Grasshopper SpecGrasshopper GrasshopperProofs GrasshopperProofs2 GrasshopperProofs3.
Import ListNotations.
Local Open Scope R_scope.

Lemma mapM_some {A B} (f : A -> option B) (Q : B -> Prop) l : (forall x, In x l -> exists y, f x = Some y /\ Q y) -> exists r, mapM f l = Some r /\ Forall Q r.
Proof.
  induction l as [|x r IH]; intros H; [exists []; split; [reflexivity|constructor]|].
  destruct (H x (or_introl eq_refl)) as (y & E & Y). destruct IH as (ys & E' & Ys); [intros z I; apply H; now right|].
  exists (y :: ys). cbn [mapM]. rewrite E, E'. split; [reflexivity|now constructor].
Qed.
Lemma map_callable {A} (f : A -> line) l : (forall x, f x <> None) -> Forall (fun x => x <> None) (map f l).
Proof. intros H. induction l; constructor; auto. Qed.
Lemma c82_runs us fu tol d sc fs : gh_scale us = Some sc -> gh_fscale fu = Some fs -> distinct_beams d ->
  (forall b, In b (dr_beams d) -> gm_a (gs_mat (gb_sec b)) <> None) ->
  (forall b, In b (dr_beams d) -> match gs_shape (gb_sec b) with SGeneral _ _ _ _ _ _ | SI _ _ _ _ | SRectangle _ _ => True | _ => False end) ->
  exists lines, script us fu tol d = Some lines /\ callable lines.
Proof.
  intros ES EF DB HM HS. unfold script. rewrite ES, EF. cbn [bindO].
  destruct (mapM_some (material_line sc fs) (fun x => x <> None) (materials_of d)) as (ms & -> & Cm).
  { intros m I. destruct (materials_drawn _ _ I) as (b & B & <-). unfold material_line. specialize (HM b B).
    destruct (gm_a (gs_mat (gb_sec b))); [eexists; split; [reflexivity|discriminate]|congruence]. }
  destruct (mapM_some (section_line sc) (fun x => x <> None) (sections_of d)) as (ss & -> & Cs).
  { intros s I. destruct (sections_drawn _ _ I) as (b & B & <-). unfold section_line. specialize (HS b B).
    destruct (gs_shape (gb_sec b)); try contradiction; eexists; (split; [reflexivity|discriminate]). }
  destruct (mapM_some (beam_line (mg_nodes (merge tol d)) (mg_conn (merge tol d))) (fun x => x <> None) (dr_beams d)) as (bs & -> & Cb).
  { intros b B. destruct (c80_ends tol d b DB B) as (i & j & a & c & D & A & _ & C & _). unfold beam_line. rewrite D. cbn [bindO fst snd]. rewrite A. cbn [bindO]. rewrite C.
    eexists; split; [reflexivity|discriminate]. }
  cbn [bindO]. eexists. split; [reflexivity|].
  assert (F : forall l, Forall (fun x : line => x <> None) l -> callable l) by (intros l F I; rewrite Forall_forall in F; exact (F _ I eq_refl)).
  apply F. repeat (apply Forall_app; split); try assumption.
  - apply map_callable. discriminate.
  - repeat constructor; discriminate.
  - apply map_callable. intros x. rewrite load_line_op. discriminate.
  - apply map_callable. discriminate.
  - repeat constructor; discriminate.
Qed.
Lemma mapM_none {A B} (f : A -> option B) l x : In x l -> f x = None -> mapM f l = None.
Proof.
  induction l as [|y r IH]; intros I E; [contradiction|]. cbn [mapM]. destruct I as [->|I]; [now rewrite E|]. destruct (f y); [|reflexivity]. now rewrite IH.
Qed.
Lemma c82_own_material us fu tol d b : tidy d -> In b (dr_beams d) -> gm_a (gs_mat (gb_sec b)) = None -> script us fu tol d = None.
Proof.
  intros T B E. unfold script. destruct (gh_scale us) as [sc|]; [|reflexivity]. destruct (gh_fscale fu) as [fs|]; [|reflexivity]. cbn [bindO].
  rewrite (mapM_none _ _ _ (materials_all d b T B)); [reflexivity|]. unfold material_line. now rewrite E.
Qed.
Lemma c82_box us fu tol d b h w tw tf : tidy d -> In b (dr_beams d) -> gs_shape (gb_sec b) = SBox h w tw tf -> script us fu tol d = None.
Proof.
  intros T B E. unfold script. destruct (gh_scale us) as [sc|]; [|reflexivity]. destruct (gh_fscale fu) as [fs|]; [|reflexivity]. cbn [bindO].
  destruct (mapM (material_line sc fs) (materials_of d)); [|reflexivity]. cbn [bindO].
  rewrite (mapM_none _ _ _ (sections_all d b T B)); [reflexivity|]. unfold section_line. now rewrite E.
Qed.
Lemma executed_stop a r : executed (a ++ None :: r) = executed a.
Proof. induction a as [|[o|] l IH]; cbn [app executed]; [reflexivity|now rewrite IH|reflexivity]. Qed.
Lemma c82_round us fu tol d b lines : tidy d -> In b (dr_beams d) ->
  (exists dd, gs_shape (gb_sec b) = SCircle dd) \/ (exists dd t, gs_shape (gb_sec b) = SPipe dd t) ->
  script us fu tol d = Some lines -> forall n x y z, ~ In (OpAddNode n x y z) (executed lines).
Proof.
  intros T B SH HS n x y z I. unfold script in HS. destruct (gh_scale us) as [sc|]; [|discriminate]. destruct (gh_fscale fu) as [fs|]; [|discriminate]. cbn [bindO] in HS.
  destruct (mapM (material_line sc fs) (materials_of d)) as [ms|] eqn:M; [|discriminate]. cbn [bindO] in HS.
  destruct (mapM (section_line sc) (sections_of d)) as [ss|] eqn:S; [|discriminate]. cbn [bindO] in HS.
  destruct (mapM (beam_line _ _) (dr_beams d)) as [bs|]; [|discriminate]. cbn [bindO] in HS. apply some_inj in HS. subst lines.
  assert (NS : In None ss).
  { pose proof (sections_all d b T B) as J. clear - S J SH. revert ss S. induction (sections_of d) as [|s r IH]; intros ss S; [contradiction|]. cbn [mapM] in S.
    destruct (section_line sc s) as [l|] eqn:E; [|discriminate]. destruct (mapM (section_line sc) r) as [ls|]; [|discriminate]. apply some_inj in S. subst ss.
    destruct J as [->|J]; [left|right; now apply IH]. unfold section_line in E.
    destruct SH as [(dd & G)|(dd & t & G)]; rewrite G in E; now apply some_inj in E. }
  assert (K : forall q o, In o (executed q) -> In (Some o) q) by (clear; intros q o; induction q as [|[x|] q IH]; cbn; [tauto|intros [->|X]; auto|tauto]).
  apply in_split in NS. destruct NS as (l1 & l2 & E). rewrite E, <- (app_assoc l1) in I. cbn [app] in I. rewrite app_assoc, executed_stop in I.
  apply K in I. apply in_app_or in I. destruct I as [I|I].
  - clear - M I. revert ms M I. induction (materials_of d) as [|m r IH]; intros ms M I; [apply some_inj in M; subst; contradiction|]. cbn [mapM] in M.
    destruct (material_line sc fs m) as [l|] eqn:E; [|discriminate]. destruct (mapM (material_line sc fs) r) as [ls|]; [|discriminate]. apply some_inj in M. subst ms.
    destruct I as [->|I]; [|now apply (IH ls)]. destruct (material_op _ _ _ _ E) as (? & ? & ? & ? & ?). discriminate.
  - assert (I' : In (Some (OpAddNode n x y z)) ss) by (rewrite E; apply in_or_app; now left).
    clear - S I'. revert ss S I'. induction (sections_of d) as [|s r IH]; intros ss S I; [apply some_inj in S; subst; contradiction|]. cbn [mapM] in S.
    destruct (section_line sc s) as [l|] eqn:E; [|discriminate]. destruct (mapM (section_line sc) r) as [ls|]; [|discriminate]. apply some_inj in S. subst ss.
    destruct I as [->|I]; [|now apply (IH ls)]. destruct (section_op _ _ _ E) as [(a&b&c&d0&e&f&g&h&?)|[(a&b&c&d0&?)|(a&b&?)]]; discriminate.
Qed.

(** ** Witnesses *)
Definition origin : vec3 := V3 0 0 0.
Definition metal : gmaterial := GMaterial 1 "steel" 7850 200000000000 (3/10) (Some 0).
Definition tube (shape : gshape) : gsection := GSection 2 "tube" metal shape.
Definition post (s : gsection) : gbeam := GBeam "0" origin (V3 0 0 3000) s.
Definition all_fixed : six bool := (true, true, true, true, true, true).
(** A post, fixed at the foot, loaded at the head. *)
Definition post_drawing (shape : gshape) (f : six R) : drawing :=
  Drawing [GLoad (GNode "2" (V3 0 0 3000)) f] [GRest (GNode "1" origin) all_fixed] [post (tube shape)].
Lemma post_named shape f : well_named (post_drawing shape f).
Proof.
  split.
  - intros a b [<-|[<-|[]]] [<-|[<-|[]]] E; try reflexivity; discriminate.
  - intros a k [<-|[<-|[]]]; discriminate.
Qed.
Lemma post_distinct shape f : distinct_beams (post_drawing shape f).
Proof. repeat constructor. intros []. Qed.
Lemma post_tidy shape f : tidy (post_drawing shape f).
Proof. intros b c [<-|[]] [<-|[]]. repeat split; reflexivity. Qed.
Lemma post_runs us fu tol A As2 As3 J I2 I3 f sc fs : gh_scale us = Some sc -> gh_fscale fu = Some fs ->
  exists lines, script us fu tol (post_drawing (SGeneral A As2 As3 J I2 I3) f) = Some lines /\ callable lines.
Proof.
  intros ES EF. apply (c82_runs us fu tol _ sc fs ES EF (post_distinct _ _)); intros b [<-|[]]; [discriminate|exact I].
Qed.
Lemma six_exact k : six_decimals (IZR k / 1000000) (IZR k / 1000000).
Proof. exists k. split; [reflexivity|]. lra. Qed.
Lemma six_is x y k : six_decimals x y -> x = IZR k / 1000000 -> y = x.
Proof. intros H E. apply (six_unique x); [exact H|]. rewrite E. apply six_exact. Qed.

(** one kilonewton *)
Definition plain_tube : gshape := SGeneral (1/100) 0 0 (1/10000) (1/10000) (1/10000).
Lemma c82_kn_refuted : exists d lines r, script "Meters" "KN" (1/1000) d = Some lines /\ callable lines /\ well_named d
  /\ dr_loads d = [r] /\ gl_f r = (1, 0, 0, 0, 0, 0)
  /\ forall ext, exists x, stands ext (final ext init (executed lines)) (1/1000) 1 x (gn_pt (gl_node r))
     /\ answer ext (final ext init (executed lines)) (OpGetNodalLoad "pat1" x) = RVec [1/1000; 0; 0; 0; 0; 0].
Proof.
  set (f := (1, 0, 0, 0, 0, 0) : six R). set (d := post_drawing plain_tube f).
  destruct (post_runs "Meters" "KN" (1/1000) (1/100) 0 0 (1/10000) (1/10000) (1/10000) f _ _ eq_refl eq_refl) as (lines & HS & HC).
  exists d, lines, (GLoad (GNode "2" (V3 0 0 3000)) f). split; [exact HS|]. split; [exact HC|]. split; [apply post_named|]. split; [reflexivity|]. split; [reflexivity|].
  intros ext. destruct (c82_load ext "Meters" "KN" (1/1000) d lines 1 (1/1000) [] (GLoad (GNode "2" (V3 0 0 3000)) f) [] 1 0 0 0 0 0 HS HC eq_refl eq_refl
    ltac:(lra) (post_named _ _) eq_refl eq_refl ltac:(intros ? [])) as (x & g1 & g2 & g3 & h1 & h2 & h3 & ST & AN & S1 & S2 & S3 & S4 & S5 & S6).
  exists x. split; [exact ST|]. rewrite AN.
  pose proof (six_is _ _ 1000 S1 ltac:(lra)). pose proof (six_is _ _ 0 S2 ltac:(lra)). pose proof (six_is _ _ 0 S3 ltac:(lra)).
  pose proof (six_is _ _ 0 S4 ltac:(lra)). pose proof (six_is _ _ 0 S5 ltac:(lra)). pose proof (six_is _ _ 0 S6 ltac:(lra)). subst.
  apply (f_equal RVec). repeat (apply f_equal2; [lra|]). reflexivity.
Qed.
(** a moment in newton millimetres *)
Lemma c82_moment_refuted : exists d lines r, script "Millimeters" "N" 1 d = Some lines /\ callable lines /\ well_named d
  /\ dr_loads d = [r] /\ gl_f r = (0, 0, 0, 1000, 0, 0)
  /\ forall ext, exists x, stands ext (final ext init (executed lines)) 1 (1/1000) x (gn_pt (gl_node r))
     /\ answer ext (final ext init (executed lines)) (OpGetNodalLoad "pat1" x) = RVec [0; 0; 0; 1000; 0; 0].
Proof.
  set (f := (0, 0, 0, 1000, 0, 0) : six R). set (d := post_drawing plain_tube f).
  destruct (post_runs "Millimeters" "N" 1 (1/100) 0 0 (1/10000) (1/10000) (1/10000) f _ _ eq_refl eq_refl) as (lines & HS & HC).
  exists d, lines, (GLoad (GNode "2" (V3 0 0 3000)) f). split; [exact HS|]. split; [exact HC|]. split; [apply post_named|]. split; [reflexivity|]. split; [reflexivity|].
  intros ext. destruct (c82_load ext "Millimeters" "N" 1 d lines (1/1000) 1 [] (GLoad (GNode "2" (V3 0 0 3000)) f) [] 0 0 0 1000 0 0 HS HC eq_refl eq_refl
    ltac:(lra) (post_named _ _) eq_refl eq_refl ltac:(intros ? [])) as (x & g1 & g2 & g3 & h1 & h2 & h3 & ST & AN & S1 & S2 & S3 & S4 & S5 & S6).
  exists x. split; [exact ST|]. rewrite AN.
  pose proof (six_is _ _ 0 S1 ltac:(lra)). pose proof (six_is _ _ 0 S2 ltac:(lra)). pose proof (six_is _ _ 0 S3 ltac:(lra)).
  pose proof (six_is _ _ 1000000000 S4 ltac:(lra)). pose proof (six_is _ _ 0 S5 ltac:(lra)). pose proof (six_is _ _ 0 S6 ltac:(lra)). subst.
  apply (f_equal RVec). repeat (apply f_equal2; [lra|]). reflexivity.
Qed.
(** a second moment of area of 10000 mm^4 *)
Lemma post_length : distance origin (V3 0 0 3000) = 3000.
Proof.
  unfold distance, origin. cbn [vx vy vz]. replace ((0-0)^2 + (0-0)^2 + (0-3000)^2) with (3000 * 3000) by ring. apply sqrt_square. lra.
Qed.
Lemma c82_digits_refuted : exists d lines b A As2 As3 J I3, script "Millimeters" "N" 1 d = Some lines /\ callable lines /\ In b (dr_beams d)
  /\ gs_shape (gb_sec b) = SGeneral A As2 As3 J 10000 I3
  /\ forall ext, exists bm p, dget (gb_name b) (f_beams (k_fem (w_core (final ext init (executed lines))))) = Some bm
     /\ b_prop bm = PSection p /\ s_I22 p = 0.
Proof.
  set (f := (0, 0, 0, 0, 0, 0) : six R). set (d := post_drawing (SGeneral 100 0 0 20000 10000 10000) f).
  destruct (post_runs "Millimeters" "N" 1 100 0 0 20000 10000 10000 f _ _ eq_refl eq_refl) as (lines & HS & HC).
  exists d, lines, (post (tube (SGeneral 100 0 0 20000 10000 10000))), 100, 0, 0, 20000, 10000.
  split; [exact HS|]. split; [exact HC|]. split; [now left|]. split; [reflexivity|]. intros ext.
  destruct (c82_there ext "Millimeters" "N" 1 d lines (1/1000) 1 (post (tube (SGeneral 100 0 0 20000 10000 10000))) 100 0 0 20000 10000 10000 HS HC eq_refl eq_refl
    ltac:(lra) (post_named _ _) (post_distinct _ _) (post_tidy _ _) (or_introl eq_refl) eq_refl) as (bm & p & E & P & (_ & _ & _ & _ & S & _)).
  { cbn [post gb_start gb_end]. rewrite post_length. lra. }
  exists bm, p. split; [exact E|]. split; [exact P|]. apply (six_unique (10000 * (1/1000)^4)); [exact S|]. exists 0%Z. split; lra.
Qed.
(** a beam shorter than the tolerance *)
Lemma c80_short_refuted : exists tol d, 0 < tol /\ ~ apart tol (mg_nodes (merge tol d)).
Proof.
  exists 1, (Drawing [] [] [GBeam "0" origin (V3 0 0 (1/2)) (tube plain_tube)]). split; [lra|]. intros A.
  specialize (A 0%nat 1%nat _ _ ltac:(discriminate) eq_refl eq_refl). cbn [gn_pt] in A. revert A. unfold distance, origin. cbn [gb_start gb_end vx vy vz].
  replace ((0-0)^2 + (0-0)^2 + (0-1/2)^2) with ((1/2) * (1/2)) by field. rewrite sqrt_square by lra. lra.
Qed.
(** two node components that both count from one *)
Definition twice : drawing := Drawing [GLoad (GNode "1" (V3 10 0 0)) (0, 0, 1, 0, 0, 0)] [GRest (GNode "1" origin) all_fixed] [].
Lemma twice_nodes : mg_nodes (merge 1 twice) = [GNode "1" origin; GNode "1" (V3 10 0 0)].
Proof.
  unfold merge, twice. cbn [dr_rests dr_loads dr_beams map app place_all place find_pt gr_node gl_node gn_pt].
  assert (E : Rltb (norm (vsub (V3 10 0 0) origin)) 1 = false).
  { apply Rltb_false. rewrite norm_distance. unfold distance, origin. cbn [vx vy vz].
    replace ((10-0)^2 + (0-0)^2 + (0-0)^2) with (10 * 10) by ring. rewrite sqrt_square; lra. }
  unfold place. cbn [find_pt gn_pt app]. rewrite E. reflexivity.
Qed.
Lemma c81_refuted : exists tol d lines, 0 < tol /\ script "Meters" "N" tol d = Some lines /\ callable lines
  /\ (exists r, dr_rests d = [r] /\ gn_pt (gr_node r) = V3 0 0 0)
  /\ forall ext x, answer ext (final ext init (executed lines)) (OpNodeLocation x) <> RVec3 (V3 0 0 0).
Proof.
  destruct (c82_runs "Meters" "N" 1 twice 1 1 eq_refl eq_refl) as (lines & HS & HC); [constructor|intros b []|intros b []|].
  exists 1, twice, lines. split; [lra|]. split; [exact HS|]. split; [exact HC|]. split; [eexists; split; reflexivity|]. intros ext x.
  destruct (script_parts _ _ _ _ _ HS HC) as (sc & fs & ms & ss & bs & Es & Ef & Em & Ess & Eb & X).
  apply some_inj in Es. subst sc. apply some_inj in Ef. subst fs. rewrite twice_nodes in X.
  assert (ms = []) as -> by (destruct ms; [reflexivity|discriminate]). assert (ss = []) as -> by (destruct ss; [reflexivity|discriminate]).
  assert (bs = []) as -> by (destruct bs; [reflexivity|discriminate]).
  cbn [app] in X. set (L := map (load_op 1) _) in X. set (Rr := map rest_op _) in X.
  set (N := map (node_op 1) [GNode "1" origin; GNode "1" (V3 10 0 0)]) in X.
  assert (KL : forall P : op -> Prop, (forall n f, P (OpSetNodalLoad "pat1" n f)) -> Forall P L) by (intros P H; apply map_forall; intros; apply H).
  assert (KR : forall P : op -> Prop, (forall n f, P (OpSetRestraint n f)) -> Forall P Rr) by (intros P H; apply map_forall; intros; apply H).
  assert (NL : never_loads (executed lines)).
  { assert (F : Forall (fun o => forall f, o <> OpLoad f) (executed lines)).
    { rewrite X. apply Forall_app. split; [repeat constructor; discriminate|]. apply Forall_app. split; [repeat constructor; discriminate|].
      apply Forall_app. split; [apply KL; discriminate|]. apply Forall_app. split; [apply KR; discriminate|repeat constructor; discriminate]. }
    rewrite Forall_forall in F. intros f I. exact (F _ I f eq_refl). }
  destruct (follow_holds ext _ NL init nothing wwf_init (proj1 agrees_init)) as (_ & H).
  set (w := final ext init (executed lines)) in *. set (t := follow tell ext init (executed lines) nothing) in *.
  assert (T : t_node t = t_node (follow tell ext init N nothing)).
  { unfold t. rewrite X, follow_app. apply (follow_keep t_node). apply Forall_app. split; [repeat constructor; keeps|].
    apply Forall_app. split; [apply KL; keeps|]. apply Forall_app. split; [apply KR; keeps|repeat constructor; keeps]. }
  destruct H as (H & _). specialize (H x). rewrite T in H. unfold N in H. cbn [map follow] in H. rewrite !heard_node in H.
  unfold node_op in H. cbn [tell put_node t_node gn_name gn_pt vx vy vz nothing] in H. unfold answer. cbn [step ret snd]. unfold model_node_location.
  destruct (dget x (f_nodes (k_fem (w_core w)))) as [n|]; cbn [bindO]; [|discriminate]. cbn [option_map] in H. unfold put in H.
  destruct (String.eqb x "1"); [|discriminate]. apply some_inj in H. injection H as HL _. rewrite HL. intros E. injection E as E _ _.
  assert (Z : fmt (10 * 1) = 10 * 1) by (apply (six_is _ _ 10000000 (fmt_six _)); lra). lra.
Qed.

(** two beam components that both count from zero *)
Lemma far_x tol p n : tol <= Rabs (vx p - vx (gn_pt n)) -> Rltb (norm (vsub p (gn_pt n))) tol = false.
Proof.
  intros H. apply Rltb_false. rewrite norm_distance. eapply Rle_trans; [exact H|]. unfold distance. rewrite <- sqrt_Rsqr_abs.
  apply sqrt_le_1; [apply Rle_0_sqr|apply squares3|]. unfold Rsqr.
  pose proof (pow2_ge_0 (vy p - vy (gn_pt n))). pose proof (pow2_ge_0 (vz p - vz (gn_pt n))). nra.
Qed.
Definition two_posts : drawing := Drawing [] [] [post (tube plain_tube); GBeam "0" (V3 9000 0 0) (V3 9000 0 3000) (tube plain_tube)].
Lemma c81_beams_refuted : exists tol d b, 0 < tol /\ In b (dr_beams d) /\ ~ joined tol (mg_nodes (merge tol d)) (mg_conn (merge tol d)) b.
Proof.
  exists 1, two_posts, (post (tube plain_tube)). split; [lra|]. split; [now left|].
  assert (F : forall y, Rabs y = 9000 -> 1 <= Rabs y) by (intros; lra).
  assert (E1 : find_pt 1 (V3 9000 0 0) [GNode (gen_name 0) origin; GNode (gen_name 1) (V3 0 0 3000)] = None).
  { cbn [find_pt]. rewrite !far_x; [reflexivity| |]; unfold origin; cbn [gn_pt vx]; rewrite Rabs_pos_eq; lra. }
  assert (E2 : find_pt 1 (V3 9000 0 3000) [GNode (gen_name 0) origin; GNode (gen_name 1) (V3 0 0 3000)] = None).
  { cbn [find_pt]. rewrite !far_x; [reflexivity| |]; unfold origin; cbn [gn_pt vx]; rewrite Rabs_pos_eq; lra. }
  assert (M : merge 1 two_posts = Merged [GNode (gen_name 0) origin; GNode (gen_name 1) (V3 0 0 3000); GNode (gen_name 2) (V3 9000 0 0); GNode (gen_name 3) (V3 9000 0 3000)] [] [] [("0"%string, (2, 3)%nat)]).
  { unfold merge, two_posts. cbn [dr_rests dr_loads dr_beams map app place_all]. unfold join_all. cbn [fold_left].
    change (join 1 (post (tube plain_tube)) ([], [])) with ([GNode (gen_name 0) origin; GNode (gen_name 1) (V3 0 0 3000)], [("0"%string, (0, 1)%nat)]).
    unfold join. cbn [gb_start gb_end]. rewrite E1, E2. reflexivity. }
  rewrite M. cbn [mg_nodes mg_conn]. intros (i & j & a & c & D & A & NA & _). apply some_inj in D. injection D as <- <-. apply some_inj in A. subst a.
  cbn [post gb_start gn_pt] in NA. pose proof (proj1 (Rltb_false _ _) (far_x 1 origin (GNode "x" (V3 9000 0 0)) ltac:(cbn; unfold Rminus; rewrite Rplus_0_l, Rabs_Ropp, Rabs_pos_eq; lra))) as G.
  rewrite norm_distance in G. cbn [gn_pt] in G. destruct NA as [E|L]; [|lra]. unfold origin in E. injection E as E. lra.
Qed.
