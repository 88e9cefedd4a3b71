(** The script builds the drawing (C82). *)
From Coq Require Import Reals Lra Lia List String Arith Bool ZArith.
From Verif Require Import Base BaseFacts Csys Sections Element Load FeModel Assembly Solver Post Api SpecApi ApiFacts WfFacts HidFacts LoadFacts
  SpecGeom CsysFacts SpecBeam BeamFacts AsmFacts SpecAsm AsmProofs AsmTotal AsmProofs2 SpecLoad LoadProofs SpecTold ToldProofs SpecToldLoad ToldLoadProofs
  Demo Grasshopper SpecGrasshopper GrasshopperProofs.
Import ListNotations.
Local Open Scope R_scope.

Definition heard {A} (f : op -> A -> A) (ext : externals) (w : world) (o : op) (t : A) : A :=
  match answer ext w o with RBool true => f o t | _ => t end.
Fixpoint follow {A} (f : op -> A -> A) (ext : externals) (w : world) (ops : list op) (t : A) : A :=
  match ops with [] => t | o :: r => follow f ext (after ext w o) r (heard f ext w o t) end.
Lemma follow_app {A} (f : op -> A -> A) ext a : forall w b t,
  follow f ext w (a ++ b) t = follow f ext (final ext w a) b (follow f ext w a t).
Proof. induction a as [|o r IH]; intros w b t; [reflexivity|]. rewrite final_cons. cbn [app follow]. apply IH. Qed.
Lemma follow_keep {A B} (proj : A -> B) (f : op -> A -> A) ext ops : Forall (fun o => forall t, proj (f o t) = proj t) ops ->
  forall w t, proj (follow f ext w ops t) = proj t.
Proof.
  induction 1 as [|o r H _ IH]; intros w t; [reflexivity|]. cbn [follow]. rewrite IH. unfold heard.
  destruct (answer ext w o) as [[|]| | | | | | |]; try reflexivity. apply H.
Qed.
Definition never_loads (ops : list op) : Prop := forall f, ~ In (OpLoad f) ops.
Lemma follow_holds ext ops : never_loads ops -> forall w t, wwf w -> holds (k_fem (w_core w)) t ->
  wwf (final ext w ops) /\ holds (k_fem (w_core (final ext w ops))) (follow tell ext w ops t).
Proof.
  intros NL. induction ops as [|o r IH]; intros w t W H; [auto|]. rewrite final_cons. cbn [follow].
  apply IH; [intros f F; apply (NL f); now right|now apply wwf_step|].
  pose proof (tell_step ext w o t (cw_fem _ (proj1 W)) H) as T. unfold heard.
  assert (forall f, o <> OpLoad f) as N by (intros f ->; apply (NL f); now left). specialize (T N).
  destruct (answer ext w o) as [[|]| | | | | | |]; exact T.
Qed.
Lemma follow_tells ext ops : never_loads ops -> forall w t, wwf w -> tells (w_core w) t ->
  tells (w_core (final ext w ops)) (follow tell_load ext w ops t).
Proof.
  intros NL. induction ops as [|o r IH]; intros w t W H; [auto|]. rewrite final_cons. cbn [follow].
  apply IH; [intros f F; apply (NL f); now right|now apply wwf_step|].
  pose proof (tell_load_step ext w o t (proj1 W) H) as T. unfold heard.
  assert (forall f, o <> OpLoad f) as N by (intros f ->; apply (NL f); now left). specialize (T N).
  destruct (answer ext w o) as [[|]| | | | | | |]; exact T.
Qed.

(** ** The lines of the script *)
Lemma executed_app a b : callable a -> executed (a ++ b) = executed a ++ executed b.
Proof.
  induction a as [|[o|] r IH]; intros C; [reflexivity| |exfalso; apply C; now left].
  cbn [app executed]. f_equal. apply IH. intros I. apply C. now right.
Qed.
Lemma executed_some {A} (f : A -> op) l : executed (map (fun x => Some (f x)) l) = map f l.
Proof. induction l as [|x r IH]; cbn; [reflexivity|now f_equal]. Qed.
Lemma callable_app a b : callable (a ++ b) -> callable a /\ callable b.
Proof. intros C. split; intros I; apply C, in_or_app; auto. Qed.
Lemma executed_in l o : callable l -> In (Some o) l <-> In o (executed l).
Proof.
  induction l as [|[x|] r IH]; intros C; [tauto| |exfalso; apply C; now left].
  assert (C' : callable r) by (intros I; apply C; now right). cbn [executed In]. rewrite (IH C').
  split; (intros [E|I]; [left|right; exact I]); [now apply some_inj in E|now f_equal].
Qed.

Definition node_op (sc : R) (nd : gnode) : op :=
  OpAddNode (gn_name nd) (fmt (vx (gn_pt nd) * sc)) (fmt (vy (gn_pt nd) * sc)) (fmt (vz (gn_pt nd) * sc)).
Definition force_of (fs : R) (l : gload) : six R :=
  match gl_f l with (f1, f2, f3, m1, m2, m3) => (fmt (f1 * fs), fmt (f2 * fs), fmt (f3 * fs), fmt (m1 * fs^2), fmt (m2 * fs^2), fmt (m3 * fs^2)) end.
Definition load_op (fs : R) (nl : gnode * gload) : op := OpSetNodalLoad "pat1" (gn_name (fst nl)) (force_of fs (snd nl)).
Definition rest_op (nr : gnode * grest) : op := OpSetRestraint (gn_name (fst nr)) (gr_flags (snd nr)).
Definition start_ops : list op := [OpAddPattern "pat1"; OpAddStatic "case1"; OpAddCasePattern "case1" "pat1" 1].
Definition end_ops : list op := [OpAssemble; OpSave "assembly"].
Lemma load_line_op fs nl : load_line fs nl = Some (load_op fs nl).
Proof. unfold load_line, load_op, force_of. now destruct (gl_f (snd nl)) as (((((? & ?) & ?) & ?) & ?) & ?). Qed.

(** The calls of a script all of whose lines can be called, in their parts. *)
Lemma script_parts us fu tol d lines : script us fu tol d = Some lines -> callable lines ->
  exists sc fs ms ss bs, gh_scale us = Some sc /\ gh_fscale fu = Some fs
  /\ mapM (material_line sc fs) (materials_of d) = Some (map Some ms)
  /\ mapM (section_line sc) (sections_of d) = Some (map Some ss)
  /\ mapM (beam_line (mg_nodes (merge tol d)) (mg_conn (merge tol d))) (dr_beams d) = Some (map Some bs)
  /\ executed lines = ms ++ ss ++ map (node_op sc) (mg_nodes (merge tol d)) ++ bs ++ start_ops
       ++ map (load_op fs) (combine (mg_loads (merge tol d)) (dr_loads d))
       ++ map rest_op (combine (mg_rests (merge tol d)) (dr_rests d)) ++ end_ops.
Proof.
  unfold script. destruct (gh_scale us) as [sc|]; [|discriminate]. destruct (gh_fscale fu) as [fs|]; [|discriminate]. cbn [bindO].
  destruct (mapM (material_line sc fs) (materials_of d)) as [ms|] eqn:M; [|discriminate]. cbn [bindO].
  destruct (mapM (section_line sc) (sections_of d)) as [ss|] eqn:S; [|discriminate]. cbn [bindO].
  destruct (mapM (beam_line _ _) (dr_beams d)) as [bs|] eqn:B; [|discriminate]. cbn [bindO].
  intros H C. apply some_inj in H. subst lines.
  assert (K : forall l, callable l -> l = map Some (executed l)).
  { clear. induction l as [|[o|] r IH]; intros C; [reflexivity| |exfalso; apply C; now left]. cbn [executed map].
    f_equal. apply IH. intros I; apply C; now right. }
  apply callable_app in C. destruct C as (C1 & C). apply callable_app in C. destruct C as (C2 & C).
  apply callable_app in C. destruct C as (C3 & C). apply callable_app in C. destruct C as (C4 & C).
  apply callable_app in C. destruct C as (C5 & C). apply callable_app in C. destruct C as (C6 & C). apply callable_app in C. destruct C as (C7 & _).
  exists sc, fs, (executed ms), (executed ss), (executed bs). split; [reflexivity|]. split; [reflexivity|].
  rewrite <- (K ms C1), <- (K ss C2), <- (K bs C4). split; [exact M|]. split; [exact S|]. split; [reflexivity|].
  rewrite !executed_app by assumption. f_equal. f_equal. f_equal; [apply (executed_some (node_op sc))|]. f_equal. f_equal.
  f_equal; [|f_equal; apply (executed_some rest_op)].
  rewrite <- (executed_some (load_op fs)). f_equal. apply map_ext. intros. apply load_line_op.
Qed.

(** ** What each part of the script tells *)
Definition same_nodes (o : op) : Prop := forall t, t_node (tell o t) = t_node t.
Definition same_rest (o : op) : Prop := forall t, t_rest (tell o t) = t_rest t.
Definition same_beams (o : op) : Prop := forall t, t_beam (tell o t) = t_beam t.
Definition same_secs (o : op) : Prop := forall t, t_bsec (tell o t) = t_bsec t.
Definition same_loads (o : op) : Prop := forall t, tell_load o t = t.
Lemma with_mat_keep {A} (proj : told -> A) mt t f : (forall m, proj (f m) = proj t) -> proj (with_mat mt t f) = proj t.
Proof. intros H. unfold with_mat. destruct (t_mat t mt); [apply H|reflexivity]. Qed.
Lemma with_sec_keep {A} (proj : told -> A) mt t f n : (forall s, proj (put_bsec n s t) = proj t) -> proj (with_sec mt t f n) = proj t.
Proof. intros H. apply with_mat_keep. intros m. destruct (f m); [apply H|reflexivity]. Qed.
Ltac keeps := intros; cbn [tell];
  repeat first [reflexivity | apply with_sec_keep; reflexivity | apply with_mat_keep; reflexivity
               | match goal with |- context [match ?x with Some _ => _ | None => _ end] => destruct x as [[? ?]|] end
               | match goal with |- context [match ?x with Some _ => _ | None => _ end] => destruct x end].

Lemma material_op sc fs m o : material_line sc fs m = Some (Some o) -> exists a b c e, o = OpAddMaterial (gm_name m) a b c e.
Proof. unfold material_line. destruct (gm_a m); [|discriminate]. intros H. apply some_inj, some_inj in H. subst o. do 4 eexists. reflexivity. Qed.
Lemma section_op sc s o : section_line sc s = Some (Some o) ->
  (exists a b c d e f g h, o = OpAddGeneral (gs_name s) (gm_name (gs_mat s)) a b c d e f g h)
  \/ (exists a b c d, o = OpAddI (gs_name s) (gm_name (gs_mat s)) a b c d)
  \/ exists a b, o = OpAddRectangle (gs_name s) (gm_name (gs_mat s)) a b.
Proof.
  unfold section_line. destruct (gs_shape s); try discriminate; intros H; apply some_inj in H; try discriminate; apply some_inj in H; subst o.
  - left. do 8 eexists. reflexivity.
  - right; left. do 4 eexists. reflexivity.
  - right; right. do 2 eexists. reflexivity.
Qed.
Lemma beam_op nodes conn b o : beam_line nodes conn b = Some (Some o) ->
  exists i j a c, dget (gb_name b) conn = Some (i, j) /\ nth_error nodes i = Some a /\ nth_error nodes j = Some c
  /\ o = OpAddBeam (gb_name b) (gn_name a) (gn_name c) (gs_name (gb_sec b)).
Proof.
  unfold beam_line. destruct (dget (gb_name b) conn) as [[i j]|]; [|discriminate]. cbn [bindO fst snd].
  destruct (nth_error nodes i) as [a|] eqn:A; [|discriminate]. cbn [bindO]. destruct (nth_error nodes j) as [c|] eqn:C; [|discriminate]. cbn [bindO].
  intros H. apply some_inj, some_inj in H. subst o. exists i, j, a, c. auto.
Qed.

Lemma mapM_ops {A} (f : A -> option line) l ops : mapM f l = Some (map Some ops) -> Forall2 (fun x o => f x = Some (Some o)) l ops.
Proof.
  revert ops; induction l as [|x r IH]; intros ops H.
  - cbn in H. apply some_inj in H. destruct ops; [constructor|discriminate].
  - cbn in H. destruct (f x) as [y|] eqn:E; [|discriminate]. destruct (mapM f r) as [ys|]; [|discriminate]. apply some_inj in H.
    destruct ops as [|o os]; [discriminate|]. cbn in H. injection H as -> H. constructor; [exact E|]. apply IH. now f_equal.
Qed.
Lemma mapM_forall {A} (f : A -> option line) (P : op -> Prop) l ops : mapM f l = Some (map Some ops) ->
  (forall x o, In x l -> f x = Some (Some o) -> P o) -> Forall P ops.
Proof.
  intros H K. apply mapM_ops in H. induction H as [|x o l r E _ IH]; constructor; [apply (K x); [now left|exact E]|].
  apply IH. intros y p I. apply K. now right.
Qed.
Lemma map_forall {A} (f : A -> op) (P : op -> Prop) l : (forall x, P (f x)) -> Forall P (map f l).
Proof. intros H. induction l; constructor; auto. Qed.

(** nodes *)
Lemma heard_node ext sc w t a : heard tell ext w (node_op sc a) t = tell (node_op sc a) t.
Proof. unfold heard, answer, node_op. rewrite step_add_node. reflexivity. Qed.
Lemma heard_rest ext w t a : heard tell ext w (rest_op a) t = tell (rest_op a) t.
Proof. reflexivity. Qed.
Lemma nodes_told ext sc l : NoDup (map gn_name l) -> forall w t n, In n l ->
  t_node (follow tell ext w (map (node_op sc) l) t) (gn_name n)
  = Some (V3 (fmt (vx (gn_pt n) * sc)) (fmt (vy (gn_pt n) * sc)) (fmt (vz (gn_pt n) * sc)), six_zero).
Proof.
  induction l as [|a r IH]; intros ND w t n I; [contradiction|]. inversion ND as [|? ? NI ND']; subst.
  cbn [map follow]. destruct I as [->|I]; [|now apply IH].
  rewrite heard_node.
  assert (K : forall l w t k, ~ In k (map gn_name l) -> t_node (follow tell ext w (map (node_op sc) l) t) k = t_node t k).
  { clear. induction l as [|a r IH]; intros w t k N; [reflexivity|]. cbn [map follow In] in *. rewrite IH by tauto.
    rewrite heard_node. unfold node_op. cbn [tell put_node t_node]. unfold put.
    destruct (String.eqb_spec k (gn_name a)); [subst; tauto|reflexivity]. }
  rewrite K by exact NI. unfold node_op. cbn [tell put_node t_node]. apply put_eq.
Qed.

(** restraints *)
Lemma rests_told ext l1 : forall w t e l2, (forall x, In x (l1 ++ e :: l2) -> t_node t (gn_name (fst x)) <> None) ->
  (forall x, In x l2 -> gn_name (fst x) <> gn_name (fst e)) ->
  t_rest (follow tell ext w (map rest_op (l1 ++ e :: l2)) t) (gn_name (fst e)) = Some (as_list (gr_flags (snd e))).
Proof.
  assert (S : forall x t, t_node t (gn_name (fst x)) <> None -> tell (rest_op x) t = put_rest (gn_name (fst x)) (as_list (gr_flags (snd x))) t).
  { intros x t H. unfold rest_op. cbn [tell]. destruct (t_node t (gn_name (fst x))); [reflexivity|congruence]. }
  induction l1 as [|a r IH]; intros w t e l2 K N.
  - cbn [app map follow]. rewrite heard_rest, S by (apply K; now left).
    assert (L : forall l w t k, (forall x, In x l -> t_node t (gn_name (fst x)) <> None) -> (forall x, In x l -> gn_name (fst x) <> k) ->
                t_rest (follow tell ext w (map rest_op l) t) k = t_rest t k).
    { clear - S. induction l as [|a r IH]; intros w t k K N; [reflexivity|]. cbn [map follow].
      rewrite heard_rest, S by (apply K; now left).
      rewrite IH; [|intros x I; apply K; now right|intros x I; apply N; now right].
      cbn [put_rest t_rest]. unfold put. destruct (String.eqb_spec k (gn_name (fst a))) as [->|]; [exfalso; apply (N a); [now left|reflexivity]|reflexivity]. }
    rewrite L; [|intros x I; apply K; now right|exact N]. cbn [put_rest t_rest]. apply put_eq.
  - cbn [app map follow]. apply IH; [|exact N]. intros x I. rewrite heard_rest, S by (apply K; now left). apply K. now right.
Qed.

(** beams *)
Lemma heard_beam ext w t n s e sec : wwf w -> holds (k_fem (w_core w)) t ->
  heard tell ext w (OpAddBeam n s e sec) t = t
    /\ ~ (exists p ps pe, t_bsec t sec = Some p /\ t_node t s = Some ps /\ t_node t e = Some pe /\ well_separated (fst ps) (fst pe))
  \/ exists p, t_bsec t sec = Some p /\ heard tell ext w (OpAddBeam n s e sec) t = put_beam n (s, e, PSection p) t.
Proof.
  intros W (HN & _ & _ & HB & _). unfold heard, answer. cbn [step]. unfold model_add_beam.
  pose proof (HN s) as Hs. pose proof (HN e) as He. pose proof (HB sec) as Hb.
  destruct (dget s (f_nodes _)) as [ni|]; cbn [bindO ret_fem snd option_map] in *;
    [|left; split; [reflexivity|intros (? & ? & ? & ? & ? & ? & ?); congruence]].
  destruct (dget e (f_nodes _)) as [nj|]; cbn [bindO ret_fem snd option_map] in *;
    [|left; split; [reflexivity|intros (? & ? & ? & ? & ? & ? & ?); congruence]].
  destruct (dget sec (f_bsecs _)) as [p|]; cbn [bindO ret_fem snd] in *;
    [|left; split; [reflexivity|intros (? & ? & ? & ? & ? & ? & ?); congruence]].
  unfold model_put_beam, mk_beam. destruct (line_csys (n_loc ni) (n_loc nj)) as [c|] eqn:E; cbn [bindO ret_fem snd].
  - right. exists p. split; [now rewrite <- Hb|]. cbn [tell]. now rewrite <- Hb.
  - left. split; [reflexivity|]. intros (p' & ps & pe & _ & S & T & SEP). rewrite <- Hs in S. rewrite <- He in T. apply some_inj in S, T. subst ps pe.
    apply line_csys_none in E. now apply E.
Qed.
Definition beam_row (b : gbeam) (nodes : list gnode) (conn : dict (nat * nat)) (s e : string) : Prop :=
  exists i j a c, dget (gb_name b) conn = Some (i, j) /\ nth_error nodes i = Some a /\ nth_error nodes j = Some c
  /\ s = gn_name a /\ e = gn_name c.
Lemma beams_told ext nodes conn l ops : Forall2 (fun b o => beam_line nodes conn b = Some (Some o)) l ops -> NoDup (map gb_name l) ->
  forall w t, wwf w -> holds (k_fem (w_core w)) t -> forall b, In b l -> exists s e, beam_row b nodes conn s e
  /\ ((exists p, t_bsec t (gs_name (gb_sec b)) = Some p /\ t_beam (follow tell ext w ops t) (gb_name b) = Some (s, e, PSection p))
      \/ (t_beam (follow tell ext w ops t) (gb_name b) = t_beam t (gb_name b)
         /\ ~ (exists p ps pe, t_bsec t (gs_name (gb_sec b)) = Some p /\ t_node t s = Some ps /\ t_node t e = Some pe /\ well_separated (fst ps) (fst pe)))).
Proof.
  induction 1 as [|b0 o l ops E F IH]; intros ND w t W H b I; [contradiction|]. inversion ND as [|? ? NI ND']; subst.
  destruct (beam_op _ _ _ _ E) as (i & j & a & c & D & A & C & ->).
  set (o := OpAddBeam (gb_name b0) (gn_name a) (gn_name c) (gs_name (gb_sec b0))) in *.
  assert (NO : never_loads [o]) by (intros f [X|[]]; discriminate).
  destruct (follow_holds ext [o] NO w t W H) as (W' & H'). rewrite final_cons, final_nil in W', H'. cbn [follow] in *.
  pose proof (heard_beam ext w t (gb_name b0) (gn_name a) (gn_name c) (gs_name (gb_sec b0)) W H) as HB. fold o in HB.
  assert (K : t_bsec (heard tell ext w o t) = t_bsec t /\ t_node (heard tell ext w o t) = t_node t
              /\ forall k, k <> gb_name b0 -> t_beam (heard tell ext w o t) k = t_beam t k).
  { destruct HB as [(-> & _)|(p & _ & ->)]; [auto|]. split; [reflexivity|]. split; [reflexivity|]. intros k NK. cbn [put_beam t_beam]. unfold put.
    destruct (String.eqb_spec k (gb_name b0)); [congruence|reflexivity]. }
  destruct K as (K1 & K2 & K3).
  assert (L : forall ops l, Forall2 (fun b o => beam_line nodes conn b = Some (Some o)) l ops -> forall w t k, ~ In k (map gb_name l) ->
              t_beam (follow tell ext w ops t) k = t_beam t k).
  { clear. induction 1 as [|b0 o l ops E F IH]; intros w t k N; [reflexivity|]. cbn [follow map In] in *. rewrite IH by tauto.
    destruct (beam_op _ _ _ _ E) as (i & j & a & c & D & A & C & ->). unfold heard.
    destruct (answer ext w _) as [[|]| | | | | | |]; try reflexivity. cbn [tell]. destruct (t_bsec t _); [|reflexivity].
    cbn [put_beam t_beam]. unfold put. destruct (String.eqb_spec k (gb_name b0)); [subst; tauto|reflexivity]. }
  destruct I as [<-|I].
  - exists (gn_name a), (gn_name c). split; [exists i, j, a, c; auto|]. cbn [follow].
    rewrite (L _ _ F) by exact NI. destruct HB as [(-> & N)|(p & P & ->)]; [right; auto|left].
    exists p. split; [exact P|]. apply put_eq.
  - assert (NB : gb_name b <> gb_name b0) by (intros X; apply NI; rewrite <- X; now apply in_map).
    destruct (IH ND' _ _ W' H' b I) as (s & e & R & X). exists s, e. split; [exact R|].
    rewrite K1, K2, K3 in X by exact NB. exact X.
Qed.

(** loads *)
Lemma loads_told ext fs l1 : forall w t e l2 i, wwf w -> tells (w_core w) t -> l_last t "pat1" = Some i ->
  (forall x, In x l2 -> gn_name (fst x) <> gn_name (fst e)) ->
  s_node (l_sheet (follow tell_load ext w (map (load_op fs) (l1 ++ e :: l2)) t) i) (gn_name (fst e)) = Some (force_of fs (snd e))
  /\ l_last (follow tell_load ext w (map (load_op fs) (l1 ++ e :: l2)) t) "pat1" = Some i.
Proof.
  assert (S : forall x w t i, wwf w -> tells (w_core w) t -> l_last t "pat1" = Some i ->
    heard tell_load ext w (load_op fs x) t = tell_load (load_op fs x) t).
  { intros x w t i W (HP & _) LI. unfold heard, answer, load_op. cbn [step].
    destruct (force_of fs (snd x)) as (((((? & ?) & ?) & ?) & ?) & ?). unfold ret_pat. rewrite HP, LI. cbn [bindO].
    destruct (cw_pats _ (proj1 W) "pat1" i) as (y & Y & _); [apply dget_some_in; rewrite HP; exact LI|]. rewrite Y. reflexivity. }
  assert (S2 : forall x t i, l_last t "pat1" = Some i -> l_last (tell_load (load_op fs x) t) "pat1" = Some i
     /\ forall k, s_node (l_sheet (tell_load (load_op fs x) t) i) k = put (gn_name (fst x)) (force_of fs (snd x)) (s_node (l_sheet t i)) k).
  { intros x t i LI. unfold load_op. cbn [tell_load]. unfold write. rewrite LI. split; [exact LI|]. intros k. cbn [l_sheet]. unfold at_number.
    rewrite Nat.eqb_refl. reflexivity. }
  assert (T1 : forall x w t i, wwf w -> tells (w_core w) t -> l_last t "pat1" = Some i ->
     wwf (after ext w (load_op fs x)) /\ tells (w_core (after ext w (load_op fs x))) (heard tell_load ext w (load_op fs x) t)).
  { intros x w t i W T LI. split; [now apply wwf_step|].
    pose proof (follow_tells ext [load_op fs x] (ltac:(intros f [X|[]]; discriminate)) w t W T) as F. rewrite final_cons, final_nil in F. exact F. }
  induction l1 as [|a r IH]; intros w t e l2 i W T LI N.
  - cbn [app map follow]. destruct (T1 e w t i W T LI) as (W1 & TT1). rewrite (S e w t i W T LI) in *.
    destruct (S2 e t i LI) as (L1 & N1).
    assert (L : forall l w t k, wwf w -> tells (w_core w) t -> l_last t "pat1" = Some i -> (forall x, In x l -> gn_name (fst x) <> k) ->
        s_node (l_sheet (follow tell_load ext w (map (load_op fs) l) t) i) k = s_node (l_sheet t i) k
        /\ l_last (follow tell_load ext w (map (load_op fs) l) t) "pat1" = Some i).
    { clear - S S2 T1. induction l as [|a r IH]; intros w t k W T LI N; [auto|]. cbn [map follow].
      destruct (T1 a w t i W T LI) as (W1 & TT1). rewrite (S a w t i W T LI) in *. destruct (S2 a t i LI) as (L1 & N1).
      destruct (IH _ _ k W1 TT1 L1) as (A & B); [intros x X; apply N; now right|]. split; [|exact B]. rewrite A, N1. unfold put.
      destruct (String.eqb_spec k (gn_name (fst a))) as [->|]; [exfalso; apply (N a); [now left|reflexivity]|reflexivity]. }
    destruct (L l2 _ _ (gn_name (fst e)) W1 TT1 L1 N) as (A & B). split; [|exact B]. rewrite A, N1. apply put_eq.
  - cbn [app map follow]. destruct (T1 a w t i W T LI) as (W1 & TT1). rewrite (S a w t i W T LI) in *.
    destruct (S2 a t i LI) as (L1 & _). now apply IH.
Qed.

(** materials and sections *)
Definition mat_row (sc fs : R) (m : gmaterial) (a : R) : R * R * R * R := (fmt (gm_rho m / sc^3), fmt (gm_E m * fs / sc^2), fmt (gm_mu m), fmt a).
Lemma materials_told ext sc fs l ops : Forall2 (fun m o => material_line sc fs m = Some (Some o)) l ops ->
  forall m a, gm_a m = Some a -> (forall m', In m' l -> gm_name m' = gm_name m -> m' = m) ->
  forall w t, In m l \/ t_mat t (gm_name m) = Some (mat_row sc fs m a) ->
  t_mat (follow tell ext w ops t) (gm_name m) = Some (mat_row sc fs m a).
Proof.
  induction 1 as [|m0 o l ops E F IH]; intros m a Ha U w t H; [destruct H as [[]|H]; exact H|]. cbn [follow].
  unfold material_line in E. destruct (gm_a m0) as [a0|] eqn:A0; [|discriminate]. apply some_inj, some_inj in E. subst o.
  apply IH; [exact Ha|intros m' I; apply U; now right|]. unfold heard. cbn [answer step ret_fem snd tell put_mat t_mat]. unfold put.
  destruct (String.eqb_spec (gm_name m) (gm_name m0)) as [E|N].
  - right. rewrite (U m0 (or_introl eq_refl) (eq_sym E)) in *. rewrite Ha in A0. apply some_inj in A0. subst a0. reflexivity.
  - destruct H as [[->|H]|H]; [congruence|now left|now right].
Qed.
Definition sec_row (sc : R) (mt : material) (A As2 As3 J I2 I3 : R) : bsection :=
  {| s_mat := mt; s_A := fmt (A * sc^2); s_As2 := fmt (As2 * sc^2); s_As3 := fmt (As3 * sc^2); s_J := fmt (J * sc^4);
     s_I22 := fmt (I2 * sc^4); s_I33 := fmt (I3 * sc^4); s_W22 := fmt 0; s_W33 := fmt 0 |}.
Lemma section_keeps_mat sc s o : section_line sc s = Some (Some o) -> forall t, t_mat (tell o t) = t_mat t.
Proof. intros E. destruct (section_op _ _ _ E) as [(a&b&c&d&e&f&g&h&->)|[(a&b&c&d&->)|(a&b&->)]]; keeps. Qed.
Lemma section_touches sc s o : section_line sc s = Some (Some o) -> forall t k, k <> gs_name s -> t_bsec (tell o t) k = t_bsec t k.
Proof.
  intros E t k N. assert (K : forall s0, t_bsec (put_bsec (gs_name s) s0 t) k = t_bsec t k).
  { intros s0. cbn [put_bsec t_bsec]. unfold put. destruct (String.eqb_spec k (gs_name s)); [congruence|reflexivity]. }
  destruct (section_op _ _ _ E) as [(a&b&c&d&e&f&g&h&->)|[(a&b&c&d&->)|(a&b&->)]]; cbn [tell];
    [apply (with_mat_keep (fun t => t_bsec t k))|apply (with_sec_keep (fun t => t_bsec t k))|apply (with_sec_keep (fun t => t_bsec t k))]; intros; apply K.
Qed.
Definition made (sc : R) (mt : material) (sh : gshape) : option bsection :=
  match sh with
  | SGeneral A As2 As3 J I2 I3 => Some (sec_row sc mt A As2 As3 J I2 I3)
  | SI h b tw tf => mk_I mt (fmt (h * sc)) (fmt (b * sc)) (fmt (tw * sc)) (fmt (tf * sc))
  | SRectangle h b => mk_rectangle mt (fmt (h * sc)) (fmt (b * sc))
  | _ => None
  end.
Lemma sections_told ext sc l ops : Forall2 (fun s o => section_line sc s = Some (Some o)) l ops ->
  forall s p mr, made sc (the_mat mr) (gs_shape s) = Some p -> (forall s', In s' l -> gs_name s' = gs_name s -> s' = s) ->
  forall w t, wwf w -> holds (k_fem (w_core w)) t -> t_mat t (gm_name (gs_mat s)) = Some mr ->
  In s l \/ t_bsec t (gs_name s) = Some p ->
  t_bsec (follow tell ext w ops t) (gs_name s) = Some p.
Proof.
  induction 1 as [|s0 o l ops E F IH]; intros s p mr G U w t W H M X; [destruct X as [[]|X]; exact X|]. cbn [follow].
  assert (NO : never_loads [o]).
  { intros f [Y|[]]. destruct (section_op _ _ _ E) as [(a&b&c&d&e&f'&g&h&->)|[(a&b&c&d&->)|(a&b&->)]]; discriminate. }
  destruct (follow_holds ext [o] NO w t W H) as (W' & H'). rewrite final_cons, final_nil in W', H'. cbn [follow] in H'.
  assert (M' : t_mat (heard tell ext w o t) (gm_name (gs_mat s)) = Some mr).
  { unfold heard. destruct (answer ext w o) as [[|]| | | | | | |]; try exact M. now rewrite (section_keeps_mat _ _ _ E). }
  apply (IH s p mr G (fun s' I => U s' (or_intror I)) _ _ W' H' M').
  destruct (string_dec (gs_name s) (gs_name s0)) as [EQ|N].
  - right. rewrite (U s0 (or_introl eq_refl) (eq_sym EQ)) in E. unfold section_line in E.
    destruct H as (_ & _ & HM & _). pose proof (HM (gm_name (gs_mat s))) as Q. rewrite M in Q.
    unfold made in G. destruct (gs_shape s) as [A As2 As3 J I2 I3|h b tw tf|h b|h b tw tf|dm|dm tt|]; try discriminate; apply some_inj, some_inj in E; subst o;
      unfold heard, answer; cbn [step]; unfold model_add_general, model_add_I, model_add_rectangle, model_add_bsection;
      destruct (dget (gm_name (gs_mat s)) (f_mats (k_fem (w_core w)))) as [mt|]; try discriminate; cbn [bindO ret_fem snd tell].
    + unfold with_mat. rewrite M. cbn [put_bsec t_bsec]. rewrite put_eq. exact G.
    + unfold with_sec, with_mat. unfold mk_I in *. destruct (_ || _)%bool; [discriminate|]. cbn [bindO ret_fem snd tell]. rewrite M.
      cbn [put_bsec t_bsec]. rewrite put_eq. exact G.
    + unfold with_sec, with_mat. unfold mk_rectangle in *. destruct (_ || _)%bool; [discriminate|]. cbn [bindO ret_fem snd tell]. rewrite M.
      cbn [put_bsec t_bsec]. rewrite put_eq. exact G.
  - destruct X as [[->|X]|X]; [congruence|now left|right].
    unfold heard. destruct (answer ext w o) as [[|]| | | | | | |]; try exact X. now rewrite (section_touches _ _ _ E) by exact N.
Qed.
Lemma once_spec {A} (key : A -> nat) l : forall seen x, In x (once key l seen) -> In x l.
Proof.
  induction l as [|y r IH]; intros seen x H; [contradiction|]. cbn [once] in H. destruct (existsb _ seen); [right; now apply (IH seen)|].
  destruct H as [->|H]; [now left|right; now apply (IH (key y :: seen))].
Qed.
Lemma once_all {A} (key : A -> nat) l : forall seen x, In x l -> (exists k, In k seen /\ k = key x) \/ exists y, In y (once key l seen) /\ key y = key x.
Proof.
  induction l as [|y r IH]; intros seen x H; [contradiction|]. cbn [once].
  destruct (existsb (Nat.eqb (key y)) seen) eqn:E.
  - destruct H as [->|H]; [|now apply IH]. left. apply existsb_exists in E. destruct E as (k & K & Q). apply Nat.eqb_eq in Q. exists k. auto.
  - destruct H as [->|H]; [right; exists x; split; [now left|reflexivity]|].
    destruct (IH (key y :: seen) x H) as [(k & [<-|K] & Q)|(z & Z & Q)]; [right; exists y; split; [now left|exact Q]|left; exists k; auto|right; exists z; split; [now right|exact Q]].
Qed.
Lemma sections_drawn d s : In s (sections_of d) -> exists b, In b (dr_beams d) /\ gb_sec b = s.
Proof. intros H. apply once_spec in H. apply in_map_iff in H. destruct H as (b & E & I). eauto. Qed.
Lemma materials_drawn d m : In m (materials_of d) -> exists b, In b (dr_beams d) /\ gs_mat (gb_sec b) = m.
Proof. intros H. apply once_spec in H. apply in_map_iff in H. destruct H as (s & <- & I). destruct (sections_drawn _ _ I) as (b & B & <-). eauto. Qed.
Lemma sections_all d b : tidy d -> In b (dr_beams d) -> In (gb_sec b) (sections_of d).
Proof.
  intros T B. destruct (once_all gs_id (map gb_sec (dr_beams d)) [] (gb_sec b) (in_map _ _ _ B)) as [(k & [] & _)|(s & S & E)].
  fold (sections_of d) in S. destruct (sections_drawn _ _ S) as (c & C & <-). now rewrite <- (proj1 (T c b C B) E).
Qed.
Lemma materials_all d b : tidy d -> In b (dr_beams d) -> In (gs_mat (gb_sec b)) (materials_of d).
Proof.
  intros T B. destruct (once_all gm_id (map gs_mat (sections_of d)) [] (gs_mat (gb_sec b)) (in_map _ _ _ (sections_all d b T B))) as [(k & [] & _)|(m & M & E)].
  fold (materials_of d) in M. destruct (materials_drawn _ _ M) as (c & C & <-). destruct (T c b C B) as (_ & _ & T3 & _). now rewrite <- (T3 E).
Qed.
