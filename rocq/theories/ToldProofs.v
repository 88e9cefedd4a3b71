(** The model holds what the calls said (C78). *)
From Coq Require Import Reals Lra Lia List String Arith Bool.
From Verif Require Import Base BaseFacts Csys Sections Element Load FeModel Assembly Solver Post Api SpecApi ApiFacts WfFacts Demo SpecTold SpecAsm AsmProofs.
Import ListNotations.
Local Open Scope R_scope.

Lemma put_eq {A} k (v : A) f : put k v f k = Some v.
Proof. unfold put. now rewrite String.eqb_refl. Qed.
Lemma dget_put {A} (d : dict A) k v k' : dget k' (dset k v d) = if String.eqb k' k then Some v else dget k' d.
Proof. destruct (String.eqb_spec k' k) as [->|N]; [apply dget_dset_eq|now apply dget_dset_neq]. Qed.
Lemma map_put {A B} (g : A -> B) (d : dict A) f k v : (forall k, option_map g (dget k d) = f k) ->
  forall k', option_map g (dget k' (dset k v d)) = put k (g v) f k'.
Proof. intros H k'. rewrite dget_put. unfold put. destruct (String.eqb k' k); [reflexivity|apply H]. Qed.
Lemma same_put {A} (d : dict A) f k v : (forall k, dget k d = f k) -> forall k', dget k' (dset k v d) = put k v f k'.
Proof. intros H k'. rewrite dget_put. unfold put. destruct (String.eqb k' k); [reflexivity|apply H]. Qed.

Lemma list6_as {A} (s : six A) : list6 s = as_list s.
Proof. destruct s as [[[[[a b] c] d] e] f]. reflexivity. Qed.

Lemma holds_mat m t mt x : holds m t -> dget mt (f_mats m) = Some x -> exists p, t_mat t mt = Some p /\ the_mat p = x.
Proof.
  intros (_ & _ & H & _) E. specialize (H mt). rewrite E in H. cbn in H. exists (m_rho x, m_E x, m_mu x, m_a x).
  split; [now symmetry|]. destruct x; reflexivity.
Qed.
Lemma holds_bsection m t n mt mk m' : holds m t -> model_add_bsection n mt mk m = Some m' -> holds m' (with_sec mt t mk n).
Proof.
  intros H E. unfold model_add_bsection in E. destruct (dget mt (f_mats m)) as [x|] eqn:EX; [|discriminate]. cbn [bindO] in E.
  destruct (mk x) as [s|] eqn:ES; [|discriminate]. cbn [bindO] in E. apply some_inj in E. subst m'.
  destruct (holds_mat _ _ _ _ H EX) as (p & Ep & Ex). unfold with_sec, with_mat. rewrite Ep, Ex, ES.
  destruct H as (H1 & H2 & H3 & H4 & H5 & H6 & H7). unfold holds, put_bsec; cbn. repeat (split; [assumption|]).
  split; [|repeat split; assumption]. now apply same_put.
Qed.
Lemma node_named m k n : fem_wf m -> dget k (f_nodes m) = Some n -> n_name n = k.
Proof. intros W E. apply (wf_node _ W k). now apply dget_some_in. Qed.

Lemma holds_put_beam m t n ni nj p r : holds m t -> model_put_beam n ni nj p false m = Some r ->
  holds (snd r) (put_beam n (n_name ni, n_name nj, p) t).
Proof.
  intros (H1 & H2 & H3 & H4 & H5 & H6 & H7) E. unfold model_put_beam, mk_beam in E.
  destruct (line_csys _ _) as [c|]; [|discriminate]. cbn [bindO] in E. apply some_inj in E. subst r.
  unfold holds, put_beam; cbn [snd f_nodes f_rest f_mats f_bsecs f_ssecs f_beams f_shells t_node t_rest t_mat t_bsec t_ssec t_beam t_shell].
  repeat (split; [assumption|]). split; [|assumption].
  exact (map_put _ _ _ n (Beam n ni nj c no_releases p) H6).
Qed.
Lemma shell_made m name sec n0 n1 n2 n3 r : fem_wf m -> model_add_shell name sec n0 n1 n2 n3 m = Some r ->
  exists p s, dget sec (f_ssecs m) = Some p /\ sh_sec s = p
    /\ map n_name (sh_nodes s) = match n3 with Some d => [n0; n1; n2; d] | None => [n0; n1; n2] end
    /\ snd r = Fem (f_nodes m) (f_rest m) (f_mats m) (f_bsecs m) (f_ssecs m) (f_beams m)
                 (dset name s (f_shells m)) (f_hnode m) (f_hbeam m) (dset name (List.length (f_shells m)) (f_hshell m)).
Proof.
  intros W E. unfold model_add_shell in E.
  destruct (dget sec (f_ssecs m)) as [p|] eqn:Es; [|discriminate].
  destruct (dget n0 (f_nodes m)) as [a|] eqn:E0; [|discriminate].
  destruct (dget n1 (f_nodes m)) as [b|] eqn:E1; [|discriminate].
  destruct (dget n2 (f_nodes m)) as [c|] eqn:E2; [|discriminate]. cbn [bindO] in E.
  pose proof (node_named _ _ _ W E0) as N0. pose proof (node_named _ _ _ W E1) as N1. pose proof (node_named _ _ _ W E2) as N2.
  destruct n3 as [n3|].
  - destruct (dget n3 (f_nodes m)) as [d|] eqn:E3; [|discriminate]. cbn [bindO] in E. pose proof (node_named _ _ _ W E3) as N3.
    unfold mk_quad in E. destruct (quad_csys _ _ _ _) as [cs|]; [|discriminate]. cbn [bindO] in E. apply some_inj in E. subst r.
    exists p, (Shell name [a; b; c; d] p cs (quad_area (n_loc a) (n_loc b) (n_loc c) (n_loc d))).
    split; [reflexivity|]. split; [reflexivity|]. split; [cbn; now rewrite N0, N1, N2, N3|reflexivity].
  - unfold mk_tria in E. destruct (tria_csys _ _ _) as [cs|]; [|discriminate]. cbn [bindO] in E. apply some_inj in E. subst r.
    exists p, (Shell name [a; b; c] p cs (tria_area (n_loc a) (n_loc b) (n_loc c))).
    split; [reflexivity|]. split; [reflexivity|]. split; [cbn; now rewrite N0, N1, N2|reflexivity].
Qed.

(** A call on the finite element model *)
Lemma ret_fem_cases w r : (exists m, r = Some m /\ ret_fem w r = (with_fem_w w m, RBool true)) \/ ret_fem w r = (w, RBool false).
Proof. destruct r as [m|]; [left; exists m; auto|right; reflexivity]. Qed.

Lemma unchanged (x : world * out) m t : k_fem (w_core (fst x)) = m -> holds m t ->
  match snd x with RBool true => holds (k_fem (w_core (fst x))) t | _ => holds (k_fem (w_core (fst x))) t end.
Proof. intros -> H. destruct (snd x) as [[|]| | | | | | |]; exact H. Qed.
Lemma tell_step ext w o t : fem_wf (k_fem (w_core w)) -> holds (k_fem (w_core w)) t ->
  (forall f, o <> OpLoad f) ->
  match answer ext w o with
  | RBool true => holds (k_fem (w_core (after ext w o))) (tell o t)
  | _ => holds (k_fem (w_core (after ext w o))) t
  end.
Proof.
  intros W H NL. set (m := k_fem (w_core w)) in *. unfold answer, after.
  destruct o; cbn [step tell]; fold m; try exact H.
  - exfalso. eapply NL; reflexivity.
  - (* node *) rewrite add_node_eq. cbn [bindO snd ret_fem fst].
    destruct H as (H1 & H2 & H3 & H4 & H5 & H6 & H7). unfold holds, put_node; cbn [with_fem_w with_core with_fem w_core k_fem f_nodes f_rest f_mats f_bsecs f_ssecs f_beams f_shells t_node t_rest t_mat t_bsec t_ssec t_beam t_shell].
    split; [|repeat split; assumption]. exact (map_put _ _ _ name (node_at name x y z) H1).
  - unfold ret. destruct (model_node_location name m); exact H.
  - destruct casename as [cn|]; [|exact H]. unfold ret. destruct (bindO _ _); exact H.
  - (* mass *) unfold model_set_mass. destruct (dget name (f_nodes m)) as [n|] eqn:E; cbn [ret_fem fst snd]; [|exact H].
    destruct H as (H1 & H2 & H3 & H4 & H5 & H6 & H7). pose proof (H1 name) as HN. rewrite E in HN. cbn in HN. rewrite <- HN.
    unfold holds, put_node; cbn [with_fem_w with_core with_fem w_core k_fem f_nodes f_rest f_mats f_bsecs f_ssecs f_beams f_shells t_node t_rest t_mat t_bsec t_ssec t_beam t_shell].
    split; [|repeat split; assumption]. exact (map_put _ _ _ name (set_mass (list6 mass) n) H1).
  - (* material *) cbn [ret_fem fst snd]. destruct H as (H1 & H2 & H3 & H4 & H5 & H6 & H7).
    unfold holds, put_mat, model_add_material; cbn [with_fem_w with_core with_fem w_core k_fem f_nodes f_rest f_mats f_bsecs f_ssecs f_beams f_shells t_node t_rest t_mat t_bsec t_ssec t_beam t_shell].
    do 2 (split; [assumption|]). split; [|repeat split; assumption]. exact (map_put _ _ _ name (Mat rho E mu a) H3).
  - (* general *) destruct (ret_fem_cases w (model_add_general name mat A As2 As3 I22 I33 J W22 W33 m)) as [(m' & E & ->)| ->]; cbn [fst snd]; [|exact H].
    exact (holds_bsection _ _ _ _ _ _ H E).
  - destruct (ret_fem_cases w (model_add_rectangle name mat h b m)) as [(m' & E & ->)| ->]; cbn [fst snd]; [|exact H]. exact (holds_bsection _ _ _ _ _ _ H E).
  - destruct (ret_fem_cases w (model_add_I name mat h b tw tf m)) as [(m' & E & ->)| ->]; cbn [fst snd]; [|exact H]. exact (holds_bsection _ _ _ _ _ _ H E).
  - destruct (ret_fem_cases w (model_add_box name mat h b tw tf m)) as [(m' & E & ->)| ->]; cbn [fst snd]; [|exact H]. exact (holds_bsection _ _ _ _ _ _ H E).
  - destruct (ret_fem_cases w (model_add_circle name mat d m)) as [(m' & E & ->)| ->]; cbn [fst snd]; [|exact H]. exact (holds_bsection _ _ _ _ _ _ H E).
  - destruct (ret_fem_cases w (model_add_rectangle name mat d t0 m)) as [(m' & E & ->)| ->]; cbn [fst snd]; [|exact H]. exact (holds_bsection _ _ _ _ _ _ H E).
  - (* shell section *) unfold model_add_ssection. destruct (dget mat (f_mats m)) as [x|] eqn:EX; cbn [bindO ret_fem fst snd]; [|exact H].
    destruct (holds_mat _ _ _ _ H EX) as (p & Ep & Ex). unfold with_mat. rewrite Ep, Ex. destruct H as (H1 & H2 & H3 & H4 & H5 & H6 & H7).
    unfold holds, put_ssec; cbn [with_fem_w with_core with_fem w_core k_fem f_nodes f_rest f_mats f_bsecs f_ssecs f_beams f_shells t_node t_rest t_mat t_bsec t_ssec t_beam t_shell].
    repeat (split; [assumption|]). split; [|split; assumption]. now apply same_put.
  - (* beam *) unfold model_add_beam. destruct (dget start (f_nodes m)) as [ni|] eqn:Ei; [|exact H]. destruct (dget end_ (f_nodes m)) as [nj|] eqn:Ej; [|exact H].
    destruct (dget section (f_bsecs m)) as [s|] eqn:Es; [|exact H]. cbn [bindO].
    destruct (model_put_beam name ni nj (PSection s) false m) as [r|] eqn:Er; cbn [bindO ret_fem fst snd]; [|exact H].
    pose proof H as (_ & _ & _ & H4 & _). rewrite H4 in Es. rewrite Es. rewrite <- (node_named _ _ _ W Ei), <- (node_named _ _ _ W Ej).
    exact (holds_put_beam _ _ _ _ _ _ _ H Er).
  - (* simple beam *) unfold model_add_simple_beam. destruct (dget start (f_nodes m)) as [ni|] eqn:Ei; [|exact H]. destruct (dget end_ (f_nodes m)) as [nj|] eqn:Ej; [|exact H].
    cbn [bindO]. destruct (model_put_beam name ni nj (PSimple E mu A I2 I3 J rho) false m) as [r|] eqn:Er; cbn [bindO ret_fem fst snd]; [|exact H].
    rewrite <- (node_named _ _ _ W Ei), <- (node_named _ _ _ W Ej). exact (holds_put_beam _ _ _ _ _ _ _ H Er).
  - unfold ret. destruct (model_beam_connection name m); exact H.
  - unfold ret. destruct (model_beam_location name m); exact H.
  - (* shell *) destruct (model_add_shell name n1 n2 n3 n4 section m) as [r|] eqn:Er; cbn [bindO ret_fem fst snd]; [|exact H].
    destruct (shell_made _ _ _ _ _ _ _ _ W Er) as (p & s & Ep & Es & En & Ef). 
    destruct H as (H1 & H2 & H3 & H4 & H5 & H6 & H7). rewrite H5 in Ep. rewrite Ep. cbn [with_fem_w with_core with_fem w_core k_fem]. rewrite Ef.
    unfold holds, put_shell; cbn [f_nodes f_rest f_mats f_bsecs f_ssecs f_beams f_shells t_node t_rest t_mat t_bsec t_ssec t_beam t_shell].
    repeat (split; [assumption|]). rewrite <- Es, <- En. exact (map_put _ _ _ name s H7).
  - unfold ret. destruct (model_shell_connection name m); exact H.
  - (* restraint *) cbn [fst snd with_fem_w with_core with_fem w_core k_fem]. unfold model_set_restraint, dmem. 
    destruct H as (H1 & H2 & H3 & H4 & H5 & H6 & H7). pose proof (H1 node) as HN.
    destruct (dget node (f_nodes m)) as [n|] eqn:E; cbn in HN; rewrite <- HN; cbn [negb snd].
    + unfold holds, put_rest; cbn [f_nodes f_rest f_mats f_bsecs f_ssecs f_beams f_shells t_node t_rest t_mat t_bsec t_ssec t_beam t_shell].
      split; [assumption|]. split; [|repeat split; assumption]. exact (same_put _ _ node (list6 flags) H2).
    + repeat split; assumption.
  - match goal with |- match snd ?x with _ => _ end => apply (unchanged x m t); [|exact H] end. unfold ret, ret_pat, do_solve_static; crunch.
  - match goal with |- match snd ?x with _ => _ end => apply (unchanged x m t); [|exact H] end. unfold ret, ret_pat, do_solve_static; crunch.
  - match goal with |- match snd ?x with _ => _ end => apply (unchanged x m t); [|exact H] end. unfold ret, ret_pat, do_solve_static; crunch.
  - match goal with |- match snd ?x with _ => _ end => apply (unchanged x m t); [|exact H] end. unfold ret, ret_pat, do_solve_static; crunch.
  - match goal with |- match snd ?x with _ => _ end => apply (unchanged x m t); [|exact H] end. unfold ret, ret_pat, do_solve_static; crunch.
  - match goal with |- match snd ?x with _ => _ end => apply (unchanged x m t); [|exact H] end. unfold ret, ret_pat, do_solve_static; crunch.
  - match goal with |- match snd ?x with _ => _ end => apply (unchanged x m t); [|exact H] end. unfold ret, ret_pat, do_solve_static; crunch.
  - match goal with |- match snd ?x with _ => _ end => apply (unchanged x m t); [|exact H] end. unfold ret, ret_pat, do_solve_static; crunch.
  - match goal with |- match snd ?x with _ => _ end => apply (unchanged x m t); [|exact H] end. unfold ret, ret_pat, do_solve_static; crunch.
  - match goal with |- match snd ?x with _ => _ end => apply (unchanged x m t); [|exact H] end. unfold ret, ret_pat, do_solve_static; crunch.
  - match goal with |- match snd ?x with _ => _ end => apply (unchanged x m t); [|exact H] end. unfold ret, ret_pat, do_solve_static; crunch.
  - match goal with |- match snd ?x with _ => _ end => apply (unchanged x m t); [|exact H] end. unfold ret, ret_pat, do_solve_static; crunch.
Qed.

(** ** Histories *)
Definition agrees (w : world) (b : book) : Prop :=
  holds (k_fem (w_core w)) (now b)
  /\ (forall f, match dget (sep_file f) (w_files w) with
               | Some (FSep c) => exists t, kept b f = Some t /\ holds (k_fem c) t
               | _ => True end)
  /\ match dget asb_file (w_files w) with
     | Some (FAsb a) => exists t, built b = Some t /\ holds (a_model a) t
     | _ => True end.
Definition plain (o : op) : Prop := (forall f, o <> OpSave f) /\ (forall f, o <> OpLoad f) /\ o <> OpAssemble.
Lemma note_plain b o a : plain o -> note b (o, a) = match a with RBool true => Book (tell o (now b)) (kept b) (built b) | _ => b end.
Proof.
  intros (S & L & A). destruct o; try (exfalso; eapply S; reflexivity); try (exfalso; eapply L; reflexivity); try (exfalso; apply A; reflexivity);
    destruct a as [[|]| | | | | | |]; reflexivity.
Qed.
Lemma sep_plain ext w o f : plain o -> dget (sep_file f) (w_files (after ext w o)) = dget (sep_file f) (w_files w).
Proof. intros (S & L & _). rewrite step_sep. destruct o; try reflexivity. exfalso; eapply S; reflexivity. Qed.
Lemma asb_plain ext w o : plain o -> dget asb_file (w_files (after ext w o)) = dget asb_file (w_files w).
Proof. intros (S & L & A). rewrite step_asb. destruct o; try reflexivity. exfalso; apply A; reflexivity. Qed.
Lemma plain_dec o : (exists f, o = OpSave f) \/ (exists f, o = OpLoad f) \/ o = OpAssemble \/ plain o.
Proof.
  destruct o; try (left; eexists; reflexivity); try (right; left; eexists; reflexivity); try (right; right; left; reflexivity);
    right; right; right; (split; [intros ? ?; discriminate|split; [intros ? ?; discriminate|discriminate]]).
Qed.
Lemma agrees_step ext w b o : fem_wf (k_fem (w_core w)) -> agrees w b -> agrees (after ext w o) (note b (o, answer ext w o)).
Proof.
  intros W (H & F & A). destruct (plain_dec o) as [(f & ->)|[(f & ->)|[-> |P]]].
  - pose proof (step_asb ext w (OpSave f)) as SA. pose proof (step_sep ext w (OpSave f)) as S.
    unfold agrees. rewrite SA. split; [exact H|]. split; [|exact A]. intros f'. rewrite S.
    cbn [answer step snd note kept]. unfold put. destruct (String.eqb f' f); [exists (now b); auto|apply F].
  - pose proof (step_asb ext w (OpLoad f)) as SA. pose proof (step_sep ext w (OpLoad f)) as S.
    unfold agrees. rewrite SA. unfold answer, after in *; cbn [step] in *. specialize (F f) as Ff.
    destruct (dget (sep_file f) (w_files w)) as [[| c' | |]|] eqn:E; cbn [fst snd note]; try (split; [assumption|split; assumption]).
    destruct Ff as (t & Et & Ht). rewrite Et. split; [exact Ht|]. split; [exact F|exact A].
  - pose proof (step_asb ext w OpAssemble) as SA. pose proof (step_sep ext w OpAssemble) as S.
    unfold agrees. rewrite SA. unfold answer. cbn [step] in *.
    destruct (mk_asm (k_fem (w_core w)) (dvals (k_cases (w_core w))) (k_heap (w_core w))) as [a|] eqn:E; cbn [fst snd note].
    + unfold after in *; cbn [step] in *. rewrite E in *. cbn [fst] in *. split; [exact H|]. split; [intros f; rewrite S; apply F|].
      exists (now b). split; [reflexivity|]. unfold mk_asm in E. destruct (rest_dofs _ _); [|discriminate]. cbn [bindO] in E. apply some_inj in E. subst a. exact H.
    + unfold after in *; cbn [step] in *. rewrite E in *. cbn [fst] in *. split; [exact H|]. split; [exact F|exact A].
  - rewrite note_plain by exact P. pose proof (tell_step ext w o (now b) W H (proj1 (proj2 P))) as T.
    unfold agrees. rewrite asb_plain by exact P. split; [destruct (answer ext w o) as [[|]| | | | | | |]; exact T|].
    split; [|destruct (answer ext w o) as [[|]| | | | | | |]; exact A].
    intros f. rewrite sep_plain by exact P. specialize (F f). destruct (answer ext w o) as [[|]| | | | | | |]; exact F.
Qed.
Lemma agrees_run ext ops : forall w b, wwf w -> agrees w b -> agrees (final ext w ops) (fold_left note (trace ext w ops) b).
Proof.
  induction ops as [|o r IH]; intros w b W A; [exact A|]. rewrite final_cons. cbn [trace fold_left].
  apply IH; [now apply wwf_step|]. apply agrees_step; [apply cw_fem, W|exact A].
Qed.
Lemma agrees_init : agrees init blank.
Proof. split; [repeat split; intros; reflexivity|]. split; [intros f; exact I|exact I]. Qed.
Lemma c78_holds ext ops : holds (k_fem (w_core (final ext init ops))) (now (notes (trace ext init ops))).
Proof. apply (agrees_run ext ops init blank); [apply wwf_init|exact agrees_init]. Qed.
Lemma c78_built ext ops m : assembled_model (final ext init ops) = Some m ->
  exists t, built (notes (trace ext init ops)) = Some t /\ holds m t.
Proof.
  intros H. destruct (agrees_run ext ops init blank wwf_init agrees_init) as (_ & _ & A).
  unfold assembled_model, read_asb in H. destruct (dget asb_file _) as [[a| | |]|]; try discriminate.
  cbn [option_map] in H. apply some_inj in H. subst m. exact A.
Qed.
