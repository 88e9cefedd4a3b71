(** Lemmas about call histories. *)
From Coq Require Import Reals Lra Lia List String Ascii Arith Bool.
From Verif Require Import Base BaseFacts Csys Sections Element Load FeModel Assembly Solver Post Api SpecApi.
Import ListNotations.
Local Open Scope R_scope.

(** ** File names *)
Lemma las_app a b : list_ascii_of_string (a ++ b) = (list_ascii_of_string a ++ list_ascii_of_string b)%list.
Proof. induction a; simpl; auto. now rewrite IHa. Qed.

Lemma las_inj a b : list_ascii_of_string a = list_ascii_of_string b -> a = b.
Proof. intros H. rewrite <- (string_of_list_ascii_of_string a), H. apply string_of_list_ascii_of_string. Qed.

Lemma append_inj s a b : (a ++ s)%string = (b ++ s)%string -> a = b.
Proof.
  intros H. apply (f_equal list_ascii_of_string) in H. rewrite !las_app in H.
  apply app_inv_tail in H. now apply las_inj.
Qed.

Ltac names_differ :=
  let H := fresh in intros H;
  apply (f_equal list_ascii_of_string) in H; unfold sep_file, disp_file, asb_file, stiff_file in H;
  rewrite ?las_app in H; simpl in H;
  apply (f_equal (@rev ascii)) in H; rewrite ?rev_app_distr in H; simpl in H; discriminate H.

Lemma sep_disp f c : sep_file f <> disp_file c. Proof. names_differ. Qed.
Lemma sep_asb f : sep_file f <> asb_file. Proof. names_differ. Qed.
Lemma sep_stiff f : sep_file f <> stiff_file. Proof. names_differ. Qed.
Lemma disp_asb c : disp_file c <> asb_file. Proof. names_differ. Qed.
Lemma disp_stiff c : disp_file c <> stiff_file. Proof. names_differ. Qed.
Lemma asb_stiff : asb_file <> stiff_file. Proof. names_differ. Qed.
Lemma sep_inj f g : sep_file f = sep_file g -> f = g. Proof. apply append_inj. Qed.
Lemma disp_inj f g : disp_file f = disp_file g -> f = g. Proof. apply append_inj. Qed.
#[export] Hint Resolve sep_disp sep_asb sep_stiff disp_asb disp_stiff asb_stiff : fnames.
Lemma disp_sep c f : disp_file c <> sep_file f. Proof. intros H. symmetry in H. revert H. apply sep_disp. Qed.
Lemma asb_sep f : asb_file <> sep_file f. Proof. intros H. symmetry in H. revert H. apply sep_asb. Qed.
Lemma stiff_sep f : stiff_file <> sep_file f. Proof. intros H. symmetry in H. revert H. apply sep_stiff. Qed.
Lemma asb_disp f : asb_file <> disp_file f. Proof. intros H. symmetry in H. revert H. apply disp_asb. Qed.
#[export] Hint Resolve disp_sep asb_sep stiff_sep asb_disp : fnames.

(** ** Effect of a step on the files *)
Ltac crunch :=
  repeat match goal with
  | |- context [match ?x with _ => _ end] => destruct x eqn:?; simpl; try reflexivity
  end.

Lemma step_sep ext w o fn :
  dget (sep_file fn) (w_files (after ext w o)) =
  match o with
  | OpSave f => if String.eqb fn f then Some (FSep (w_core w)) else dget (sep_file fn) (w_files w)
  | _ => dget (sep_file fn) (w_files w)
  end.
Proof.
  unfold after. destruct o; simpl; try reflexivity;
    try (unfold ret_fem; destruct (_ : option fem); reflexivity).
  all: try (unfold ret_fem, ret_pat, bindO; crunch; fail).
  - destruct (String.eqb_spec fn filename).
    + subst. apply dget_dset_eq.
    + apply dget_dset_neq. intros H. apply sep_inj in H. congruence.
  - crunch; now rewrite dget_dset_neq by auto with fnames.
  - unfold do_solve_static. crunch; rewrite ?dget_dset_neq by auto with fnames; reflexivity.
Qed.

Lemma step_asb ext w o :
  dget asb_file (w_files (after ext w o)) =
  match o with
  | OpAssemble =>
      match mk_asm (k_fem (w_core w)) (dvals (k_cases (w_core w))) (k_heap (w_core w)) with
      | Some a => Some (FAsb a)
      | None => dget asb_file (w_files w)
      end
  | _ => dget asb_file (w_files w)
  end.
Proof.
  unfold after. destruct o; simpl; try reflexivity;
    try (unfold ret_fem; destruct (_ : option fem); reflexivity).
  all: try (unfold ret_fem, ret_pat, bindO; crunch; fail).
  - apply dget_dset_neq; auto with fnames.
  - crunch. apply dget_dset_eq.
  - unfold do_solve_static. crunch; rewrite ?dget_dset_neq by auto with fnames; reflexivity.
Qed.

Lemma step_disp ext w o c :
  dget (disp_file c) (w_files (after ext w o)) =
  match o with
  | OpSolveStatic c' =>
      if String.eqb c c' then
        match bindO (read_asb w) (fun a => solve_linear ext a c') with
        | Some d => Some (FDisp d)
        | None => dget (disp_file c) (w_files w)
        end
      else dget (disp_file c) (w_files w)
  | _ => dget (disp_file c) (w_files w)
  end.
Proof.
  unfold after. destruct o; simpl; try reflexivity;
    try (unfold ret_fem; destruct (_ : option fem); reflexivity).
  all: try (unfold ret_fem, ret_pat, bindO; crunch; fail).
  - apply dget_dset_neq; auto with fnames.
  - crunch; apply dget_dset_neq; auto with fnames.
  - unfold do_solve_static. destruct (read_asb w) as [a|] eqn:Ea; simpl.
    2:{ destruct (String.eqb c case); reflexivity. }
    destruct (assemble_K (x_ker ext) a) eqn:EK; simpl.
    2:{ assert (solve_linear ext a case = None) as ->
          by (unfold solve_linear, reduced_system; rewrite EK; reflexivity).
        destruct (String.eqb c case); reflexivity. }
    destruct (solve_linear ext a case) as [d|]; simpl.
    + destruct (String.eqb_spec c case).
      * subst. apply dget_dset_eq.
      * rewrite !dget_dset_neq; auto with fnames.
        intros H; apply disp_inj in H; congruence.
    + rewrite dget_dset_neq by auto with fnames. destruct (String.eqb c case); reflexivity.
Qed.

(** ** Runs *)
Lemma outs_cons ext w o r : outs ext w (o :: r) = answer ext w o :: outs ext (after ext w o) r.
Proof.
  unfold outs, answer, after; simpl. destruct (step ext w o) as [w1 x]; simpl.
  destruct (run ext w1 r); reflexivity.
Qed.
Lemma final_cons ext w o r : final ext w (o :: r) = final ext (after ext w o) r.
Proof.
  unfold final, after; simpl. destruct (step ext w o) as [w1 x]; simpl.
  destruct (run ext w1 r); reflexivity.
Qed.
Lemma final_nil ext w : final ext w [] = w. Proof. reflexivity. Qed.
Lemma outs_nil ext w : outs ext w [] = []. Proof. reflexivity. Qed.

Lemma final_app ext w a b : final ext w (a ++ b) = final ext (final ext w a) b.
Proof. revert w; induction a; intros w; auto. simpl. rewrite !final_cons. auto. Qed.

Lemma guarded_app ext G w a b :
  guarded ext G w (a ++ b) <-> guarded ext G w a /\ guarded ext G (final ext w a) b.
Proof.
  revert w; induction a; intros w; simpl; [rewrite final_nil; tauto|].
  rewrite IHa, final_cons. tauto.
Qed.

(** ** Invariants of reachable states *)
Definition is_load (o : op) : bool := match o with OpLoad _ => true | _ => false end.

Section Inv.
Variable (ext : externals) (G : world -> op -> Prop) (P : core -> Prop) (Q : asm -> Prop).
Definition winv (w : world) : Prop :=
  P (w_core w)
  /\ (forall fn c, dget (sep_file fn) (w_files w) = Some (FSep c) -> P c)
  /\ (forall a, dget asb_file (w_files w) = Some (FAsb a) -> Q a).

Hypothesis P_step : forall w o, G w o -> winv w -> is_load o = false -> P (w_core (after ext w o)).
Hypothesis Q_asm : forall c a, P c -> mk_asm (k_fem c) (dvals (k_cases c)) (k_heap c) = Some a -> Q a.

Lemma winv_step w o : G w o -> winv w -> winv (after ext w o).
Proof.
  intros HG HW. pose proof HW as (HP & HS & HA). split; [|split].
  - destruct (is_load o) eqn:EL; [|apply P_step; auto].
    destruct o; try discriminate EL. unfold after; simpl.
    destruct (dget (sep_file filename) (w_files w)) as [[]|] eqn:E; simpl; auto.
    apply HS with filename; auto.
  - intros fn c. rewrite step_sep. destruct o; try apply HS.
    destruct (String.eqb fn filename); [|apply HS]. intros E; inversion E; subst; auto.
  - intros a. rewrite step_asb. destruct o; try apply HA.
    destruct (mk_asm _ _ _) eqn:E; [|apply HA]. intros E'; inversion E'; subst.
    eapply Q_asm; eauto.
Qed.

Lemma winv_run w ops : winv w -> guarded ext G w ops -> winv (final ext w ops).
Proof.
  revert w; induction ops; intros w HW HG; [exact HW|].
  rewrite final_cons. destruct HG. apply IHops; auto. apply winv_step; auto.
Qed.

Hypothesis P_init : P new_core.
Lemma winv_init : winv init.
Proof. split; [|split]; simpl; auto; intros; discriminate. Qed.

Lemma winv_reach ops : guarded ext G init ops -> winv (final ext init ops).
Proof. apply winv_run, winv_init. Qed.
End Inv.

Lemma guarded_true ext w ops : guarded ext (fun _ _ => True) w ops.
Proof. revert w; induction ops; simpl; auto. Qed.

Lemma guarded_weaken ext (G G' : world -> op -> Prop) w ops :
  (forall w o, G w o -> G' w o) -> guarded ext G w ops -> guarded ext G' w ops.
Proof. intros H. revert w; induction ops; simpl; auto. intros w []; auto. Qed.
