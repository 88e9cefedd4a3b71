(** Lemmas about patterns, cases and their sums. *)
From Coq Require Import Reals Lra Lia List String Arith Bool ZArith.
From Verif Require Import Base BaseFacts Csys Sections Element Load FeModel Assembly Solver Post Api SpecApi ApiFacts WfFacts HidFacts ApiProofs1 ApiProofs2.
Import ListNotations.
Local Open Scope R_scope.

(** ** Vectors *)
Lemma ladd_length a b : List.length a = List.length b -> List.length (ladd a b) = List.length a.
Proof. revert b; induction a as [|x a IH]; intros [|y b] H; simpl in *; try discriminate; auto. Qed.
Lemma ladd_nth a b i : List.length a = List.length b -> nth i (ladd a b) 0 = nth i a 0 + nth i b 0.
Proof.
  revert b i; induction a as [|x a IH]; intros [|y b] i H; simpl in *; try discriminate.
  - destruct i; lra.
  - destruct i; auto.
Qed.
Lemma lscale_length k a : List.length (lscale k a) = List.length a.
Proof. apply map_length. Qed.
Lemma lscale_nth k a i : nth i (lscale k a) 0 = nth i a 0 * k.
Proof.
  unfold lscale. rewrite <- (map_nth (fun x => x * k)). f_equal. lra.
Qed.
Lemma zeros_length n : List.length (zeros n) = n.
Proof. apply repeat_length. Qed.
Lemma zeros_nth n i : nth i (zeros n) 0 = 0.
Proof. unfold zeros. revert i; induction n; intros [|i]; simpl; auto. Qed.
Lemma dist_f_length v l : List.length (dist_f v l) = 12%nat.
Proof. reflexivity. Qed.
Lemma conc_f_length v l : List.length (conc_f v l) = 12%nat.
Proof. reflexivity. Qed.
Lemma pat_beam_f_length p n l : List.length (pat_beam_f p n l) = 12%nat.
Proof. unfold pat_beam_f. destruct (dget n (p_dist p)), (dget n (p_conc p)); reflexivity. Qed.
Lemma pat_beam_f_nth p n l i :
  nth i (pat_beam_f p n l) 0
  = (match dget n (p_dist p) with Some v => nth i (dist_f v l) 0 | None => 0 end)
    + (match dget n (p_conc p) with Some v => nth i (conc_f v l) 0 | None => 0 end).
Proof.
  unfold pat_beam_f. destruct (dget n (p_dist p)), (dget n (p_conc p));
    repeat rewrite ladd_nth by reflexivity; rewrite zeros_nth; lra.
Qed.

Lemma list_eq_nth (a b : list R) : List.length a = List.length b ->
  (forall i, (i < List.length a)%nat -> nth i a 0 = nth i b 0) -> a = b.
Proof.
  revert b; induction a as [|x a IH]; intros [|y b] H E; simpl in *; try discriminate; auto.
  f_equal; [apply (E 0%nat); lia|]. apply IH; auto. intros i Hi. apply (E (S i)). lia.
Qed.

(** ** Stored tables have the right width *)
Definition pat_ok (p : pattern) : Prop :=
  (forall k v, In (k, v) (p_nodal p) -> List.length v = 6%nat)
  /\ (forall k v, In (k, v) (p_disp p) -> List.length v = 6%nat)
  /\ (forall k v, In (k, v) (p_dist p) -> List.length v = 12%nat)
  /\ (forall k v, In (k, v) (p_conc p) -> List.length v = 7%nat)
  /\ NoDup (dkeys (p_nodal p)) /\ NoDup (dkeys (p_disp p)).
Definition heap_ok (h : list pattern) : Prop := forall a p, nth_error h a = Some p -> pat_ok p.

Lemma new_pattern_ok n : pat_ok (new_pattern n).
Proof. repeat split; try (intros ? ? []); constructor. Qed.

Lemma heap_ok_app h p : heap_ok h -> pat_ok p -> heap_ok (h ++ [p]).
Proof.
  intros H P a q E. destruct (Nat.lt_ge_cases a (List.length h)).
  - rewrite nth_error_app1 in E by auto. eauto.
  - rewrite nth_error_app2 in E by auto. destruct (a - List.length h)%nat as [|k]; simpl in E.
    + inversion E; subst; auto.
    + destruct k; discriminate.
Qed.
Lemma heap_ok_set h a p : heap_ok h -> pat_ok p -> heap_ok (set_nth a p h).
Proof.
  intros H P b q E. destruct (Nat.eq_dec a b) as [->|N].
  - destruct (Nat.lt_ge_cases b (List.length h)).
    + rewrite nth_error_set_nth_eq in E by auto. inversion E; subst; auto.
    + apply nth_error_lt in E. rewrite set_nth_length in E. lia.
  - rewrite nth_error_set_nth_neq in E by auto. eauto.
Qed.

Lemma pat_set_nodal_ok n f1 f2 f3 m1 m2 m3 p : pat_ok p -> pat_ok (pat_set_nodal_load n f1 f2 f3 m1 m2 m3 p).
Proof.
  intros (H1 & H2 & H3 & H4 & N1 & N2). split; [|repeat split; auto].
  - simpl. intros k v H. apply in_dset in H as [[-> ->]|H]; eauto.
  - simpl. now apply nodup_dset.
Qed.
Lemma pat_set_dist_ok n a b c d e f g h p : pat_ok p -> pat_ok (pat_set_beam_dist n a b c d e f g h p).
Proof.
  intros (H1 & H2 & H3 & H4 & N1 & N2). repeat split; auto.
  simpl. intros k v H. apply in_dset in H as [[-> ->]|H]; eauto.
Qed.
Lemma pat_set_conc_ok n a b c d e f g p : pat_ok p -> pat_ok (pat_set_beam_conc n a b c d e f g p).
Proof.
  intros (H1 & H2 & H3 & H4 & N1 & N2). repeat split; auto.
  simpl. intros k v H. apply in_dset in H as [[-> ->]|H]; eauto.
Qed.

Lemma heap_ok_step ext w o :
  heap_ok (k_heap (w_core w)) -> is_load o = false -> heap_ok (k_heap (w_core (after ext w o))).
Proof.
  intros H NL.
  assert (forall q u, (forall p, pat_ok p -> pat_ok (u p)) -> heap_ok (k_heap (w_core (fst (ret_pat w q u))))) as RP.
  { intros q u Hu. unfold ret_pat, bindO.
    destruct (dget q (k_pats (w_core w))) as [a|]; simpl; auto.
    destruct (nth_error (k_heap (w_core w)) a) as [pt|] eqn:E; simpl; auto.
    apply heap_ok_set; auto. apply Hu. eapply H; eauto. }
  unfold after. destruct o; simpl in *; try discriminate NL; try exact H;
    try (open_fem; repeat (dmi; simpl in *); exact H).
  - apply heap_ok_app; auto. apply new_pattern_ok.
  - destruct f as [[[[[f1 f2] f3] m1] m2] m3]. apply RP. intros. now apply pat_set_nodal_ok.
  - apply RP. intros. now apply pat_set_dist_ok.
  - destruct F as [[[[[f1 f2] f3] m1] m2] m3]. apply RP. intros. now apply pat_set_conc_ok.
Qed.

Definition core_hp (c : core) : Prop := core_wf c /\ heap_ok (k_heap c).
Definition asm_hp (a : asm) : Prop := exists c, core_hp c /\ asm_of c a.
Definition whp : world -> Prop := winv core_hp asm_hp.
Lemma whp_reach ext ops : whp (final ext init ops).
Proof.
  eapply winv_reach with (G := fun _ _ => True); [| | |apply guarded_true].
  - intros w o _ [[W H] _] L. split; [now apply core_wf_step|now apply heap_ok_step].
  - intros c a HP E. exists c. auto.
  - split; [apply new_core_wf|]. intros [|a] p E; discriminate.
Qed.

(** ** The nodal load of a case *)
Definition nodal_comp (heap : list pattern) (c : lcase) (n : string) (i : nat) (p : string) : R :=
  match deref heap c p with
  | Some pat => match pat_nodal_f pat n with Some f => nth i f 0 | None => 0 end
  | None => 0
  end.
Definition weight (c : lcase) (t : nat) (p : string) : R :=
  match dget p (c_curve c) with Some cv => nth t (snd cv) 0 | None => 0 end.

Lemma fold_none {A B} (f : option A -> B -> option A) l :
  (forall b, f None b = None) -> fold_left f l None = None.
Proof. intros H. induction l; simpl; auto. now rewrite H. Qed.

Lemma case_nodal_f_sum heap c n t :
  (forall p, In p (dkeys (c_factor c)) -> exists pat, deref heap c p = Some pat /\ pat_ok pat) ->
  (forall p, In p (dkeys (c_factor c)) -> exists cv, dget p (c_curve c) = Some cv /\ (t < List.length (snd cv))%nat) ->
  exists v, case_nodal_f heap c n t = Some v /\ List.length v = 6%nat
   /\ forall i, nth i v 0 = lsum (map (fun kv => snd kv * weight c t (fst kv) * nodal_comp heap c n i (fst kv)) (c_factor c)).
Proof.
  intros HD HC. unfold case_nodal_f.
  assert (forall l v0, (forall p, In p (dkeys l) -> In p (dkeys (c_factor c))) -> List.length v0 = 6%nat ->
    exists v, fold_left (fun acc kv => bindO acc (fun fn => bindO (deref heap c (fst kv)) (fun pat =>
      match pat_nodal_f pat n with None => Some fn | Some f =>
          bindO (dget (fst kv) (c_curve c)) (fun curve => bindO (nth_error (snd curve) t) (fun w =>
          Some (ladd fn (lscale w (lscale (snd kv) f))))) end))) l (Some v0) = Some v
     /\ List.length v = 6%nat
     /\ forall i, nth i v 0 = nth i v0 0 + lsum (map (fun kv => snd kv * weight c t (fst kv) * nodal_comp heap c n i (fst kv)) l)) as G.
  { induction l as [|[p k] l IH]; intros v0 HK HL; simpl.
    - exists v0. repeat split; auto. intros; lra.
    - destruct (HD p) as (pat & ED & OK); [apply HK; left; auto|].
      destruct (HC p) as (cv & EC & LC); [apply HK; left; auto|].
      rewrite ED. simpl.
      assert (weight c t p = nth t (snd cv) 0) as EWt by (unfold weight; now rewrite EC).
      destruct (pat_nodal_f pat n) as [f|] eqn:EF.
      + destruct (nth_error (snd cv) t) as [w|] eqn:EW; [|apply nth_error_None in EW; lia].
        rewrite EC. simpl. rewrite EW. simpl.
        assert (List.length f = 6%nat) as LF.
        { destruct OK as (O1 & _). eapply O1. apply dget_some_in. exact EF. }
        destruct (IH (ladd v0 (lscale w (lscale k f)))) as (v & E1 & E2 & E3).
        { intros q Hq. apply HK. right; auto. }
        { rewrite ladd_length; rewrite ?lscale_length; lia. }
        exists v. split; [exact E1|]. split; [exact E2|]. intros i. rewrite E3.
        rewrite ladd_nth by (rewrite !lscale_length; lia). rewrite !lscale_nth.
        assert (nodal_comp heap c n i p = nth i f 0) as -> by (unfold nodal_comp; now rewrite ED, EF).
        rewrite EWt, (nth_error_nth (snd cv) t 0 EW). lra.
      + destruct (IH v0) as (v & E1 & E2 & E3); auto.
        { intros q Hq. apply HK. right; auto. }
        exists v. split; [exact E1|]. split; [exact E2|]. intros i. rewrite E3.
        assert (nodal_comp heap c n i p = 0) as -> by (unfold nodal_comp; now rewrite ED, EF). lra. }
  destruct (G (c_factor c) (zeros 6)) as (v & E1 & E2 & E3); auto.
  exists v. split; [exact E1|]. split; [exact E2|]. intros i. rewrite E3, zeros_nth. lra.
Qed.

(** ** The member load of a case *)
Definition beam_comp (heap : list pattern) (c : lcase) (n : string) (l : R) (i : nat) (p : string) : R :=
  match deref heap c p with Some pat => nth i (pat_beam_f pat n l) 0 | None => 0 end.

Lemma case_beam_f_sum heap c n l :
  (forall p, In p (dkeys (c_factor c)) -> exists pat, deref heap c p = Some pat) ->
  exists v, case_beam_f heap c n l = Some v /\ List.length v = 12%nat
   /\ forall i, nth i v 0 = lsum (map (fun kv => snd kv * beam_comp heap c n l i (fst kv)) (c_factor c)).
Proof.
  intros HD. unfold case_beam_f.
  assert (forall q v0, (forall p, In p (dkeys q) -> In p (dkeys (c_factor c))) -> List.length v0 = 12%nat ->
    exists v, fold_left (fun acc kv => bindO acc (fun fe => bindO (deref heap c (fst kv)) (fun pat =>
      Some (ladd fe (lscale (snd kv) (pat_beam_f pat n l)))))) q (Some v0) = Some v
     /\ List.length v = 12%nat
     /\ forall i, nth i v 0 = nth i v0 0 + lsum (map (fun kv => snd kv * beam_comp heap c n l i (fst kv)) q)) as G.
  { induction q as [|[p k] q IH]; intros v0 HK HL; simpl.
    - exists v0. repeat split; auto. intros; lra.
    - destruct (HD p) as (pat & ED); [apply HK; left; auto|].
      rewrite ED. simpl.
      destruct (IH (ladd v0 (lscale k (pat_beam_f pat n l)))) as (v & E1 & E2 & E3).
      { intros r Hr. apply HK. right; auto. }
      { rewrite ladd_length; rewrite ?lscale_length, ?pat_beam_f_length; lia. }
      exists v. split; [exact E1|]. split; [exact E2|]. intros i. rewrite E3.
      rewrite ladd_nth by (rewrite lscale_length, pat_beam_f_length; lia). rewrite !lscale_nth.
      assert (beam_comp heap c n l i p = nth i (pat_beam_f pat n l) 0) as -> by (unfold beam_comp; now rewrite ED). lra. }
  destruct (G (c_factor c) (zeros 12)) as (v & E1 & E2 & E3); auto.
  exists v. split; [exact E1|]. split; [exact E2|]. intros i. rewrite E3, zeros_nth. lra.
Qed.

(** ** Cases of well-formed states *)
Lemma case_deref heap k c :
  case_ok heap k c -> heap_ok heap ->
  forall p, In p (dkeys (c_factor c)) -> exists pat, deref heap c p = Some pat /\ pat_ok pat /\ p_name pat = p.
Proof.
  intros OK HO p Hp. rewrite <- (co_pkeys _ _ _ OK) in Hp. apply dget_in_keys in Hp as [a Ha].
  destruct (co_pat _ _ _ OK p a (dget_some_in _ _ _ Ha)) as (pt & H1 & H2).
  exists pt. unfold deref. rewrite Ha. simpl. split; auto. split; auto. eapply HO; eauto.
Qed.
Lemma case_curve heap k c t :
  case_ok heap k c -> (t < 2)%nat ->
  forall p, In p (dkeys (c_factor c)) ->
    (exists cv, dget p (c_curve c) = Some cv /\ (t < List.length (snd cv))%nat) /\ weight c t p = 1.
Proof.
  intros OK Ht p Hp. rewrite <- (co_ckeys _ _ _ OK) in Hp. apply dget_in_keys in Hp as [cv Hc].
  pose proof (co_curve _ _ _ OK p cv (dget_some_in _ _ _ Hc)) as ->. split.
  - exists default_curve. simpl. auto.
  - unfold weight. rewrite Hc. simpl. destruct t as [|[|t]]; auto. lia.
Qed.
