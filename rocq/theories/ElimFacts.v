(** Elimination of restrained equations and expansion of the solution. *)
From Coq Require Import Reals Lra Lia List String Arith Bool ZArith Sorting.Sorted Sorting.Permutation.
From Verif Require Import Base BaseFacts Csys Sections Element Load FeModel Assembly Solver Post Api SpecApi SpecElim.
Import ListNotations.
Local Open Scope nat_scope.

Lemma memb_spec x l : memb x l = true <-> In x l.
Proof.
  unfold memb. rewrite existsb_exists. split.
  - intros (y & H & E). apply Nat.eqb_eq in E. congruence.
  - intros H. exists x. split; auto. apply Nat.eqb_refl.
Qed.
Lemma memb_false x l : memb x l = false <-> ~ In x l.
Proof. rewrite <- memb_spec. destruct (memb x l); split; intros; congruence. Qed.

Lemma nodup_app {A} (l m : list A) : NoDup l -> NoDup m -> (forall x, In x l -> ~ In x m) -> NoDup (l ++ m).
Proof.
  induction 1 as [|y l H H' IH]; simpl; intros HM HD; auto. constructor.
  - rewrite in_app_iff. intros [HI|HI]; auto. eapply HD; eauto.
  - apply IH; auto.
Qed.

(** ** Sorting *)
Lemma insert_perm x l : Permutation (insert_sorted x l) (x :: l).
Proof.
  induction l as [|y r IH]; simpl; auto. destruct (Nat.leb x y); auto.
  rewrite IH. apply perm_swap.
Qed.
Lemma sort_perm l : Permutation (sort l) l.
Proof. induction l; simpl; auto. unfold sort in *. simpl. rewrite insert_perm. auto. Qed.
Lemma insert_strict x l : StronglySorted lt l -> ~ In x l -> StronglySorted lt (insert_sorted x l).
Proof.
  induction 1 as [|y r HS IH HF]; simpl; intros N.
  - repeat constructor.
  - destruct (Nat.leb_spec x y).
    + assert (x < y) by (assert (x <> y) by (intros ->; apply N; left; reflexivity); lia). constructor; [constructor; auto|].
      constructor; auto. eapply Forall_impl; [|exact HF]. simpl; intros; lia.
    + constructor; [apply IH; tauto|]. apply Forall_forall. intros z Hz.
      apply (Permutation_in _ (insert_perm x r)) in Hz. destruct Hz as [<-|Hz]; auto.
      rewrite Forall_forall in HF. auto.
Qed.
Lemma sort_strict l : NoDup l -> StronglySorted lt (sort l).
Proof.
  induction 1; simpl; [constructor|]. unfold sort in *. simpl. apply insert_strict; auto.
  intros HI. apply H. apply (Permutation_in _ (sort_perm l)). exact HI.
Qed.
Lemma strict_nodup l : StronglySorted lt l -> NoDup l.
Proof.
  induction 1 as [|x r HS IH HF]; constructor; auto. intros HI. rewrite Forall_forall in HF. apply HF in HI. lia.
Qed.
Lemma strict_unique l m : StronglySorted lt l -> StronglySorted lt m -> (forall x, In x l <-> In x m) -> l = m.
Proof.
  intros HL. revert m. induction HL as [|x r HS IH HF]; intros m HM HE.
  - destruct m; auto. exfalso. apply (proj2 (HE n)). left; auto.
  - destruct HM as [|y s HS' HF'].
    + exfalso. apply (proj1 (HE x)). left; auto.
    + rewrite Forall_forall in HF, HF'.
      assert (x = y).
      { destruct (proj1 (HE x) (or_introl eq_refl)) as [E|E]; auto.
        destruct (proj2 (HE y) (or_introl eq_refl)) as [E'|E']; auto.
        apply HF in E'. apply HF' in E. lia. }
      subst. f_equal. apply IH; auto. intros z. split; intros HZ.
      * destruct (proj1 (HE z) (or_intror HZ)) as [E|E]; auto. subst. apply HF in HZ. lia.
      * destruct (proj2 (HE z) (or_intror HZ)) as [E|E]; auto. subst. apply HF' in HZ. lia.
Qed.
Lemma seq_strict a n : StronglySorted lt (seq a n).
Proof.
  revert a; induction n; intros a; simpl; constructor; auto.
  apply Forall_forall. intros x H. apply in_seq in H. lia.
Qed.
Lemma filter_strict f l : StronglySorted lt l -> StronglySorted lt (filter f l).
Proof.
  induction 1 as [|x r HS IH HF]; simpl; [constructor|]. destruct (f x); auto. constructor; auto.
  apply Forall_forall. intros y H. apply filter_In in H as [H _]. rewrite Forall_forall in HF. auto.
Qed.

Definition free (n : nat) (idx : list nat) : list nat := filter (fun i => negb (memb i idx)) (seq 0 n).
Lemma free_in n idx q : In q (free n idx) <-> q < n /\ ~ In q idx.
Proof.
  unfold free. rewrite filter_In, in_seq, Bool.negb_true_iff, memb_false. intuition lia.
Qed.
Lemma free_strict n idx : StronglySorted lt (free n idx).
Proof. apply filter_strict, seq_strict. Qed.
Lemma lists_free_unique n idx F : lists_free n (fun q => In q idx) F -> F = free n idx.
Proof.
  intros [HS HF]. apply strict_unique; auto. apply free_strict. intros x. now rewrite HF, free_in.
Qed.
Lemma free_lists n idx : lists_free n (fun q => In q idx) (free n idx).
Proof. split; [apply free_strict|]. intros; apply free_in. Qed.
Lemma lists_free_ext n P Q F : (forall q, q < n -> (P q <-> Q q)) -> lists_free n P F -> lists_free n Q F.
Proof.
  intros H [HS HF]. split; auto. intros q. rewrite HF. split; intros [H1 H2]; split; auto; intros H3; apply H2; apply H; auto.
Qed.

Lemma free_length n idx : NoDup idx -> (forall i, In i idx -> i < n) -> List.length (free n idx) = n - List.length idx.
Proof.
  intros ND HB.
  assert (Permutation (free n idx ++ idx) (seq 0 n)) as HP.
  { apply NoDup_Permutation.
    - apply nodup_app; auto.
      + apply strict_nodup, free_strict.
      + intros x H. apply free_in in H. tauto.
    - apply seq_NoDup.
    - intros x. rewrite in_app_iff, free_in, in_seq. split.
      + intros [[]|H]; [lia|]. apply HB in H. lia.
      + intros [_ H]. destruct (in_dec Nat.eq_dec x idx); auto.  }
  apply Permutation_length in HP. rewrite app_length, seq_length in HP. lia.
Qed.

(** ** Renumbering *)
Definition below (x : nat) (l : list nat) : nat := List.length (filter (fun i => Nat.ltb i x) l).
Definition between (i x : nat) (l : list nat) : nat :=
  List.length (filter (fun j => Nat.ltb i j && Nat.ltb j x)%bool l).

Lemma compact_fold x L y :
  StronglySorted gt L -> ~ In x L -> y <= x ->
  (forall i, In i L -> i < x -> i + 1 + between i x L <= y) ->
  fold_left (fun x i => if Nat.ltb i x then x - 1 else x) L y = y - below x L.
Proof.
  intros HS. revert y. induction HS as [|i L HS IH HF]; intros y N Hy HB; simpl.
  - unfold below; simpl. lia.
  - rewrite Forall_forall in HF. unfold below. simpl. fold (below x L).
    assert (i <> x) as Nix by (intros ->; apply N; left; auto).
    destruct (Nat.ltb_spec i x) as [Hi|Hi].
    + pose proof (HB i (or_introl eq_refl) Hi) as Hb.
      destruct (Nat.ltb_spec i y) as [Hiy|Hiy]; [|lia].
      rewrite IH.
      * simpl. fold (below x L). lia.
      * intros H; apply N; right; auto.
      * lia.
      * intros k Hk Hkx. pose proof (HB k (or_intror Hk) Hkx) as H. unfold between in H. simpl in H.
        assert (k < i) by (apply HF; auto).
        destruct (Nat.ltb_spec k i); [|lia]. destruct (Nat.ltb_spec i x); [|lia]. simpl in H.
        fold (between k x L) in H. lia.
    + destruct (Nat.ltb_spec i y) as [Hiy|Hiy]; [lia|].
      rewrite IH; auto.
      * intros H; apply N; right; auto.
      * intros k Hk Hkx. pose proof (HB k (or_intror Hk) Hkx) as H. unfold between in H. simpl in H.
        destruct (Nat.ltb_spec i x); [lia|]. rewrite Bool.andb_false_r in H. exact H.
Qed.

Lemma between_le i x l : NoDup l -> i < x -> i + 1 + between i x l <= x.
Proof.
  intros ND H. unfold between.
  assert (List.length (filter (fun j => Nat.ltb i j && Nat.ltb j x)%bool l) <= List.length (seq (i+1) (x-i-1))).
  { apply NoDup_incl_length; [now apply NoDup_filter|]. intros y Hy. apply filter_In in Hy as [_ Hy].
    apply Bool.andb_true_iff in Hy as [H1 H2]. apply Nat.ltb_lt in H1, H2. apply in_seq. lia. }
  rewrite seq_length in H0. lia.
Qed.

Lemma below_perm x l m : Permutation l m -> below x l = below x m.
Proof. intros H. unfold below. apply Permutation_length. induction H; simpl; auto.
  - destruct (Nat.ltb x0 x); auto.
  - destruct (Nat.ltb y x), (Nat.ltb x0 x); auto. apply perm_swap.
  - etransitivity; eauto.
Qed.

Lemma rev_strict l : StronglySorted lt l -> StronglySorted gt (rev l).
Proof.
  induction 1 as [|x r HS IH HF]; simpl; [constructor|].
  assert (forall a b, StronglySorted gt a -> Forall (fun y => y > b) a -> StronglySorted gt (a ++ [b])) as G.
  { intros a b H. induction H as [|y s H1 H2 H3]; simpl; intros HB.
    - repeat constructor.
    - inversion HB; subst. constructor; auto. apply Forall_app. split; auto. }
  apply G; auto. apply Forall_forall. intros y Hy. apply in_rev in Hy. rewrite Forall_forall in HF. apply HF; auto.
Qed.

Lemma compact_below idx x : NoDup idx -> ~ In x idx -> compact idx x = x - below x idx.
Proof.
  intros ND N. unfold compact.
  assert (Permutation (rev (sort idx)) idx) as HP.
  { rewrite <- Permutation_rev. apply sort_perm. }
  rewrite compact_fold with (x := x); auto.
  - now rewrite (below_perm x _ _ HP).
  - apply rev_strict, sort_strict, ND.
  - intros H. apply N. eapply Permutation_in; eauto.
  - intros i Hi Hx. apply between_le; auto. eapply Permutation_NoDup; [symmetry; exact HP|exact ND].
Qed.

Lemma nth_strict_lt F a b : StronglySorted lt F -> a < b -> b < List.length F -> nth a F 0 < nth b F 0.
Proof.
  intros HS. revert a b. induction HS as [|x r HS IH HF]; intros a b Hab Hb; simpl in *; [lia|].
  rewrite Forall_forall in HF. destruct b; [lia|]. destruct a; simpl.
  - apply HF. apply nth_In. lia.
  - apply IH; lia.
Qed.

Lemma nth_strict_inj F a b : StronglySorted lt F -> a < List.length F -> b < List.length F ->
  nth a F 0 = nth b F 0 -> a = b.
Proof.
  intros HS Ha Hb E. destruct (lt_eq_lt_dec a b) as [[H|H]|H]; auto.
  - apply (nth_strict_lt F) in H; auto. lia.
  - apply (nth_strict_lt F) in H; auto. lia.
Qed.

Lemma firstn_below F a : StronglySorted lt F -> a < List.length F ->
  filter (fun i => Nat.ltb i (nth a F 0)) F = firstn a F.
Proof.
  intros HS. revert a. induction HS as [|x r HS IH HF]; intros a Ha; simpl in *; [lia|].
  rewrite Forall_forall in HF. destruct a; simpl.
  - rewrite Nat.ltb_irrefl. clear -HF. induction r as [|y r IH]; simpl; auto.
    destruct (Nat.ltb_spec y x).
    + specialize (HF y (or_introl eq_refl)). lia.
    + apply IH. intros; apply HF; right; auto.
  - assert (x < nth a r 0) by (apply HF, nth_In; lia).
    destruct (Nat.ltb_spec x (nth a r 0)); [|lia]. f_equal. apply IH. lia.
Qed.

Lemma below_seq x m : forall s, x <= s + m -> s <= x -> List.length (filter (fun i => Nat.ltb i x) (seq s m)) = x - s.
Proof.
  induction m; intros s H1 H2; simpl; [lia|].
  destruct (Nat.ltb_spec s x); simpl; [rewrite IHm; lia|].
  assert (forall m s, x <= s -> filter (fun i => Nat.ltb i x) (seq s m) = []) as G.
  { clear. induction m; intros s H; simpl; auto. destruct (Nat.ltb_spec s x); [lia|]. apply IHm; lia. }
  rewrite G; simpl; lia.
Qed.

Lemma free_position n idx a : NoDup idx -> (forall i, In i idx -> i < n) -> a < List.length (free n idx) ->
  compact idx (nth a (free n idx) 0) = a.
Proof.
  intros ND HB Ha. set (F := free n idx) in *. set (x := nth a F 0).
  assert (In x F) as Hx by (apply nth_In; auto). apply free_in in Hx as [Hn Hni].
  rewrite compact_below by auto.
  assert (below x F = a) as HF.
  { unfold below, x. rewrite firstn_below; auto. - rewrite firstn_length. lia. - apply free_strict. }
  assert (below x (F ++ idx) = x) as HT.
  { rewrite (below_perm x _ (seq 0 n)).
    - unfold below. rewrite below_seq; lia.
    - apply NoDup_Permutation.
      + apply nodup_app; auto. { apply strict_nodup, free_strict. }
        intros y H. apply free_in in H. tauto.
      + apply seq_NoDup.
      + intros y. rewrite in_app_iff, in_seq. unfold F. rewrite free_in. split.
        * intros [[]|H]; [lia|]. apply HB in H. lia.
        * intros [_ H]. destruct (in_dec Nat.eq_dec y idx); auto.  }
  unfold below in HT, HF |- *. rewrite filter_app, app_length in HT. lia.
Qed.

Lemma free_compact n idx x : NoDup idx -> (forall i, In i idx -> i < n) -> x < n -> ~ In x idx ->
  compact idx x < List.length (free n idx) /\ nth (compact idx x) (free n idx) 0 = x.
Proof.
  intros ND HB Hn Hx.
  assert (In x (free n idx)) as HI by (apply free_in; auto).
  apply In_nth with (d := 0) in HI as (a & Ha & E). rewrite <- E.
  rewrite free_position; auto.
Qed.

Local Open Scope R_scope.
Lemma drop_matrix_free n M idx :
  NoDup idx -> (forall i, In i idx -> (i < n)%nat) -> coo_inrange n n M = true ->
  exists A, drop_matrix n M idx = Some (List.length (free n idx), A)
    /\ coo_inrange (List.length (free n idx)) (List.length (free n idx)) A = true
    /\ forall a b, (a < List.length (free n idx))%nat -> (b < List.length (free n idx))%nat ->
        coo_get A a b = coo_get M (nth a (free n idx) O) (nth b (free n idx) O).
Proof.
  intros ND HB HM. unfold drop_matrix. rewrite <- (free_length n idx ND HB).
  assert (List.length idx <= n)%nat as HL.
  { rewrite <- (seq_length n 0). apply NoDup_incl_length; auto. intros i Hi. apply in_seq. apply HB in Hi. lia. }
  destruct (Nat.ltb_spec n (List.length idx)); [lia|].
  set (F := free n idx) in *.
  set (kept := filter _ M). set (moved := map _ kept).
  rewrite coo_inrange_spec in HM.
  assert (forall r c v, In (r, c, v) kept <-> In (r, c, v) M /\ ~ In r idx /\ ~ In c idx) as HK.
  { intros r c v. unfold kept. rewrite filter_In, Bool.andb_true_iff, !Bool.negb_true_iff, !memb_false. tauto. }
  assert (coo_inrange (List.length F) (List.length F) moved = true) as HR.
  { apply coo_inrange_spec. intros r c v Hi. unfold moved in Hi. apply in_map_iff in Hi as ([[r' c'] v'] & E & Hi).
    inversion E; subst. apply HK in Hi as (Hi & N1 & N2). apply HM in Hi as [H1 H2].
    split; apply free_compact; auto. }
  exists moved. unfold coo_make. rewrite HR. simpl. split; [reflexivity|]. split; [reflexivity|].
  intros a b Ha Hb. unfold moved, kept. clear HK HR kept moved.
  induction M as [|[[r c] v] M IH]; simpl; auto.
  assert (forall r c v, In (r, c, v) M -> (r < n)%nat /\ (c < n)%nat) as HM' by (intros; eapply HM; right; eauto).
  specialize (IH HM'). destruct (HM r c v (or_introl eq_refl)) as [Hr Hc].
  destruct (memb r idx) eqn:E1; simpl.
  - rewrite IH. apply memb_spec in E1.
    destruct (Nat.eqb_spec r (nth a F O)); simpl; [|lra].
    exfalso. assert (In (nth a F O) F) as HI by (apply nth_In; auto). apply free_in in HI as [_ HI]. congruence.
  - destruct (memb c idx) eqn:E2; simpl.
    + rewrite IH. apply memb_spec in E2.
      destruct (Nat.eqb_spec c (nth b F O)); simpl; [|rewrite Bool.andb_false_r; lra].
      exfalso. assert (In (nth b F O) F) as HI by (apply nth_In; auto). apply free_in in HI as [_ HI]. congruence.
    + rewrite IH. f_equal. apply memb_false in E1, E2.
      destruct (free_compact n idx r ND HB Hr E1) as [P1 P2].
      destruct (free_compact n idx c ND HB Hc E2) as [Q1 Q2].
      assert (Nat.eqb (compact idx r) a = Nat.eqb r (nth a F O)) as ->.
      { apply Bool.eq_iff_eq_true. rewrite !Nat.eqb_eq. split; intros E.
        - rewrite <- P2, E. reflexivity.
        - rewrite E. apply free_position; auto. }
      assert (Nat.eqb (compact idx c) b = Nat.eqb c (nth b F O)) as ->.
      { apply Bool.eq_iff_eq_true. rewrite !Nat.eqb_eq. split; intros E.
        - rewrite <- Q2, E. reflexivity.
        - rewrite E. apply free_position; auto. }
      reflexivity.
Qed.

Lemma c16_elimination :
  forall n M idx F, NoDup idx -> (forall i, In i idx -> (i < n)%nat) ->
  (forall r c v, In (r, c, v) M -> (r < n /\ c < n)%nat) ->
  lists_free n (fun q => In q idx) F ->
  exists A, drop_matrix n M idx = Some (List.length F, A)
    /\ (forall a b, (a < List.length F)%nat -> (b < List.length F)%nat ->
        coo_get A a b = coo_get M (nth a F O) (nth b F O))
    /\ (forall a b, (List.length F <= a \/ List.length F <= b)%nat -> coo_get A a b = 0).
Proof.
  intros n M idx F ND HB HM HF. apply lists_free_unique in HF. subst F.
  destruct (drop_matrix_free n M idx ND HB) as (A & E1 & E2 & E3). { now apply coo_inrange_spec. }
  exists A. split; [exact E1|]. split; [exact E3|]. intros a b H. eapply coo_get_outside; eauto.
Qed.

Lemma nth_map_lt (f : nat -> R) l a : (a < List.length l)%nat -> nth a (map f l) 0 = f (nth a l O).
Proof.
  intros H. rewrite (nth_indep _ 0 (f O)) by now rewrite map_length. apply map_nth.
Qed.

(** ** C17 *)
Lemma c17_vector :
  forall n V idx F, lists_free n (fun q => In q idx) F ->
  drop_vector n V idx = map (fun q => coo_get V q 0) F
  /\ List.length (drop_vector n V idx) = List.length F
  /\ forall a, (a < List.length F)%nat -> nth a (drop_vector n V idx) 0 = coo_get V (nth a F O) 0.
Proof.
  intros n V idx F HF. apply lists_free_unique in HF. subst F.
  assert (drop_vector n V idx = map (fun q => coo_get V q 0) (free n idx)) as E by reflexivity.
  split; [exact E|]. rewrite E. split; [apply map_length|]. intros a Ha.
  now apply (nth_map_lt (fun q => coo_get V q 0)).
Qed.

(** ** C18 *)
Lemma expand_free k : forall i restr delta,
  StronglySorted lt restr -> (forall r, In r restr -> (i <= r < i + k)%nat) ->
  List.length delta = List.length (filter (fun j => negb (memb j restr)) (seq i k)) ->
  exists d, expand i k restr delta = Some d /\ List.length d = k
    /\ (forall q, In q restr -> nth (q - i) d 0 = 0)
    /\ map (fun q => nth (q - i) d 0) (filter (fun j => negb (memb j restr)) (seq i k)) = delta.
Proof.
  induction k as [|k IH]; intros i restr delta HS HB HL.
  - exists []. simpl in *. destruct delta; [|discriminate]. repeat split; auto. intros q Hq. apply HB in Hq. lia.
  - assert (forall l d x, (forall q, In q l -> (S i <= q)%nat) -> map (fun q => nth (q - i) (x :: d) 0) l
               = map (fun q => nth (q - S i) d 0) l) as MS.
    { intros l d x Hl. apply map_ext_in. intros q Hq. apply Hl in Hq.
      replace (q - i)%nat with (S (q - S i)) by lia. reflexivity. }
    assert (forall f q, In q (filter f (seq (S i) k)) -> (S i <= q)%nat) as SQ.
    { intros f q Hq. apply filter_In in Hq as [Hq _]. apply in_seq in Hq. lia. }
    cbn [seq filter] in HL |- *. destruct (memb i restr) eqn:EM; cbn [negb] in HL |- *.
    + apply memb_spec in EM. destruct HS as [|r rs HS HF]; [easy|]. rewrite Forall_forall in HF.
      assert (r = i) as ->.
      { destruct EM as [E|E]; auto. pose proof (HF _ E). pose proof (HB r (or_introl eq_refl)). lia. }
      assert (filter (fun j => negb (memb j (i :: rs))) (seq (S i) k) = filter (fun j => negb (memb j rs)) (seq (S i) k)) as EF.
      { apply filter_ext_in. intros q Hq. apply in_seq in Hq. f_equal. simpl.
        destruct (Nat.eqb_spec q i); [lia|reflexivity]. }
      rewrite EF in HL |- *.
      destruct (IH (S i) rs delta) as (d & D1 & D2 & D3 & D4); auto.
      { intros q Hq. pose proof (HF q Hq). pose proof (HB q (or_intror Hq)). lia. }
      exists (0 :: d). cbn [expand]. rewrite Nat.eqb_refl, D1. simpl bindO.
      split; [reflexivity|]. split; [simpl; auto|]. split.
      * intros q [<-|Hq]; [rewrite Nat.sub_diag; reflexivity|].
        pose proof (HF q Hq). replace (q - i)%nat with (S (q - S i)) by lia. simpl. auto.
      * rewrite MS; auto. apply SQ.
    + apply memb_false in EM. destruct delta as [|x delta]; [discriminate|]. simpl in HL.
      destruct (IH (S i) restr delta) as (d & D1 & D2 & D3 & D4); auto.
      { intros q Hq. pose proof (HB q Hq). assert (q <> i) by congruence. lia. }
      exists (x :: d).
      assert (expand i (S k) restr (x :: delta) = Some (x :: d)) as EE.
      { cbn [expand]. destruct restr as [|r rs]; [now rewrite D1|].
        destruct (Nat.eqb_spec i r); [exfalso; apply EM; left; auto|]. now rewrite D1. }
      split; [exact EE|]. split; [simpl; auto|]. split.
      * intros q Hq. pose proof (HB q Hq). assert (q <> i) by congruence.
        replace (q - i)%nat with (S (q - S i)) by lia. simpl. auto.
      * rewrite map_cons, MS by apply SQ. rewrite Nat.sub_diag. f_equal. exact D4.
Qed.

Lemma sort_memb l x : memb x (sort l) = memb x l.
Proof.
  apply Bool.eq_iff_eq_true. rewrite !memb_spec. split; apply Permutation_in; [|symmetry]; apply sort_perm.
Qed.
Lemma free_sort n l : filter (fun j => negb (memb j (sort l))) (seq 0 n) = free n l.
Proof. unfold free. apply filter_ext. intros; now rewrite sort_memb. Qed.

Lemma expand_sort n idx delta :
  NoDup idx -> (forall i, In i idx -> (i < n)%nat) -> List.length delta = List.length (free n idx) ->
  exists d, expand 0 n (sort idx) delta = Some d /\ List.length d = n
    /\ (forall q, In q idx -> nth q d 0 = 0)
    /\ map (fun q => nth q d 0) (free n idx) = delta.
Proof.
  intros ND HB HL. destruct (expand_free n 0 (sort idx) delta) as (d & D1 & D2 & D3 & D4).
  - now apply sort_strict.
  - intros r Hr. apply (Permutation_in _ (sort_perm idx)) in Hr. apply HB in Hr. lia.
  - now rewrite free_sort.
  - exists d. split; [exact D1|]. split; [exact D2|]. split.
    + intros q Hq. specialize (D3 q). rewrite Nat.sub_0_r in D3. apply D3. eapply Permutation_in; [symmetry; apply sort_perm|auto].
    + rewrite <- D4, free_sort. apply map_ext. intros; f_equal; lia.
Qed.

Lemma c18_expansion :
  forall n idx F delta, NoDup idx -> (forall i, In i idx -> (i < n)%nat) ->
  lists_free n (fun q => In q idx) F -> List.length delta = List.length F ->
  exists d, expand 0 n (sort idx) delta = Some d /\ List.length d = n
    /\ (forall q, In q idx -> nth q d 0 = 0)
    /\ (forall a, (a < List.length F)%nat -> nth (nth a F O) d 0 = nth a delta 0)
    /\ map (fun q => nth q d 0) F = delta.
Proof.
  intros n idx F delta ND HB HF HL. apply lists_free_unique in HF. subst F.
  destruct (expand_sort n idx delta ND HB HL) as (d & D1 & D2 & D3 & D4).
  exists d. repeat split; auto. intros a Ha. rewrite <- D4.
  now rewrite (nth_map_lt (fun q => nth q d 0)).
Qed.

(** Too few values: an error; surplus values are left over. *)
Lemma expand_short k : forall i restr delta,
  StronglySorted lt restr -> (forall r, In r restr -> (i <= r < i + k)%nat) ->
  (List.length delta < List.length (filter (fun j => negb (memb j restr)) (seq i k)))%nat ->
  expand i k restr delta = None.
Proof.
  induction k as [|k IH]; intros i restr delta HS HB HL; [simpl in HL; lia|].
  cbn [seq filter] in HL. destruct (memb i restr) eqn:EM; cbn [negb] in HL.
  + apply memb_spec in EM. destruct HS as [|r rs HS HF]; [easy|]. rewrite Forall_forall in HF.
    assert (r = i) as ->.
    { destruct EM as [E|E]; auto. pose proof (HF _ E). pose proof (HB r (or_introl eq_refl)). lia. }
    assert (filter (fun j => negb (memb j (i :: rs))) (seq (S i) k) = filter (fun j => negb (memb j rs)) (seq (S i) k)) as EF.
    { apply filter_ext_in. intros q Hq. apply in_seq in Hq. f_equal. simpl.
      destruct (Nat.eqb_spec q i); [lia|reflexivity]. }
    rewrite EF in HL. cbn [expand]. rewrite Nat.eqb_refl, IH; auto.
    intros q Hq. pose proof (HF q Hq). pose proof (HB q (or_intror Hq)). lia.
  + apply memb_false in EM.
    assert (forall q, In q restr -> (S i <= q < S i + k)%nat) as HB'.
    { intros q Hq. pose proof (HB q Hq). assert (q <> i) by congruence. lia. }
    cbn [expand]. destruct restr as [|r rs].
    * destruct delta as [|x delta]; auto. rewrite IH; auto. apply Nat.succ_lt_mono. exact HL.
    * destruct (Nat.eqb_spec i r); [exfalso; apply EM; left; auto|].
      destruct delta as [|x delta]; auto. rewrite IH; auto. apply Nat.succ_lt_mono. exact HL.
Qed.

Lemma c18_too_short :
  forall n idx F delta, NoDup idx -> (forall i, In i idx -> (i < n)%nat) ->
  lists_free n (fun q => In q idx) F -> (List.length delta < List.length F)%nat ->
  expand 0 n (sort idx) delta = None.
Proof.
  intros n idx F delta ND HB HF HL. apply lists_free_unique in HF. subst F.
  apply expand_short.
  - now apply sort_strict.
  - intros r Hr. apply (Permutation_in _ (sort_perm idx)) in Hr. apply HB in Hr. lia.
  - now rewrite free_sort.
Qed.
