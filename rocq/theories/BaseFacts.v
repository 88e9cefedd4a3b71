(** Lemmas about the base structures (no model definitions here). *)
From Coq Require Import Reals Lra List String Arith Lia Permutation Bool.
From Verif Require Import Base.
Import ListNotations.

(** ** Dictionaries *)
Section Dict.
Context {A : Type}.
Implicit Types (d : dict A) (k : string) (v : A).

Lemma dget_dset_eq d k v : dget k (dset k v d) = Some v.
Proof.
  induction d as [|[k' v'] r IH]; simpl.
  - now rewrite String.eqb_refl.
  - destruct (String.eqb k k') eqn:E; simpl; rewrite E; auto.
Qed.

Lemma dget_dset_neq d k k' v : k <> k' -> dget k (dset k' v d) = dget k d.
Proof.
  intros N; induction d as [|[q w] r IH]; simpl.
  - destruct (String.eqb_spec k k'); congruence.
  - destruct (String.eqb_spec k' q); simpl.
    + subst. destruct (String.eqb_spec k q); congruence.
    + destruct (String.eqb k q); auto.
Qed.

Lemma dget_dset d k k' v :
  dget k (dset k' v d) = if String.eqb k k' then Some v else dget k d.
Proof.
  destruct (String.eqb_spec k k'); subst.
  - apply dget_dset_eq.
  - now apply dget_dset_neq.
Qed.

Lemma dget_some_in d k v : dget k d = Some v -> In (k, v) d.
Proof.
  induction d as [|[q w] r IH]; simpl; [easy|].
  destruct (String.eqb_spec k q); intros H.
  - inversion H; subst; auto.
  - auto.
Qed.

Lemma dget_none_notin d k : dget k d = None <-> ~ In k (dkeys d).
Proof.
  induction d as [|[q w] r IH]; simpl; [tauto|].
  destruct (String.eqb_spec k q); subst.
  - split; [easy | intros H; exfalso; apply H; auto].
  - rewrite IH. split; intros H; [intros [E|E]; congruence || auto | tauto].
Qed.

Lemma dget_in_keys d k : In k (dkeys d) <-> exists v, dget k d = Some v.
Proof.
  destruct (dget k d) eqn:E.
  - split; eauto. intros _. apply in_map_iff. exists (k, a). split; auto. now apply dget_some_in.
  - apply dget_none_notin in E. split; [tauto | intros [v H]; congruence].
Qed.

Lemma dmem_spec d k : dmem k d = true <-> In k (dkeys d).
Proof.
  unfold dmem. rewrite dget_in_keys. destruct (dget k d); split; eauto; try easy.
  intros [v H]; congruence.
Qed.

Lemma in_dget_nodup d k v : NoDup (dkeys d) -> In (k, v) d -> dget k d = Some v.
Proof.
  induction d as [|[q w] r IH]; simpl; intros ND HI; [easy|]. destruct HI as [E|HI].
  - inversion E; subst. now rewrite String.eqb_refl.
  - inversion ND; subst. destruct (String.eqb_spec k q); subst.
    + exfalso. apply H1. apply in_map_iff. exists (q, v). auto.
    + auto.
Qed.

Lemma dkeys_dset_old d k v : In k (dkeys d) -> dkeys (dset k v d) = dkeys d.
Proof.
  induction d as [|[q w] r IH]; simpl; [easy|].
  destruct (String.eqb_spec k q); subst; simpl; [easy|].
  intros [E|H]; [congruence|]. f_equal; auto.
Qed.

Lemma dset_new d k v : ~ In k (dkeys d) -> dset k v d = d ++ [(k, v)].
Proof.
  induction d as [|[q w] r IH]; simpl; intros H; [easy|].
  destruct (String.eqb_spec k q); subst; [exfalso; auto|].
  f_equal. auto.
Qed.

Lemma dkeys_dset_new d k v : ~ In k (dkeys d) -> dkeys (dset k v d) = dkeys d ++ [k].
Proof. intros H. rewrite dset_new by auto. unfold dkeys. now rewrite map_app. Qed.

Lemma dkeys_dset d k v :
  dkeys (dset k v d) = if dmem k d then dkeys d else dkeys d ++ [k].
Proof.
  destruct (dmem k d) eqn:E.
  - apply dkeys_dset_old, dmem_spec; auto.
  - apply dkeys_dset_new. rewrite <- dmem_spec. congruence.
Qed.

Lemma in_dkeys_dset d k k' v : In k (dkeys (dset k' v d)) <-> k = k' \/ In k (dkeys d).
Proof.
  rewrite dkeys_dset. destruct (dmem k' d) eqn:E.
  - apply dmem_spec in E. split; auto. intros [H|H]; subst; auto.
  - rewrite in_app_iff. simpl. intuition.
Qed.

Lemma nodup_dset d k v : NoDup (dkeys d) -> NoDup (dkeys (dset k v d)).
Proof.
  intros H. rewrite dkeys_dset. destruct (dmem k d) eqn:E; auto.
  assert (~ In k (dkeys d)) by (rewrite <- dmem_spec; congruence).
  apply NoDup_rev in H. rewrite <- (rev_involutive (dkeys d ++ [k])).
  apply NoDup_rev. rewrite rev_app_distr. simpl. constructor; auto.
  rewrite <- in_rev. auto.
Qed.

Lemma length_dset_old d k v : In k (dkeys d) -> List.length (dset k v d) = List.length d.
Proof.
  intros H. rewrite <- (map_length fst), <- (map_length fst d).
  change (List.length (dkeys (dset k v d)) = List.length (dkeys d)). now rewrite dkeys_dset_old.
Qed.

Lemma length_dset_new d k v : ~ In k (dkeys d) -> List.length (dset k v d) = S (List.length d).
Proof. intros H. rewrite dset_new by auto. rewrite app_length. simpl. lia. Qed.

Lemma in_dset d k v q w : In (q, w) (dset k v d) -> (q = k /\ w = v) \/ In (q, w) d.
Proof.
  induction d as [|[a b] r IH]; simpl.
  - intros [E|[]]. inversion E; auto.
  - destruct (String.eqb_spec k a); subst; simpl; intros [E|H].
    + inversion E; subst; auto.
    + auto.
    + auto.
    + apply IH in H. tauto.
Qed.

Lemma in_dvals_dset d k v w : In w (dvals (dset k v d)) -> w = v \/ In w (dvals d).
Proof.
  unfold dvals. rewrite !in_map_iff. intros [[q x] [E H]]. simpl in E; subst.
  apply in_dset in H. destruct H as [[_ H]|H]; auto. right. exists (q, w). auto.
Qed.

Lemma dget_in_dvals d k v : dget k d = Some v -> In v (dvals d).
Proof. intros H. apply dget_some_in in H. apply in_map_iff. exists (k, v). auto. Qed.

Lemma in_dvals_dget d v : NoDup (dkeys d) -> In v (dvals d) -> exists k, dget k d = Some v.
Proof.
  intros ND H. apply in_map_iff in H as [[k w] [E H]]. simpl in E; subst.
  exists k. now apply in_dget_nodup.
Qed.

Lemma dset_same d k v : dget k d = Some v -> dset k v d = d.
Proof.
  induction d as [|[q w] r IH]; simpl; [easy|].
  destruct (String.eqb_spec k q); subst; intros H.
  - now inversion H.
  - f_equal; auto.
Qed.

Lemma dset_dset d k v w : dset k v (dset k w d) = dset k v d.
Proof.
  induction d as [|[q x] r IH]; simpl.
  - now rewrite String.eqb_refl.
  - destruct (String.eqb k q) eqn:E; simpl; rewrite E; congruence.
Qed.

Lemma dget_ext_same_keys d1 d2 :
  NoDup (dkeys d1) -> dkeys d1 = dkeys d2 -> (forall k, dget k d1 = dget k d2) -> d1 = d2.
Proof.
  revert d2; induction d1 as [|[k v] r IH]; intros [|[q w] r2]; simpl; intros ND EK EG; try easy.
  inversion EK; subst. inversion ND; subst.
  pose proof (EG q) as E. simpl in E. rewrite String.eqb_refl in E. inversion E; subst.
  f_equal. apply IH; auto. intros k.
  destruct (String.eqb_spec k q).
  - subst. transitivity (@None A); [|symmetry]; apply dget_none_notin; auto. congruence.
  - specialize (EG k). simpl in EG. destruct (String.eqb_spec k q); congruence.
Qed.
End Dict.

(** ** set_nth *)
Lemma set_nth_length {A} i (v : A) l : List.length (set_nth i v l) = List.length l.
Proof. revert i; induction l; destruct i; simpl; auto. Qed.

Lemma nth_error_set_nth_eq {A} i (v : A) l :
  (i < List.length l)%nat -> nth_error (set_nth i v l) i = Some v.
Proof. revert i; induction l; destruct i; simpl; intros; auto; try lia. apply IHl; lia. Qed.

Lemma nth_error_set_nth_neq {A} i j (v : A) l :
  i <> j -> nth_error (set_nth i v l) j = nth_error l j.
Proof.
  revert i j; induction l; destruct i, j; simpl; intros; auto; try congruence.
  all: try (destruct j; reflexivity).
Qed.

Lemma nth_error_lt {A} (l : list A) i x : nth_error l i = Some x -> (i < List.length l)%nat.
Proof. intros H. apply nth_error_Some. congruence. Qed.

(** ** mapM *)
Lemma mapM_some_length {A B} (f : A -> option B) l r : mapM f l = Some r -> List.length r = List.length l.
Proof.
  revert r; induction l; simpl; intros r H.
  - inversion H; auto.
  - destruct (f a); [|easy]. destruct (mapM f l) eqn:E; [|easy]. inversion H; subst. simpl.
    f_equal; auto.
Qed.

Lemma mapM_ext {A B} (f g : A -> option B) l :
  (forall a, In a l -> f a = g a) -> mapM f l = mapM g l.
Proof.
  induction l; simpl; intros H; auto.
  rewrite (H a) by auto. destruct (g a); auto. rewrite IHl; auto.
Qed.

Lemma mapM_in {A B} (f : A -> option B) l r :
  mapM f l = Some r -> forall b, In b r -> exists a, In a l /\ f a = Some b.
Proof.
  revert r; induction l; simpl; intros r H b Hb.
  - inversion H; subst. easy.
  - destruct (f a) eqn:Ea; [|easy]. destruct (mapM f l) eqn:E; [|easy]. inversion H; subst.
    destruct Hb as [<-|Hb]; eauto.
    destruct (IHl _ eq_refl _ Hb) as (a' & ? & ?); eauto.
Qed.

Lemma mapM_all {A B} (f : A -> option B) l r :
  mapM f l = Some r -> forall a, In a l -> exists b, f a = Some b /\ In b r.
Proof.
  revert r; induction l; simpl; intros r H x Hx; [easy|].
  destruct (f a) eqn:Ea; [|easy]. destruct (mapM f l) eqn:E; [|easy]. inversion H; subst.
  destruct Hx as [<-|Hx].
  - exists b; simpl; auto.
  - destruct (IHl _ eq_refl _ Hx) as (b' & ? & ?). exists b'; simpl; auto.
Qed.

Lemma mapM_total {A B} (f : A -> option B) l :
  (forall a, In a l -> exists b, f a = Some b) -> exists r, mapM f l = Some r.
Proof.
  induction l; simpl; intros H; eauto.
  destruct (H a) as [b ->]; auto. destruct IHl as [r ->]; eauto.
Qed.

Lemma mapM_map {A B} (f : A -> option B) (g : A -> B) l :
  (forall a, In a l -> f a = Some (g a)) -> mapM f l = Some (map g l).
Proof.
  induction l; simpl; intros H; auto.
  rewrite (H a) by auto. rewrite IHl; auto.
Qed.

Lemma mapM_inv {A B} (f : A -> option B) l r :
  mapM f l = Some r -> Forall2 (fun a b => f a = Some b) l r.
Proof.
  revert r; induction l; simpl; intros r H.
  - inversion H; constructor.
  - destruct (f a) eqn:Ea; [|easy]. destruct (mapM f l) eqn:E; [|easy]. inversion H; subst.
    constructor; auto.
Qed.

Lemma mapM_of_forall2 {A B} (f : A -> option B) l r :
  Forall2 (fun a b => f a = Some b) l r -> mapM f l = Some r.
Proof. induction 1; simpl; auto. rewrite H, IHForall2. auto. Qed.

Lemma mapM_perm {A B} (f : A -> option B) l l' :
  Permutation l l' -> forall r, mapM f l = Some r ->
  exists r', mapM f l' = Some r' /\ Permutation r r'.
Proof.
  induction 1; simpl; intros r H'.
  - inversion H'; subst; eauto.
  - destruct (f x); [|easy]. destruct (mapM f l) eqn:E; [|easy]. inversion H'; subst.
    destruct (IHPermutation _ eq_refl) as (r' & -> & P). eauto.
  - destruct (f y) eqn:Ey; [|easy]. destruct (f x) eqn:Ex; [|easy].
    destruct (mapM f l) eqn:E; [|easy]. inversion H'; subst.
    eexists; split; eauto. constructor.
  - destruct (IHPermutation1 _ H') as (r1 & H1 & P1).
    destruct (IHPermutation2 _ H1) as (r2 & H2 & P2). exists r2; split; auto.
    eapply perm_trans; eauto.
Qed.

Lemma bindO_some {A B} (x : option A) (f : A -> option B) b :
  bindO x f = Some b <-> exists a, x = Some a /\ f a = Some b.
Proof.
  destruct x; simpl; split; intros H; eauto.
  - destruct H as (a' & E & H). inversion E; subst; auto.
  - easy.
  - destruct H as (a' & E & H). easy.
Qed.

(** ** Booleans on reals *)
Local Open Scope R_scope.
Lemma Rltb_true x y : Rltb x y = true <-> x < y.
Proof. unfold Rltb. destruct (Rlt_dec x y); split; intros; auto; easy || lra. Qed.
Lemma Rltb_false x y : Rltb x y = false <-> y <= x.
Proof. unfold Rltb. destruct (Rlt_dec x y); split; intros; auto; easy || lra. Qed.
Lemma Reqb_true x y : Reqb x y = true <-> x = y.
Proof. unfold Reqb. destruct (Req_EM_T x y); split; intros; auto; easy. Qed.
Lemma Reqb_false x y : Reqb x y = false <-> x <> y.
Proof. unfold Reqb. destruct (Req_EM_T x y); split; intros; auto; easy. Qed.
Lemma Reqb_refl x : Reqb x x = true.
Proof. now apply Reqb_true. Qed.

(** ** Sums *)
Lemma rsum_ext n f g : (forall i, (i < n)%nat -> f i = g i) -> rsum n f = rsum n g.
Proof. induction n; simpl; intros H; auto. rewrite IHn, H; auto. Qed.

Lemma rsum_0 n f : (forall i, (i < n)%nat -> f i = 0) -> rsum n f = 0.
Proof. induction n; simpl; intros H; auto. rewrite IHn, H; auto. lra. Qed.

Lemma rsum_plus n f g : rsum n (fun i => f i + g i) = rsum n f + rsum n g.
Proof. induction n; simpl; [lra|]. rewrite IHn. lra. Qed.

Lemma rsum_minus n f g : rsum n (fun i => f i - g i) = rsum n f - rsum n g.
Proof. induction n; simpl; [lra|]. rewrite IHn. lra. Qed.

Lemma rsum_scal n k f : rsum n (fun i => k * f i) = k * rsum n f.
Proof. induction n; simpl; [lra|]. rewrite IHn. lra. Qed.

Lemma rsum_scal_r n k f : rsum n (fun i => f i * k) = rsum n f * k.
Proof. induction n; simpl; [lra|]. rewrite IHn. lra. Qed.

Lemma rsum_swap n m f : rsum n (fun i => rsum m (fun j => f i j)) = rsum m (fun j => rsum n (fun i => f i j)).
Proof.
  induction n; simpl.
  - symmetry. apply rsum_0. auto.
  - rewrite IHn, <- rsum_plus. auto.
Qed.

Lemma rsum_single n k f : (k < n)%nat -> (forall i, (i < n)%nat -> i <> k -> f i = 0) -> rsum n f = f k.
Proof.
  induction n; simpl; intros L H; [lia|].
  destruct (Nat.eq_dec n k).
  - subst. rewrite rsum_0; [lra|]. intros; apply H; lia.
  - rewrite IHn; [|lia|intros; apply H; lia]. rewrite (H n); [lra|lia|auto].
Qed.

Lemma rsum_delta n k f : (k < n)%nat -> rsum n (fun i => if Nat.eqb k i then f i else 0) = f k.
Proof.
  intros L. rewrite (rsum_single n k); auto.
  - now rewrite Nat.eqb_refl.
  - intros i _ N. destruct (Nat.eqb_spec k i); congruence.
Qed.

Lemma rsum_nonneg n f : (forall i, (i < n)%nat -> 0 <= f i) -> 0 <= rsum n f.
Proof.
  induction n; simpl; intros H; [lra|].
  assert (0 <= rsum n f) by (apply IHn; auto). assert (0 <= f n) by auto. lra.
Qed.

Lemma rsum_split n m f : rsum (n + m) f = rsum n f + rsum m (fun i => f (n + i)%nat).
Proof.
  induction m; simpl.
  - rewrite Nat.add_0_r. lra.
  - rewrite Nat.add_succ_r. simpl. rewrite IHm. lra.
Qed.

Lemma lsum_app a b : lsum (a ++ b) = lsum a + lsum b.
Proof. induction a; simpl; lra. Qed.

Lemma lsum_map_ext {A} (f g : A -> R) l : (forall x, In x l -> f x = g x) -> lsum (map f l) = lsum (map g l).
Proof. induction l; simpl; intros H; auto. rewrite H, IHl; auto. Qed.

Lemma lsum_map_plus {A} (f g : A -> R) l :
  lsum (map (fun x => f x + g x) l) = lsum (map f l) + lsum (map g l).
Proof. induction l; simpl; lra. Qed.

Lemma lsum_map_scal {A} k (f : A -> R) l :
  lsum (map (fun x => k * f x) l) = k * lsum (map f l).
Proof. induction l; simpl; lra. Qed.

Lemma lsum_nonneg {A} (f : A -> R) l : (forall x, In x l -> 0 <= f x) -> 0 <= lsum (map f l).
Proof.
  induction l; simpl; intros H; [lra|].
  assert (0 <= f a) by auto. assert (0 <= lsum (map f l)) by auto. lra.
Qed.

Lemma lsum_zero {A} (f : A -> R) l : (forall x, In x l -> f x = 0) -> lsum (map f l) = 0.
Proof. induction l; simpl; intros H; auto. rewrite H, IHl; auto. lra. Qed.

Lemma lsum_perm l l' : Permutation l l' -> lsum l = lsum l'.
Proof. induction 1; simpl; lra. Qed.

Lemma lsum_seq n f : lsum (map f (seq 0 n)) = rsum n f.
Proof.
  induction n; [reflexivity|].
  rewrite seq_S, map_app, lsum_app. cbn [map lsum rsum]. rewrite IHn, Nat.add_0_l. lra.
Qed.

Lemma rsum_lsum {A} n (f : nat -> A -> R) l :
  rsum n (fun i => lsum (map (f i) l)) = lsum (map (fun x => rsum n (fun i => f i x)) l).
Proof.
  induction l; simpl.
  - apply rsum_0; auto.
  - rewrite rsum_plus, IHl. auto.
Qed.

(** ** Triplets *)
Lemma coo_get_app L M i j : coo_get (L ++ M) i j = coo_get L i j + coo_get M i j.
Proof. induction L as [|[[r c] v] L IH]; simpl; [lra|]. rewrite IH. lra. Qed.

Lemma coo_get_concat LL i j : coo_get (List.concat LL) i j = lsum (map (fun L => coo_get L i j) LL).
Proof. induction LL; simpl; auto. rewrite coo_get_app, IHLL. auto. Qed.

Lemma coo_get_perm L M i j : Permutation L M -> coo_get L i j = coo_get M i j.
Proof.
  induction 1; simpl; auto; try lra.
  - destruct x as [[r c] v]. rewrite IHPermutation. auto.
  - destruct x as [[r c] v], y as [[r' c'] v']. lra.
Qed.

Lemma coo_get_lsum L i j :
  coo_get L i j = lsum (map (fun t => match t with (r, c, v) =>
     if (Nat.eqb r i && Nat.eqb c j)%bool then v else 0 end) L).
Proof. induction L as [|[[r c] v] L IH]; simpl; auto. rewrite IH. auto. Qed.

Lemma coo_get_T L i j : coo_get (coo_T L) i j = coo_get L j i.
Proof.
  induction L as [|[[r c] v] L IH]; simpl; auto. rewrite IH, andb_comm. auto.
Qed.

Lemma coo_inrange_spec nr nc L :
  coo_inrange nr nc L = true <-> forall r c v, In (r, c, v) L -> (r < nr /\ c < nc)%nat.
Proof.
  unfold coo_inrange. rewrite forallb_forall. split; intros H.
  - intros r c v Hi. specialize (H _ Hi). simpl in H. apply andb_prop in H as [H1 H2].
    split; apply Nat.ltb_lt; auto.
  - intros [[r c] v] Hi. apply H in Hi as [H1 H2]. apply andb_true_intro.
    split; apply Nat.ltb_lt; auto.
Qed.

Lemma coo_make_some nr nc L K : coo_make nr nc L = Some K -> K = L /\ coo_inrange nr nc L = true.
Proof. unfold coo_make. destruct (coo_inrange nr nc L); intros H; inversion H; auto. Qed.

Lemma coo_get_outside nr nc L i j :
  coo_inrange nr nc L = true -> (nr <= i \/ nc <= j)%nat -> coo_get L i j = 0.
Proof.
  rewrite coo_inrange_spec. intros H Hij. induction L as [|[[r c] v] L IH]; simpl; auto.
  rewrite IH by (intros; eapply H; right; eauto).
  destruct (H r c v) as [H1 H2]; [left; auto|].
  destruct (Nat.eqb_spec r i), (Nat.eqb_spec c j); simpl; try lra; lia.
Qed.

(** bilinear form of a triplet list *)
Lemma coo_bilinear nr nc L x y :
  coo_inrange nr nc L = true ->
  rsum nr (fun a => x a * rsum nc (fun b => coo_get L a b * y b))
  = lsum (map (fun t => match t with (r, c, v) => x r * v * y c end) L).
Proof.
  induction L as [|[[r c] v] L IH]; intros H.
  - simpl. apply rsum_0. intros. rewrite rsum_0; [lra|]. intros; simpl; lra.
  - simpl in H. apply andb_prop in H as [H1 H2]. apply andb_prop in H1 as [Hr Hc].
    apply Nat.ltb_lt in Hr, Hc. simpl. rewrite <- IH by auto.
    rewrite (rsum_ext nr _ (fun a => x a * rsum nc (fun b => coo_get L a b * y b)
         + (if Nat.eqb r a then x a * v * y c else 0))).
    + rewrite rsum_plus, rsum_delta by auto. lra.
    + intros a _. destruct (Nat.eqb_spec r a); simpl.
      * rewrite (rsum_ext nc _ (fun b => coo_get L a b * y b + (if Nat.eqb c b then v * y b else 0))).
        -- rewrite rsum_plus, rsum_delta by auto. lra.
        -- intros b _. destruct (Nat.eqb c b); lra.
      * rewrite (rsum_ext nc _ (fun b => coo_get L a b * y b)). { lra. }
        intros; lra.
Qed.

Lemma coo_mvec nr nc L y a :
  coo_inrange nr nc L = true ->
  rsum nc (fun b => coo_get L a b * y b)
  = lsum (map (fun t => match t with (r, c, v) => if Nat.eqb r a then v * y c else 0 end) L).
Proof.
  induction L as [|[[r c] v] L IH]; intros H.
  - simpl. apply rsum_0. intros; simpl; lra.
  - simpl in H. apply andb_prop in H as [H1 H2]. apply andb_prop in H1 as [Hr Hc].
    apply Nat.ltb_lt in Hr, Hc. simpl. rewrite <- IH by auto.
    rewrite (rsum_ext nc _ (fun b => coo_get L a b * y b + (if Nat.eqb c b then (if Nat.eqb r a then v * y b else 0) else 0))).
    + rewrite rsum_plus, rsum_delta by auto. lra.
    + intros b _. destruct (Nat.eqb r a), (Nat.eqb c b); simpl; lra.
Qed.
