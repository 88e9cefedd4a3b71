(** Merging the points of a drawing into nodes (C80, C81). *)
From Coq Require Import Reals Lra Lia List String Arith Bool ZArith DecimalString DecimalNat.
From Verif Require Import Base BaseFacts Csys Sections Element Load FeModel Assembly Solver Post Api SpecGeom SpecApi AsmTotal AsmProofs AsmProofs3
  Grasshopper SpecGrasshopper.
Import ListNotations.
Local Open Scope R_scope.

Lemma distance_self p : distance p p = 0.
Proof. unfold distance. replace (_ + _ + _) with 0 by ring. apply sqrt_0. Qed.
Lemma distance_nonneg p q : 0 <= distance p q.
Proof. apply sqrt_pos. Qed.

Lemma squares3 a b c : 0 <= a^2 + b^2 + c^2.
Proof. pose proof (pow2_ge_0 a). pose proof (pow2_ge_0 b). pose proof (pow2_ge_0 c). lra. Qed.
Lemma cauchy3 a b c x y z : a*x + b*y + c*z <= sqrt (a^2+b^2+c^2) * sqrt (x^2+y^2+z^2).
Proof.
  rewrite <- sqrt_mult by nra. apply Rle_trans with (sqrt ((a*x+b*y+c*z)^2)).
  - rewrite <- Rsqr_pow2, sqrt_Rsqr_abs. apply Rle_abs.
  - apply sqrt_le_1; [apply pow2_ge_0|apply Rmult_le_pos; nra|].
    pose proof (pow2_ge_0 (a*y-b*x)). pose proof (pow2_ge_0 (a*z-c*x)). pose proof (pow2_ge_0 (b*z-c*y)).
    replace ((a^2+b^2+c^2)*(x^2+y^2+z^2)) with ((a*x+b*y+c*z)^2 + ((a*y-b*x)^2 + (a*z-c*x)^2 + (b*z-c*y)^2)) by ring. lra.
Qed.
Lemma sqrt_triangle a b c x y z :
  sqrt ((a+x)^2+(b+y)^2+(c+z)^2) <= sqrt (a^2+b^2+c^2) + sqrt (x^2+y^2+z^2).
Proof.
  pose proof (sqrt_pos (a^2+b^2+c^2)) as P. pose proof (sqrt_pos (x^2+y^2+z^2)) as Q.
  rewrite <- (sqrt_Rsqr (sqrt (a^2+b^2+c^2) + sqrt (x^2+y^2+z^2))) by lra.
  apply sqrt_le_1; [apply squares3|apply Rle_0_sqr|]. unfold Rsqr.
  pose proof (cauchy3 a b c x y z) as C.
  assert (A : sqrt (a^2+b^2+c^2) * sqrt (a^2+b^2+c^2) = a^2+b^2+c^2) by (apply sqrt_sqrt; apply squares3).
  assert (X : sqrt (x^2+y^2+z^2) * sqrt (x^2+y^2+z^2) = x^2+y^2+z^2) by (apply sqrt_sqrt; apply squares3).
  nra.
Qed.
Lemma distance_triangle p q r : distance p r <= distance p q + distance q r.
Proof.
  unfold distance. pose proof (sqrt_triangle (vx p - vx q) (vy p - vy q) (vz p - vz q) (vx q - vx r) (vy q - vy r) (vz q - vz r)) as H.
  replace (vx p - vx q + (vx q - vx r)) with (vx p - vx r) in H by ring.
  replace (vy p - vy q + (vy q - vy r)) with (vy p - vy r) in H by ring.
  replace (vz p - vz q + (vz q - vz r)) with (vz p - vz r) in H by ring. exact H.
Qed.
Lemma near_far tol p q n : 0 < tol -> near tol p n -> near tol q n -> distance p q < 2 * tol.
Proof.
  intros T P Q. pose proof (distance_triangle p n q) as D. rewrite (distance_sym q n) in D.
  assert (H : forall x, near tol x n -> distance x n < tol).
  { intros x [->|L]; [rewrite distance_self; exact T|exact L]. }
  pose proof (H _ P). pose proof (H _ Q). lra.
Qed.

Lemma find_some tol p l i : find_pt tol p l = Some i -> exists n, nth_error l i = Some n /\ distance p (gn_pt n) < tol.
Proof.
  revert i; induction l as [|n r IH]; intros i H; [discriminate|]. cbn [find_pt] in H.
  destruct (Rltb _ tol) eqn:L.
  - apply some_inj in H. subst i. exists n. split; [reflexivity|]. apply Rltb_true in L. now rewrite norm_distance in L.
  - destruct (find_pt tol p r) as [j|]; [|discriminate]. cbn in H. apply some_inj in H. subst i. exact (IH j eq_refl).
Qed.
Lemma find_none tol p l : find_pt tol p l = None -> forall n, In n l -> tol <= distance p (gn_pt n).
Proof.
  induction l as [|n r IH]; intros H m M; [contradiction|]. cbn [find_pt] in H. destruct (Rltb _ tol) eqn:L; [discriminate|].
  apply Rltb_false in L. rewrite norm_distance in L. destruct M as [<-|M]; [exact L|].
  apply IH; [|exact M]. now destruct (find_pt tol p r).
Qed.

Lemma apart_nil tol : apart tol [].
Proof. intros [|i] j a b _ H; discriminate. Qed.
Lemma apart_snoc tol l n : apart tol l -> (forall m, In m l -> tol <= distance (gn_pt n) (gn_pt m)) -> apart tol (l ++ [n]).
Proof.
  intros A H i j a b N I J.
  destruct (lt_dec i (List.length l)) as [Li|Li], (lt_dec j (List.length l)) as [Lj|Lj].
  - rewrite nth_error_app1 in I by exact Li. rewrite nth_error_app1 in J by exact Lj. now apply (A i j).
  - rewrite nth_error_app1 in I by exact Li. rewrite nth_error_app2 in J by lia.
    destruct (j - List.length l)%nat as [|k]; [|destruct k; discriminate]. apply some_inj in J. subst b.
    rewrite distance_sym. apply H. eapply nth_error_In; exact I.
  - rewrite nth_error_app1 in J by exact Lj. rewrite nth_error_app2 in I by lia.
    destruct (i - List.length l)%nat as [|k]; [|destruct k; discriminate]. apply some_inj in I. subst a.
    apply H. eapply nth_error_In; exact J.
  - assert (forall k, nth_error [n] k <> None -> k = 0%nat) as Z by (intros [|[|k]]; cbn; congruence).
    rewrite nth_error_app2 in I by lia. rewrite nth_error_app2 in J by lia.
    pose proof (Z _ (ltac:(rewrite I; discriminate))). pose proof (Z _ (ltac:(rewrite J; discriminate))). lia.
Qed.

(** ** The nodes of restraints and loads *)
Lemma place_all_spec tol l : forall nodes nodes' placed, place_all tol l nodes = (nodes', placed) ->
  (exists new, nodes' = nodes ++ new /\ incl new l)
  /\ Forall2 (fun e p => In p nodes' /\ near tol (gn_pt e) (gn_pt p)) l placed
  /\ (apart tol nodes -> apart tol nodes').
Proof.
  induction l as [|e r IH]; intros nodes nodes' placed H.
  - cbn in H. injection H as <- <-. split; [exists []; split; [now rewrite app_nil_r|intros ? []]|]. split; [constructor|auto].
  - cbn [place_all] in H. destruct (place tol e nodes) as [nodes1 e'] eqn:P.
    destruct (place_all tol r nodes1) as [nodes2 r'] eqn:Q. injection H as <- <-.
    destruct (IH _ _ _ Q) as ((new & E & I) & F & A). unfold place in P.
    destruct (find_pt tol (gn_pt e) nodes) as [i|] eqn:L; injection P as <- <-.
    + destruct (find_some _ _ _ _ L) as (n & N & D). split; [exists new; split; [exact E|intros x X; right; now apply I]|]. split; [|exact A].
      constructor; [|exact F]. rewrite (nth_error_nth _ _ e N). split; [|right; exact D]. rewrite E. apply in_or_app; left. eapply nth_error_In; exact N.
    + split; [exists (e :: new); split; [rewrite E, <- app_assoc; reflexivity|intros x [->|X]; [now left|right; now apply I]]|].
      split; [constructor; [|exact F]; split; [rewrite E; apply in_or_app; left; apply in_or_app; right; now left|now left]|].
      intros H. apply A, apart_snoc; [exact H|]. exact (find_none _ _ _ L).
Qed.

(** ** The nodes of beams *)
Lemma join_spec tol b nodes conn nodes' conn' : join tol b (nodes, conn) = (nodes', conn') ->
  exists i j a c new, conn' = dset (gb_name b) (i, j) conn /\ nodes' = nodes ++ new
  /\ nth_error nodes' i = Some a /\ near tol (gb_start b) (gn_pt a)
  /\ nth_error nodes' j = Some c /\ near tol (gb_end b) (gn_pt c)
  /\ (apart tol nodes -> tol <= distance (gb_start b) (gb_end b) -> apart tol nodes')
  /\ (new = [] \/ (exists p, new = [GNode (gen_name (List.length nodes)) p])
      \/ exists p q, new = [GNode (gen_name (List.length nodes)) p; GNode (gen_name (S (List.length nodes))) q]).
Proof.
  unfold join. intros H.
  assert (LS : forall p, List.length (nodes ++ [GNode (gen_name (List.length nodes)) p]) = S (List.length nodes)) by (intros; rewrite app_length; cbn; lia).
  assert (X : forall (l : list gnode) n, nth_error (l ++ [n]) (List.length l) = Some n) by (intros l n; rewrite nth_error_app2, Nat.sub_diag by lia; reflexivity).
  assert (Y : forall (l : list gnode) m i n, nth_error l i = Some n -> nth_error (l ++ m) i = Some n)
    by (intros l m i n N; rewrite nth_error_app1; [exact N|eapply nth_error_lt; exact N]).
  destruct (find_pt tol (gb_start b) nodes) as [i|] eqn:L1, (find_pt tol (gb_end b) nodes) as [j|] eqn:L2; injection H as <- <-.
  - destruct (find_some _ _ _ _ L1) as (a & A & DA). destruct (find_some _ _ _ _ L2) as (c & C & DC).
    exists i, j, a, c, []. rewrite app_nil_r. split; [reflexivity|]. split; [reflexivity|]. split; [exact A|]. split; [right; exact DA|].
    split; [exact C|]. split; [right; exact DC|]. split; [auto|now left].
  - destruct (find_some _ _ _ _ L1) as (a & A & DA). exists i, (List.length nodes), a, (GNode (gen_name (List.length nodes)) (gb_end b)), [GNode (gen_name (List.length nodes)) (gb_end b)].
    split; [reflexivity|]. split; [reflexivity|]. split; [now apply Y|]. split; [right; exact DA|]. split; [apply X|]. split; [now left|].
    split; [intros AP _; apply apart_snoc; [exact AP|exact (find_none _ _ _ L2)]|]. right; left. eexists; reflexivity.
  - destruct (find_some _ _ _ _ L2) as (c & C & DC). exists (List.length nodes), j, (GNode (gen_name (List.length nodes)) (gb_start b)), c, [GNode (gen_name (List.length nodes)) (gb_start b)].
    split; [reflexivity|]. split; [reflexivity|]. split; [apply X|]. split; [now left|]. split; [now apply Y|]. split; [right; exact DC|].
    split; [intros AP _; apply apart_snoc; [exact AP|exact (find_none _ _ _ L1)]|]. right; left. eexists; reflexivity.
  - rewrite LS. set (s := GNode (gen_name (List.length nodes)) (gb_start b)). set (e := GNode (gen_name (S (List.length nodes))) (gb_end b)).
    exists (List.length nodes), (S (List.length nodes)), s, e, [s; e].
    split; [reflexivity|]. split; [now rewrite <- app_assoc|]. split; [apply Y, X|]. split; [now left|].
    split; [rewrite <- (LS (gb_start b)); apply X|]. split; [now left|].
    split; [|right; right; eexists; eexists; reflexivity].
    intros AP D. apply apart_snoc; [apply apart_snoc; [exact AP|exact (find_none _ _ _ L1)]|].
    intros m M. apply in_app_or in M. destruct M as [M|[<-|[]]]; [exact (find_none _ _ _ L2 m M)|]. cbn. now rewrite distance_sym.
Qed.

Lemma join_all_spec tol bs : forall nodes conn nodes' conn',
  fold_left (fun st b => join tol b st) bs (nodes, conn) = (nodes', conn') -> NoDup (map gb_name bs) ->
  (exists new, nodes' = nodes ++ new)
  /\ (forall b, In b bs -> joined tol nodes' conn' b)
  /\ (forall k, ~ In k (map gb_name bs) -> dget k conn' = dget k conn).
Proof.
  induction bs as [|b r IH]; intros nodes conn nodes' conn' H ND.
  - cbn in H. injection H as <- <-. split; [exists []; now rewrite app_nil_r|]. split; [intros ? []|auto].
  - cbn [fold_left] in H. destruct (join tol b (nodes, conn)) as [nodes1 conn1] eqn:J.
    inversion ND as [|? ? NI ND']; subst. destruct (IH _ _ _ _ H ND') as ((new & E) & B & K).
    destruct (join_spec _ _ _ _ _ _ J) as (i & j & a & c & new1 & -> & E1 & A & NA & C & NC & _).
    split; [exists (new1 ++ new); rewrite E, E1, app_assoc; reflexivity|]. split.
    + intros b' [<-|I]; [|now apply B]. exists i, j, a, c. rewrite K by exact NI. rewrite dget_dset_eq. split; [reflexivity|].
      rewrite E. rewrite !nth_error_app1 by (eapply nth_error_lt; eassumption). auto.
    + intros k NK. cbn [map In] in NK. rewrite K by tauto. apply dget_dset_neq. intros ->. apply NK; now left.
Qed.
Lemma join_all_apart tol bs : forall nodes conn nodes' conn',
  fold_left (fun st b => join tol b st) bs (nodes, conn) = (nodes', conn') ->
  (forall b, In b bs -> tol <= distance (gb_start b) (gb_end b)) -> apart tol nodes -> apart tol nodes'.
Proof.
  induction bs as [|b r IH]; intros nodes conn nodes' conn' H D A.
  - cbn in H. injection H as <- <-. exact A.
  - cbn [fold_left] in H. destruct (join tol b (nodes, conn)) as [nodes1 conn1] eqn:J.
    apply (IH _ _ _ _ H); [intros b' B'; apply D; now right|].
    destruct (join_spec _ _ _ _ _ _ J) as (i & j & a & c & new1 & _ & _ & _ & _ & _ & _ & AP & _). apply AP; [exact A|apply D; now left].
Qed.

(** ** The whole drawing *)
Lemma merge_inv tol d : exists nodes placed nodes' conn,
  place_all tol (entries d) [] = (nodes, placed) /\ join_all tol (dr_beams d) nodes = (nodes', conn)
  /\ merge tol d = Merged nodes' (firstn (List.length (dr_rests d)) placed) (skipn (List.length (dr_rests d)) placed) conn.
Proof.
  unfold merge. fold (entries d). destruct (place_all tol (entries d) []) as [nodes placed]. destruct (join_all tol (dr_beams d) nodes) as [nodes' conn] eqn:J.
  exists nodes, placed, nodes', conn. auto.
Qed.
Lemma join_all_incl tol bs : forall st, exists new, fst (fold_left (fun st b => join tol b st) bs st) = fst st ++ new.
Proof.
  induction bs as [|b r IH]; intros [nodes conn]; [exists []; cbn; now rewrite app_nil_r|]. cbn [fold_left].
  destruct (IH (join tol b (nodes, conn))) as (new & E). destruct (join tol b (nodes, conn)) as [n1 c1] eqn:J.
  destruct (join_spec _ _ _ _ _ _ J) as (i & j & a & c & new1 & _ & E1 & _). exists (new1 ++ new). rewrite E. cbn [fst]. now rewrite E1, app_assoc.
Qed.

Lemma Forall2_len {A B} (P : A -> B -> Prop) l r : Forall2 P l r -> List.length l = List.length r.
Proof. induction 1; cbn; congruence. Qed.
Lemma c80_entries tol d :
  Forall2 (entry_ok tol (mg_nodes (merge tol d))) (map gr_node (dr_rests d)) (mg_rests (merge tol d))
  /\ Forall2 (entry_ok tol (mg_nodes (merge tol d))) (map gl_node (dr_loads d)) (mg_loads (merge tol d)).
Proof.
  destruct (merge_inv tol d) as (nodes & placed & nodes' & conn & P & J & ->). cbn [mg_nodes mg_rests mg_loads].
  destruct (place_all_spec _ _ _ _ _ P) as (_ & F & _). unfold join_all in J. destruct (join_all_incl tol (dr_beams d) (nodes, [])) as (new & E).
  rewrite J in E. cbn [fst] in E.
  assert (F' : Forall2 (entry_ok tol nodes') (entries d) placed).
  { clear P. induction F as [|e p l1 l2 (I & N) F IH]; constructor; [|exact IH]. split; [rewrite E; apply in_or_app; now left|exact N]. }
  unfold entries in F'. apply Forall2_app_inv_l in F'. destruct F' as (l1 & l2 & F1 & F2 & ->).
  assert (L : List.length (dr_rests d) = List.length l1) by (rewrite <- (Forall2_len _ _ _ F1), map_length; reflexivity).
  rewrite L, firstn_app, skipn_app, Nat.sub_diag, firstn_all, skipn_all. cbn [firstn skipn]. rewrite app_nil_r. auto.
Qed.
Lemma c80_ends tol d b : distinct_beams d -> In b (dr_beams d) -> joined tol (mg_nodes (merge tol d)) (mg_conn (merge tol d)) b.
Proof.
  intros ND B. destruct (merge_inv tol d) as (nodes & placed & nodes' & conn & P & J & ->). cbn [mg_nodes mg_conn].
  destruct (join_all_spec _ _ _ _ _ _ J ND) as (_ & H & _). now apply H.
Qed.
Lemma c80_apart tol d : (forall b, In b (dr_beams d) -> tol <= distance (gb_start b) (gb_end b)) -> apart tol (mg_nodes (merge tol d)).
Proof.
  intros D. destruct (merge_inv tol d) as (nodes & placed & nodes' & conn & P & J & ->). cbn [mg_nodes].
  apply (join_all_apart _ _ _ _ _ _ J D). apply (place_all_spec _ _ _ _ _ P). apply apart_nil.
Qed.

(** ** Names *)
Lemma gen_name_inj i j : gen_name i = gen_name j -> i = j.
Proof.
  unfold gen_name. intros H. cbn [String.append] in H. injection H as H.
  apply Unsigned.to_uint_inj. pose proof (f_equal NilEmpty.uint_of_string H) as U. rewrite !NilEmpty.usu in U. now apply some_inj in U.
Qed.
Lemma place_all_names tol l : 0 < tol -> (forall a b, In a l -> In b l -> gn_name a = gn_name b -> gn_pt a = gn_pt b) ->
  forall l2 nodes nodes' placed, incl l2 l -> incl nodes l -> NoDup (map gn_name nodes) -> place_all tol l2 nodes = (nodes', placed) ->
  NoDup (map gn_name nodes').
Proof.
  intros T W. induction l2 as [|e r IH]; intros nodes nodes' placed I2 I ND H.
  - cbn in H. injection H as <- <-. exact ND.
  - cbn [place_all] in H. destruct (place tol e nodes) as [nodes1 e'] eqn:P. destruct (place_all tol r nodes1) as [nodes2 r'] eqn:Q.
    injection H as <- <-. unfold place in P. assert (Ie : In e l) by (apply I2; now left). assert (Ir : incl r l) by (intros x X; apply I2; now right).
    destruct (find_pt tol (gn_pt e) nodes) as [i|] eqn:L; injection P as <- <-; [now apply (IH _ _ _ Ir I ND Q)|].
    apply (IH (nodes ++ [e]) nodes2 r' Ir); [intros x X; apply in_app_or in X; destruct X as [X|[<-|[]]]; auto| |exact Q].
    rewrite map_app. apply NoDup_app_intro; [exact ND|repeat constructor; intros []|]. intros x M [<-|[]]. apply in_map_iff in M. destruct M as (m & E & M).
    pose proof (find_none _ _ _ L m M) as D. rewrite (W e m Ie (I m M) (eq_sym E)), distance_self in D. lra.
Qed.

(** Every node is one of the drawing or is numbered by its place. *)
Definition numbered (d : drawing) (nodes : list gnode) : Prop :=
  forall i n, nth_error nodes i = Some n -> In n (entries d) \/ gn_name n = gen_name i.
Lemma snoc_numbered d nodes p : (forall a k, In a (entries d) -> gn_name a <> ("gen_" ++ k)%string) ->
  numbered d nodes -> NoDup (map gn_name nodes) ->
  let n := GNode (gen_name (List.length nodes)) p in numbered d (nodes ++ [n]) /\ NoDup (map gn_name (nodes ++ [n])).
Proof.
  intros G N ND n. split.
  - intros i m M. destruct (lt_dec i (List.length nodes)) as [L|L].
    + rewrite nth_error_app1 in M by exact L. now apply N.
    + rewrite nth_error_app2 in M by lia. destruct (i - List.length nodes)%nat as [|k] eqn:E; [|destruct k; discriminate].
      apply some_inj in M. subst m. right. cbn. replace i with (List.length nodes) by lia. reflexivity.
  - rewrite map_app. apply NoDup_app_intro; [exact ND|repeat constructor; intros []|]. intros x M [<-|[]].
    apply in_map_iff in M. destruct M as (m & E & M). cbn in E. destruct (In_nth_error _ _ M) as (i & I).
    destruct (N i m I) as [X|X]; [exact (G _ _ X E)|]. rewrite X in E. apply gen_name_inj in E. pose proof (nth_error_lt _ _ _ I). lia.
Qed.
Lemma join_all_names tol d : (forall a k, In a (entries d) -> gn_name a <> ("gen_" ++ k)%string) ->
  forall bs nodes conn nodes' conn', fold_left (fun st b => join tol b st) bs (nodes, conn) = (nodes', conn') ->
  numbered d nodes -> NoDup (map gn_name nodes) -> numbered d nodes' /\ NoDup (map gn_name nodes').
Proof.
  intros G. induction bs as [|b r IH]; intros nodes conn nodes' conn' H N ND.
  - cbn in H. injection H as <- <-. auto.
  - cbn [fold_left] in H. destruct (join tol b (nodes, conn)) as [nodes1 conn1] eqn:J.
    assert (X : numbered d nodes1 /\ NoDup (map gn_name nodes1)); [|destruct X; now apply (IH _ _ _ _ H)].
    destruct (join_spec _ _ _ _ _ _ J) as (i & j & a & c & new1 & _ & E & _ & _ & _ & _ & _ & [-> |[(p & ->)|(p & q & ->)]]); subst nodes1.
    + rewrite app_nil_r. auto.
    + now apply snoc_numbered.
    + destruct (snoc_numbered d nodes p G N ND) as (N1 & ND1). pose proof (snoc_numbered d _ q G N1 ND1) as X.
      cbv zeta in X. rewrite app_length in X. cbn [List.length] in X. replace (List.length nodes + 1)%nat with (S (List.length nodes)) in X by lia.
      rewrite <- app_assoc in X. exact X.
Qed.
Lemma c81_names tol d : 0 < tol -> well_named d -> NoDup (map gn_name (mg_nodes (merge tol d))).
Proof.
  intros T (W & G). destruct (merge_inv tol d) as (nodes & placed & nodes' & conn & P & J & ->). cbn [mg_nodes].
  refine (proj2 (join_all_names tol d G _ _ _ _ _ J _ _)).
  - destruct (place_all_spec _ _ _ _ _ P) as ((new & E & I) & _). cbn in E. subst nodes. intros i n X. left. apply I. eapply nth_error_In; exact X.
  - apply (place_all_names tol (entries d) T W (entries d) [] nodes placed); [intros x X; exact X|intros x []|constructor|exact P].
Qed.
