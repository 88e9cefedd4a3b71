(** Proofs about the response spectrum analysis. *)
From Coq Require Import Reals Lra Lia List String Arith Bool ZArith.
From Verif Require Import Base BaseFacts Csys Sections Element Load FeModel Assembly Solver Dynamic Response SpecResponse.
Import ListNotations.
Local Open Scope string_scope.
Local Open Scope list_scope.
Local Open Scope R_scope.

(** ** One vector too many is a combination of the others *)
Definition skip (p i : nat) : nat := if Nat.ltb i p then i else S i.
Lemma rsum_skip n p f : (p < S n)%nat -> rsum (S n) f = f p + rsum n (fun i => f (skip p i)).
Proof.
  induction n as [|n IH]; intros L; [assert (p = O) by lia; subst; cbn; ring|].
  destruct (Nat.eq_dec p (S n)) as [->|N].
  - cbn [rsum]. rewrite (rsum_ext n (fun i => f (skip (S n) i)) f).
    + unfold skip. destruct (Nat.ltb_spec n (S n)); [|lia]. ring.
    + intros i Hi. unfold skip. destruct (Nat.ltb_spec i (S n)); [reflexivity|lia].
  - change (rsum (S (S n)) f) with (rsum (S n) f + f (S n)). rewrite IH by lia. cbn [rsum].
    unfold skip at 3. destruct (Nat.ltb_spec n p); [lia|]. ring.
Qed.
Lemma dependent : forall N (v : nat -> nat -> R), exists c, (exists i, (i <= N)%nat /\ c i <> 0)
  /\ forall q, (q < N)%nat -> rsum (S N) (fun i => c i * v i q) = 0.
Proof.
  induction N as [|N IH]; intros v.
  - exists (fun _ => 1). split; [exists O; split; [lia|lra]|]. intros q Q. lia.
  - assert (X : (forall i, (i <= S N)%nat -> v i N = 0) \/ exists p, (p <= S N)%nat /\ v p N <> 0).
    { clear. induction (S N) as [|m IHm].
      - destruct (Req_dec (v O N) 0) as [E|E]; [left; intros i Hi; assert (i = O) by lia; now subst|right; exists O; auto].
      - destruct IHm as [A|(p & P & E)]; [|right; exists p; split; [lia|exact E]].
        destruct (Req_dec (v (S m) N) 0) as [E|E]; [left; intros i Hi; destruct (Nat.eq_dec i (S m)) as [->|]; [exact E|apply A; lia]|right; exists (S m); auto]. }
    destruct X as [Z|(p & P & NZ)].
    + destruct (IH v) as (c & (k & K & CK) & H). exists (fun i => if Nat.leb i N then c i else 0). split.
      * exists k. split; [lia|]. destruct (Nat.leb_spec k N); [exact CK|lia].
      * intros q Q. change (rsum (S (S N)) ?f) with (rsum (S N) f + f (S N)). cbv beta. destruct (Nat.leb_spec (S N) N); [lia|].
        rewrite (rsum_ext (S N) _ (fun i => c i * v i q)) by (intros i Hi; destruct (Nat.leb_spec i N); [reflexivity|lia]).
        destruct (Nat.eq_dec q N) as [->|NE]; [rewrite rsum_0; [ring|]; intros i Hi; rewrite Z by lia; ring|rewrite H by lia; ring].
    + set (a := fun i => v (skip p i) N / v p N). destruct (IH (fun i q => v (skip p i) q - a i * v p q)) as (c & (k & K & CK) & H).
      set (s := rsum (S N) (fun i => c i * a i)).
      assert (SK : forall i, skip p i <> p) by (intros i; unfold skip; destruct (Nat.ltb_spec i p); lia).
      assert (inv : forall i, exists j, skip p i = j) by (intros; eexists; reflexivity).
      set (un := fun j => if Nat.ltb j p then j else (j - 1)%nat).
      assert (US : forall i, un (skip p i) = i).
      { intros i. unfold un, skip. destruct (Nat.ltb_spec i p); [destruct (Nat.ltb_spec i p); [reflexivity|lia]|]. destruct (Nat.ltb_spec (S i) p); lia. }
      exists (fun j => if Nat.eqb j p then - s else c (un j)). split.
      * exists (skip p k). split; [unfold skip; destruct (Nat.ltb_spec k p); lia|]. destruct (Nat.eqb_spec (skip p k) p) as [E|_]; [destruct (SK k E)|]. rewrite US. exact CK.
      * intros q Q. rewrite (rsum_skip (S N) p) by lia. rewrite Nat.eqb_refl.
        rewrite (rsum_ext (S N) _ (fun i => c i * (v (skip p i) q - a i * v p q) + c i * a i * v p q)).
        2:{ intros i Hi. destruct (Nat.eqb_spec (skip p i) p) as [E|_]; [destruct (SK i E)|]. rewrite US. ring. }
        rewrite rsum_plus, (rsum_scal_r (S N) (v p q) (fun i => c i * a i)). fold s.
        destruct (Nat.eq_dec q N) as [->|NE]; [|rewrite H by lia; ring].
        rewrite rsum_0; [ring|]. intros i Hi. unfold a. field. exact NZ.
Qed.

(** ** Forms *)
Lemma form_ext_l N M x x' y : (forall q, (q < N)%nat -> x q = x' q) -> form N M x y = form N M x' y.
Proof. intros H. apply rsum_ext. intros q Q. now rewrite H. Qed.
Lemma form_ext_r N M x y y' : (forall q, (q < N)%nat -> y q = y' q) -> form N M x y = form N M x y'.
Proof. intros H. apply rsum_ext. intros q Q. f_equal. apply rsum_ext. intros p P. now rewrite H. Qed.
Lemma form_sum N M x k c (u : nat -> nat -> R) : form N M x (fun q => rsum k (fun i => c i * u i q)) = rsum k (fun i => c i * form N M x (u i)).
Proof.
  unfold form. rewrite (rsum_ext N _ (fun q => rsum k (fun i => c i * (x q * rsum N (fun p => M q p * u i p))))).
  - rewrite rsum_swap. apply rsum_ext. intros i _. apply rsum_scal.
  - intros q _. rewrite (rsum_ext N _ (fun p => rsum k (fun i => c i * (M q p * u i p)))) by (intros p _; rewrite <- rsum_scal; apply rsum_ext; intros; ring).
    rewrite rsum_swap, <- rsum_scal. apply rsum_ext. intros i _. rewrite rsum_scal. ring.
Qed.
Lemma spans N M mode : orthogonal N M mode -> exists c, forall q, (q < N)%nat -> 1 = rsum N (fun i => c i * mode q i).
Proof.
  intros O. destruct (dependent N (fun i q => if Nat.eqb i N then 1 else mode q i)) as (c & (k & K & CK) & H).
  assert (H' : forall q, (q < N)%nat -> rsum N (fun i => c i * mode q i) + c N = 0).
  { intros q Q. rewrite <- (H q Q). change (rsum (S N) ?f) with (rsum N f + f N). cbv beta. rewrite Nat.eqb_refl. f_equal; [|ring].
    apply rsum_ext. intros i Hi. destruct (Nat.eqb_spec i N); [lia|reflexivity]. }
  destruct (Req_dec (c N) 0) as [E|E].
  - exfalso. assert (forall i, (i < N)%nat -> c i = 0).
    { intros i Hi. assert (F : form N M (column mode i) (fun q => rsum N (fun j => c j * column mode j q)) = 0).
      { unfold form. apply rsum_0. intros q Q. rewrite rsum_0; [ring|]. intros p P. specialize (H' p P). rewrite E in H'. unfold column. 
        replace (rsum N (fun j => c j * mode p j)) with 0 by lra. ring. }
      rewrite form_sum, (rsum_single N i) in F by (exact Hi || (intros j Hj NE; rewrite (proj2 (O i j Hi Hj)) by congruence; ring)).
      apply Rmult_integral in F as [F|F]; [exact F|]. now destruct (proj1 (O i i Hi Hi) eq_refl). }
    destruct (Nat.eq_dec k N) as [->|NE]; [contradiction|]. apply CK, H0. lia.
  - exists (fun i => - c i / c N). intros q Q. rewrite (rsum_ext N _ (fun i => (- / c N) * (c i * mode q i))) by (intros; unfold Rdiv; ring).
    rewrite rsum_scal. specialize (H' q Q). replace (rsum N (fun i => c i * mode q i)) with (- c N) by lra. field. exact E.
Qed.
Lemma shares_complete N M mode q : orthogonal N M mode -> (q < N)%nat -> rsum N (fun i => modal_share N M (column mode i) q) = 1.
Proof.
  intros O Q. destruct (spans N M mode O) as (c & H).
  rewrite (rsum_ext N _ (fun i => c i * mode q i)); [symmetry; apply H; exact Q|]. intros i Hi. unfold modal_share. change (column mode i q) with (mode q i). f_equal.
  rewrite (form_ext_r N M _ all_ones (fun q => rsum N (fun j => c j * column mode j q))) by (intros p P; apply H; exact P).
  rewrite form_sum, (rsum_single N i) by (exact Hi || (intros j Hj NE; rewrite (proj2 (O i j Hi Hj)) by congruence; ring)).
  field. exact (proj1 (O i i Hi Hi) eq_refl).
Qed.

(** ** The code's factors *)
Lemma generalized_form N M mode i : generalized_mass N M mode i = form N M (column mode i) (column mode i).
Proof. reflexivity. Qed.
Lemma diagonal_ones N M x : diagonal N M -> form N M x all_ones = rsum N (fun q => M q q * x q).
Proof.
  intros D. apply rsum_ext. intros q Q. rewrite (rsum_single N q) by (exact Q || (intros p P NE; rewrite D by (assumption || congruence); ring)). unfold all_ones. ring.
Qed.
Lemma participation_share N M mode q i : diagonal N M -> participation N M mode i * mode q i = modal_share N M (column mode i) q.
Proof. intros D. unfold participation, modal_share. rewrite (diagonal_ones N M _ D). reflexivity. Qed.
Lemma c101_complete N M mode q : diagonal N M -> orthogonal N M mode -> (q < N)%nat -> rsum N (fun i => participation N M mode i * mode q i) = 1.
Proof.
  intros D O Q. rewrite (rsum_ext N _ (fun i => modal_share N M (column mode i) q)) by (intros; now apply participation_share). now apply shares_complete.
Qed.
Lemma c101_scale N M mode omega2 y (c : nat -> R) q i : c i <> 0 -> form N M (column mode i) (column mode i) <> 0 ->
  modal_response N M (fun q i => c i * mode q i) omega2 y q i = modal_response N M mode omega2 y q i.
Proof.
  intros C F. unfold modal_response, participation. change (mmul N (mT mode) (mmul N M mode) i i) with (form N M (column mode i) (column mode i)).
  replace (mmul N (mT (fun q i => c i * mode q i)) (mmul N M (fun q i => c i * mode q i)) i i) with (c i * c i * form N M (column mode i) (column mode i)).
  - rewrite (rsum_ext N (fun q => M q q * (c i * mode q i)) (fun q => c i * (M q q * mode q i))) by (intros; ring). rewrite rsum_scal. unfold Rdiv at 2 4. set (z := y i * / omega2 i). field. auto.
  - unfold form, mmul, mT, column. rewrite <- rsum_scal. apply rsum_ext. intros p P. rewrite (rsum_ext N (fun k => M p k * (c i * mode k i)) (fun k => c i * (M p k * mode k i))) by (intros; ring).
    rewrite rsum_scal. ring.
Qed.

(** ** The ordinates *)
Lemma interp_polygon : forall pts r x x0 y0, increasing ((x0, y0) :: pts) -> x0 <= x ->
  on_polygon (r ++ (x0, y0) :: pts) x (interp_from x x0 y0 pts).
Proof.
  induction pts as [|[x1 y1] pts IH]; intros r x x0 y0 I L; cbn [interp_from].
  - right. left. exists r, (x0, y0). auto.
  - destruct I as (I1 & I2). destruct (Rltb x x1) eqn:E.
    + apply Rltb_true in E. right. right. exists r, (x0, y0), (x1, y1), pts. split; [reflexivity|]. unfold on_segment. cbn [fst snd]. split; [lra|]. field. lra.
    + apply Rltb_false in E. specialize (IH (r ++ [(x0, y0)]) x x1 y1 I2 E). rewrite <- app_assoc in IH. exact IH.
Qed.
Lemma c101_ordinate pts x y : increasing pts -> np_interp pts x = Some y -> on_polygon pts x y.
Proof.
  intros I H. destruct pts as [|[x0 y0] pts]; [discriminate|]. cbn [np_interp] in H. injection H as <-. destruct (Rltb x x0) eqn:E.
  - apply Rltb_true in E. left. exists (x0, y0), pts. cbn [fst snd]. split; [reflexivity|]. split; [lra|reflexivity].
  - apply Rltb_false in E. exact (interp_polygon pts [] x x0 y0 I E).
Qed.
Lemma ordinates_some pts omega2 : pts <> [] -> increasing pts -> forall k, exists ys, ordinates pts omega2 k = Some ys /\ List.length ys = k
  /\ forall i, (i < k)%nat -> on_polygon pts (spectrum_period (omega2 i)) (nth i ys 0).
Proof.
  intros NE I. induction k as [|k (ys & E & L & H)]; [exists []; split; [reflexivity|]; split; [reflexivity|]; intros; lia|].
  cbn [ordinates]. rewrite E. cbn [bindO]. destruct pts as [|p pts]; [congruence|].
  destruct (np_interp (p :: pts) (spectrum_period (omega2 k))) as [y|] eqn:EY; [|destruct p; discriminate]. cbn [bindO].
  exists (ys ++ [y]). split; [reflexivity|]. split; [rewrite app_length, L; cbn; lia|]. intros i Hi.
  destruct (Nat.eq_dec i k) as [->|N]; [rewrite app_nth2, L, Nat.sub_diag by lia; apply c101_ordinate; assumption|rewrite app_nth1 by lia; apply H; lia].
Qed.

(** ** The combined response *)
Lemma kept_all N mode q i : (q < N)%nat -> (i < N)%nat -> kept N mode q i = mode q i.
Proof. intros Q I. unfold kept. destruct (Nat.ltb_spec q N); [|lia]. destruct (Nat.ltb_spec i N); [reflexivity|lia]. Qed.
Lemma kept_form N M mode i : (i < N)%nat -> form N M (column (kept N mode) i) (column (kept N mode) i) = form N M (column mode i) (column mode i).
Proof.
  intros I. rewrite (form_ext_l N M _ (column mode i)) by (intros; unfold column; now apply kept_all). apply form_ext_r. intros. unfold column. now apply kept_all.
Qed.
Lemma kept_share N M mode q i : diagonal N M -> (q < N)%nat -> (i < N)%nat ->
  participation N M (kept N mode) i * kept N mode q i = modal_share N M (column mode i) q.
Proof.
  intros D Q I. rewrite participation_share by exact D. unfold modal_share. rewrite kept_form by exact I.
  rewrite (form_ext_l N M _ (column mode i)) by (intros; unfold column; now apply kept_all). f_equal. unfold column. now apply kept_all.
Qed.
Lemma srss_ext n S S' : (forall i, (i < n)%nat -> S i = S' i) -> srss n S = srss n S'.
Proof. intros H. unfold srss. f_equal. apply rsum_ext. intros i Hi. now rewrite H. Qed.
Lemma cqc_ext n xi T S S' : (forall i, (i < n)%nat -> S i = S' i) -> cqc n xi T S = cqc n xi T S'.
Proof. intros H. unfold cqc. f_equal. apply rsum_ext. intros i Hi. apply rsum_ext. intros j Hj. now rewrite !H. Qed.
Lemma c101_response N M mode omega2 damp pts combo : diagonal N M ->
  (forall i, (i < N)%nat -> form N M (column mode i) (column mode i) <> 0) -> pts <> [] -> increasing pts -> combo = "CQC" \/ combo = "SRSS" ->
  exists r y, combined N N M mode omega2 damp pts combo = Some r
  /\ (forall i, (i < N)%nat -> on_polygon pts (spectrum_period (omega2 i)) (y i))
  /\ forall q, (q < N)%nat -> let share := fun i => modal_share N M (column mode i) q * (y i / omega2 i) in
     (combo = "CQC" -> r q = cqc N (damp (N - 1)%nat) (fun i => spectrum_period (omega2 i)) share) /\ (combo = "SRSS" -> r q = srss N share).
Proof.
  intros D F NE I C. destruct (ordinates_some pts omega2 NE I N) as (ys & E & L & H). unfold combined. rewrite E. cbn [bindO].
  assert (A : forallb (fun i => negb (Reqb (generalized_mass N M (kept N mode) i) 0)) (seq 0 N) = true).
  { apply forallb_forall. intros i Hi. apply in_seq in Hi. rewrite generalized_form, kept_form by lia. apply negb_true_iff, Reqb_false. apply F. lia. }
  rewrite A.
  assert (X : forall q, (q < N)%nat -> forall i, (i < N)%nat -> modal_response N M (kept N mode) omega2 (fun i => nth i ys 0) q i
     = modal_share N M (column mode i) q * (nth i ys 0 / omega2 i)).
  { intros q Q i Hi. rewrite <- (kept_share N M mode q i D Q Hi). unfold modal_response. ring. }
  destruct C as [-> | ->]; cbn [String.eqb Ascii.eqb Bool.eqb]; eexists; exists (fun i => nth i ys 0); (split; [reflexivity|]); (split; [exact H|]); intros q Q.
  - split; [intros _|discriminate]. apply cqc_ext. apply X. exact Q.
  - split; [discriminate|intros _]. apply srss_ext. apply X. exact Q.
Qed.
Lemma c101_truncated N n M mode omega2 damp pts combo : (n < N)%nat -> combined N n M mode omega2 damp pts combo = None.
Proof.
  intros L. unfold combined. destruct (ordinates pts omega2 N) as [ys|]; [|reflexivity]. cbn [bindO].
  destruct (forallb _ (seq 0 N)) eqn:E; [|reflexivity]. exfalso. rewrite forallb_forall in E. specialize (E n ltac:(apply in_seq; lia)).
  apply negb_true_iff in E. rewrite generalized_form in E. replace (form N M (column (kept n mode) n) (column (kept n mode) n)) with 0 in E.
  - rewrite Reqb_refl in E. discriminate.
  - symmetry. apply rsum_0. intros q Q. unfold column, kept at 1. rewrite Nat.ltb_irrefl, andb_false_r. ring.
Qed.
Definition coupled : mat := fun q p => if Nat.eqb q p then 2 else 1.
Definition pair : mat := fun q i => if (Nat.eqb q 1 && Nat.eqb i 1)%bool then -1 else 1.
Lemma c101_coupled_refuted : exists N M mode q, orthogonal N M mode /\ (forall x y, form N M x y = form N M y x)
  /\ (forall x, (exists q, (q < N)%nat /\ x q <> 0) -> 0 < form N M x x) /\ (q < N)%nat
  /\ rsum N (fun i => participation N M mode i * mode q i) <> 1.
Proof.
  exists 2%nat, coupled, pair, 0%nat. split; [|split; [|split; [|split; [lia|]]]].
  - intros i j I J. assert (X : (i = 0 \/ i = 1)%nat) by lia. assert (Y : (j = 0 \/ j = 1)%nat) by lia.
    destruct X as [-> | ->]; destruct Y as [-> | ->]; split; intros E; try congruence;
      unfold form, column, pair, coupled; cbn [rsum Nat.eqb andb]; lra.
  - intros x y. unfold form, coupled. cbn [rsum Nat.eqb]. ring.
  - intros x (q & Q & NZ). replace (form 2 coupled x x) with (x 0%nat * x 0%nat + x 1%nat * x 1%nat + (x 0%nat + x 1%nat) * (x 0%nat + x 1%nat)) by (unfold form, coupled; cbn [rsum Nat.eqb]; ring).
    pose proof (Rle_0_sqr (x 0%nat + x 1%nat)) as S. pose proof (Rle_0_sqr (x 0%nat)) as S0. pose proof (Rle_0_sqr (x 1%nat)) as S1. unfold Rsqr in *.
    assert (X : (q = 0 \/ q = 1)%nat) by lia. destruct X as [-> | ->]; pose proof (Rlt_0_sqr _ NZ) as P; unfold Rsqr in P; lra.
  - unfold participation, mmul, mT, pair, coupled. cbn [rsum Nat.eqb andb]. lra.
Qed.

(** ** The solver as written *)
Lemma c101_never N st c ex load : (0 < N)%nat -> response_solve N st c ex load = None.
Proof.
  intros L. unfold response_solve. do 5 (destruct (dget _ st) as [?|]; [|reflexivity]; cbn [bindO]).
  destruct s3; try reflexivity. destruct (_ && _)%bool; [|reflexivity]. do 2 (destruct (load _); [|reflexivity]; cbn [bindO]).
  destruct (load (c ++ ".d")%string) as [mode|]; [|reflexivity]. cbn [bindO]. destruct (load _); [|reflexivity]. cbn [bindO].
  destruct s; try reflexivity. destruct (Nat.eqb _ N); [|reflexivity]. destruct N; [lia|reflexivity].
Qed.
Lemma c101_classes k N c ex load : response_solve N (get_settings k) c ex load = None.
Proof. destruct k; reflexivity. Qed.
