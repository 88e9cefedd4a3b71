(** Bilinear forms of assembled matrices. *)
From Coq Require Import Reals Lra Lia List String Arith Bool Permutation.
From Verif Require Import Base BaseFacts Csys Sections Element Load FeModel Assembly CsysFacts SpecGeom SpecBeam BeamFacts.
Import ListNotations.
Local Open Scope R_scope.

Definition bil (L : coo) (x y : nat -> R) : R :=
  lsum (map (fun t => match t with (r, c, v) => x r * v * y c end) L).

Lemma bil_app L M x y : bil (L ++ M) x y = bil L x y + bil M x y.
Proof. unfold bil. rewrite map_app, lsum_app. reflexivity. Qed.

Lemma bil_concat LL x y : bil (List.concat LL) x y = lsum (map (fun L => bil L x y) LL).
Proof. induction LL as [|L LL IH]; simpl; [reflexivity|]. rewrite bil_app, IH. reflexivity. Qed.

Lemma bil_scatter f L x y : bil (scatter f L) x y = bil L (fun r => x (f r)) (fun r => y (f r)).
Proof.
  unfold bil, scatter. rewrite map_map. apply lsum_map_ext. intros [[r c] v] _. reflexivity.
Qed.

Lemma bil_nz L x y : bil (nz L) x y = bil L x y.
Proof.
  unfold bil, nz. induction L as [|[[r c] v] L IH]; simpl; [reflexivity|].
  destruct (Reqb v 0) eqn:E; simpl; rewrite IH.
  - apply Reqb_true in E. subst. ring.
  - reflexivity.
Qed.

Lemma bil_mat_coo n m A x y :
  bil (mat_coo n m A) x y = rsum n (fun i => rsum m (fun j => x i * A i j * y j)).
Proof.
  unfold mat_coo. rewrite flat_map_concat_map, bil_concat, map_map, <- lsum_seq.
  apply lsum_map_ext. intros i _. unfold bil. rewrite map_map, <- lsum_seq. reflexivity.
Qed.

Lemma bil_ext L x x' y y' :
  (forall r c v, In (r, c, v) L -> x r = x' r /\ y c = y' c) -> bil L x y = bil L x' y'.
Proof.
  intros H. unfold bil. apply lsum_map_ext. intros [[r c] v] HI. destruct (H _ _ _ HI) as [-> ->]. reflexivity.
Qed.

Definition delta (q : nat) : nat -> R := fun i => if Nat.eqb i q then 1 else 0.

Lemma bil_delta L p q : bil L (delta p) (delta q) = coo_get L p q.
Proof.
  rewrite coo_get_lsum. unfold bil. apply lsum_map_ext. intros [[r c] v] _. unfold delta.
  destruct (Nat.eqb r p), (Nat.eqb c q); simpl; ring.
Qed.

Lemma bil_row nr nc L q y : coo_inrange nr nc L = true ->
  rsum nc (fun b => coo_get L q b * y b) = bil L (delta q) y.
Proof.
  intros H. rewrite (coo_mvec nr nc) by exact H. unfold bil. apply lsum_map_ext. intros [[r c] v] _.
  unfold delta. destruct (Nat.eqb r q); ring.
Qed.

Lemma bil_quad nr nc L x y : coo_inrange nr nc L = true ->
  rsum nr (fun a => x a * rsum nc (fun b => coo_get L a b * y b)) = bil L x y.
Proof. intros H. rewrite (coo_bilinear nr nc) by exact H. reflexivity. Qed.

(** ** Congruence *)
Lemma congr_form n T K x y :
  rsum n (fun i => rsum n (fun j => x i * congr n T K i j * y j))
  = rsum n (fun a => rsum n (fun b => mvec n T x a * K a b * mvec n T y b)).
Proof.
  unfold congr, mmul, mT, mvec.
  transitivity (rsum n (fun i => rsum n (fun j => rsum n (fun a => rsum n (fun b => (T a i * x i) * K a b * (T b j * y j)))))).
  - apply rsum_ext; intros i _. apply rsum_ext; intros j _.
    transitivity (rsum n (fun a => x i * (T a i * rsum n (fun b => K a b * T b j)) * y j)).
    + rewrite rsum_scal_r, rsum_scal. reflexivity.
    + apply rsum_ext; intros a _.
      transitivity (x i * T a i * y j * rsum n (fun b => K a b * T b j)); [ring|].
      rewrite <- rsum_scal. apply rsum_ext; intros; ring.
  - transitivity (rsum n (fun i => rsum n (fun a => rsum n (fun j => rsum n (fun b => T a i * x i * K a b * (T b j * y j)))))).
    { apply rsum_ext; intros. apply rsum_swap. }
    rewrite rsum_swap. apply rsum_ext; intros a _.
    transitivity (rsum n (fun i => rsum n (fun b => rsum n (fun j => T a i * x i * K a b * (T b j * y j))))).
    { apply rsum_ext; intros. apply rsum_swap. }
    rewrite rsum_swap. apply rsum_ext; intros b _.
    transitivity (rsum n (fun i => T a i * x i * (K a b * rsum n (fun j => T b j * y j)))).
    + apply rsum_ext; intros i _. rewrite rsum_scal. ring.
    + rewrite rsum_scal_r. ring.
Qed.

(** ** Local components *)
Lemma mvec_block12 c x a : (a < 12)%nat ->
  mvec 12 (blockdiag (cs_T c)) x a
  = vec (ends_along (cs_x c) (cs_y c) (cs_z c)
          (Ends (V3 (x 0%nat) (x 1%nat) (x 2%nat)) (V3 (x 3%nat) (x 4%nat) (x 5%nat))
                (V3 (x 6%nat) (x 7%nat) (x 8%nat)) (V3 (x 9%nat) (x 10%nat) (x 11%nat)))) a.
Proof.
  intros H. unfold mvec, vec.
  do 12 (destruct a as [|a]; [cbn; unfold blockdiag, cs_T, dot3; cbn; ring|]). lia.
Qed.

Lemma block12_form c K x y :
  rsum 12 (fun i => rsum 12 (fun j => x i * congr 12 (blockdiag (cs_T c)) K i j * y j))
  = form12 K
     (ends_along (cs_x c) (cs_y c) (cs_z c)
          (Ends (V3 (x 0%nat) (x 1%nat) (x 2%nat)) (V3 (x 3%nat) (x 4%nat) (x 5%nat))
                (V3 (x 6%nat) (x 7%nat) (x 8%nat)) (V3 (x 9%nat) (x 10%nat) (x 11%nat))))
     (ends_along (cs_x c) (cs_y c) (cs_z c)
          (Ends (V3 (y 0%nat) (y 1%nat) (y 2%nat)) (V3 (y 3%nat) (y 4%nat) (y 5%nat))
                (V3 (y 6%nat) (y 7%nat) (y 8%nat)) (V3 (y 9%nat) (y 10%nat) (y 11%nat)))).
Proof.
  rewrite congr_form. unfold form12. apply rsum_ext; intros a Ha. apply rsum_ext; intros b Hb.
  rewrite !mvec_block12 by assumption. reflexivity.
Qed.

(** the vector seen by the scattered element *)
Lemma scat2_ends i j x :
  Ends (V3 (x (scat2 i j 0)) (x (scat2 i j 1)) (x (scat2 i j 2))) (V3 (x (scat2 i j 3)) (x (scat2 i j 4)) (x (scat2 i j 5)))
       (V3 (x (scat2 i j 6)) (x (scat2 i j 7)) (x (scat2 i j 8))) (V3 (x (scat2 i j 9)) (x (scat2 i j 10)) (x (scat2 i j 11)))
  = ends_at x i j.
Proof.
  unfold ends_at, disp_at, rot_at, scat2. cbn [Nat.ltb Nat.leb].
  rewrite !(Nat.mul_comm _ 6), !Nat.add_0_r, <- !Nat.add_sub_assoc by lia. cbn [Nat.sub].
  rewrite !Nat.add_0_r. reflexivity.
Qed.
