(** Proofs about the symbolic scripts. *)
From Coq Require Import Reals Lra Lia List Arith Bool.
From Verif Require Import Base BaseFacts Csys Sections Element CsysFacts SpecGeom SpecBeam BeamFacts Meta SpecMeta.
Import ListNotations.
Local Open Scope R_scope.

(** ** Polynomials *)
Lemma p_at_add p q x : p_at (p_add p q) x = p_at p x + p_at q x.
Proof.
  revert q. induction p as [|a p IH]; intros [|b q]; cbn; try ring. rewrite IH. ring.
Qed.
Lemma p_at_scal k p x : p_at (p_scal k p) x = k * p_at p x.
Proof. induction p as [|a p IH]; cbn; [ring|]. unfold p_scal in IH. rewrite IH. ring. Qed.
Lemma p_at_mul p q x : p_at (p_mul p q) x = p_at p x * p_at q x.
Proof. induction p as [|a p IH]; cbn; [ring|]. rewrite p_at_add, p_at_scal. cbn. rewrite IH. ring. Qed.

Lemma p_der_from_S n q x : p_at (p_der_from (S n) q) x = p_at (p_der_from n q) x + p_at q x.
Proof.
  revert n. induction q as [|b q IH]; intros n; [cbn; ring|].
  cbn [p_der_from p_at]. rewrite IH, S_INR. ring.
Qed.
Lemma p_der_cons a q x : p_at (p_der (a :: q)) x = p_at q x + x * p_at (p_der q) x.
Proof.
  cbn [p_der]. rewrite p_der_from_S. destruct q as [|b r]; cbn [p_der p_der_from p_at INR]; ring.
Qed.
Lemma p_derivable p x : derivable_pt_lim (p_at p) x (p_at (p_der p) x).
Proof.
  revert x. induction p as [|a q IH]; intros x.
  - change (derivable_pt_lim (fct_cte 0) x 0). apply derivable_pt_lim_const.
  - rewrite p_der_cons. change (derivable_pt_lim (fct_cte a + (id * p_at q)) x (p_at q x + x * p_at (p_der q) x)).
    replace (p_at q x + x * p_at (p_der q) x) with (0 + (1 * p_at q x + id x * p_at (p_der q) x)) by (unfold id; ring).
    apply derivable_pt_lim_plus; [apply derivable_pt_lim_const|]. apply derivable_pt_lim_mult; [apply derivable_pt_lim_id|apply IH].
Qed.
Lemma p_continuity p : continuity (p_at p).
Proof.
  intros x. apply derivable_continuous_pt. exists (p_at (p_der p) x). apply p_derivable.
Qed.
Lemma p_der_int_from n p : n <> 0%nat -> p_der_from n (p_int_from n p) = p.
Proof.
  revert n. induction p as [|a p IH]; intros n Hn; [reflexivity|]. cbn [p_int_from p_der_from].
  rewrite IH by discriminate. f_equal. field. apply not_0_INR; exact Hn.
Qed.
Lemma p_der_int p : p_der (p_int p) = p.
Proof. unfold p_int, p_der. apply p_der_int_from. discriminate. Qed.

Lemma p_integral f p a b (pr : Riemann_integrable f a b) : (forall x, f x = p_at p x) -> RiemannInt pr = p_between p a b.
Proof.
  intros Hf. assert (Ef : f = p_at p) by (apply FunctionalExtensionality.functional_extensionality; exact Hf).
  subst f. set (W := p_at (p_int p)).
  assert (D : forall x, derivable_pt_lim W x (p_at p x)).
  { intros x. rewrite <- (p_der_int p) at 1. apply p_derivable. }
  pose (d0 := fun x => exist (derivable_pt_abs W x) (p_at p x) (D x) : derivable_pt W x).
  assert (C : continuity (derive W d0)).
  { intros x. change (continuity_pt (p_at p) x). apply p_continuity. }
  pose (F := mkC1 C).
  assert (pr2 : Riemann_integrable (derive F (diff0 F)) a b) by exact pr.
  transitivity (RiemannInt pr2); [apply RiemannInt_P5|].
  rewrite (FTC_Riemann F pr2). reflexivity.
Qed.

(** ** Sums over the blocks *)
Definition gets (d e : ends) (K : coo) : R :=
  lsum (map (fun t => match t with (r, c, v) => vec d r * v * vec e c end) K).
Lemma gets_app d e K L : gets d e (K ++ L) = gets d e K + gets d e L.
Proof. unfold gets. rewrite map_app. apply lsum_app. Qed.
Lemma gets_put d e n r B : gets d e (put n r B)
  = lsum (map (fun i => lsum (map (fun j => vec d (r i) * B i j * vec e (r j)) (seq 0 n))) (seq 0 n)).
Proof.
  unfold put. generalize (seq 0 n) at 2 4 as L. generalize (seq 0 n) as M. intros M L. induction L as [|i L IH]; [reflexivity|].
  cbn [flat_map map]. rewrite gets_app. cbn [lsum]. rewrite IH. f_equal.
  unfold gets. rewrite map_map. reflexivity.
Qed.

Ltac blocks := unfold p_between, p_int; cbn [cub_N cub_N3 lin_N p_scal map p_der p_der_from p_mul p_add p_int_from p_at INR]; field; repeat split; lra.

(** entries of the blocks *)
Definition ax (i j : nat) : R := if Nat.eqb i j then 1 else -1.
Lemma bK1_eq E A l i j : l <> 0 -> (i < 2)%nat -> (j < 2)%nat -> bK1 E A l i j = E * A / l * ax i j.
Proof. intros Hl Hi Hj. destruct i as [|[|i]]; [| |lia]; destruct j as [|[|j]]; try lia; unfold bK1, ax; cbn [Nat.eqb]; blocks. Qed.
Lemma bK3_eq E A l i j : l <> 0 -> (i < 2)%nat -> (j < 2)%nat -> bK3 E A l i j = E * A / l * ax i j.
Proof. intros Hl Hi Hj. destruct i as [|[|i]]; [| |lia]; destruct j as [|[|j]]; try lia; unfold bK3, ax; cbn [Nat.eqb]; blocks. Qed.
Lemma bM1_eq E A l i j : l <> 0 -> (i < 2)%nat -> (j < 2)%nat -> bM1 E A l i j = 2 * E * A / l * (if Nat.eqb i j then 2/3 else 1/3).
Proof. intros Hl Hi Hj. destruct i as [|[|i]]; [| |lia]; destruct j as [|[|j]]; try lia; unfold bM1, ax; cbn [Nat.eqb]; blocks. Qed.

Definition curv (l : R) (i j : nat) : R :=
  nth j (nth i [[12; 6*l; -12; 6*l]; [6*l; 4*l^2; -6*l; 2*l^2]; [-12; -6*l; 12; -6*l]; [6*l; 2*l^2; -6*l; 4*l^2]] []) 0.
Definition curv3 (l : R) (i j : nat) : R :=
  nth j (nth i [[12; -6*l; -12; -6*l]; [-6*l; 4*l^2; 6*l; 2*l^2]; [-12; 6*l; 12; 6*l]; [-6*l; 2*l^2; 6*l; 4*l^2]] []) 0.
Definition cmass (l : R) (i j : nat) : R :=
  nth j (nth i [[156; 22*l; 54; -13*l]; [22*l; 4*l^2; 13*l; -3*l^2]; [54; 13*l; 156; -22*l]; [-13*l; -3*l^2; -22*l; 4*l^2]] []) 0 / 420.
Definition cmass3 (l : R) (i j : nat) : R :=
  nth j (nth i [[156; -22*l; 54; 13*l]; [-22*l; 4*l^2; -13*l; -3*l^2]; [54; -13*l; 156; 22*l]; [13*l; -3*l^2; 22*l; 4*l^2]] []) 0 / 420.
Lemma bK2_eq E I l i j : l <> 0 -> (i < 4)%nat -> (j < 4)%nat -> bK2 (cub_N l) E I l i j = E * I / l^3 * curv l i j.
Proof.
  intros Hl Hi Hj. unfold bK2. f_equal.
  destruct i as [|[|[|[|i]]]]; try lia; (destruct j as [|[|[|[|j]]]]; try lia); unfold curv; cbn [nth]; blocks.
Qed.
Lemma bK23_eq E I l i j : l <> 0 -> (i < 4)%nat -> (j < 4)%nat -> bK2 (cub_N3 l) E I l i j = E * I / l^3 * curv3 l i j.
Proof.
  intros Hl Hi Hj. unfold bK2. f_equal.
  destruct i as [|[|[|[|i]]]]; try lia; (destruct j as [|[|[|[|j]]]]; try lia); unfold curv3; cbn [nth]; blocks.
Qed.
Lemma bM2_eq E I l i j : l <> 0 -> (i < 4)%nat -> (j < 4)%nat -> bM2 (cub_N l) E I l i j = E * I / l^3 * cmass l i j.
Proof.
  intros Hl Hi Hj. unfold bM2. f_equal.
  destruct i as [|[|[|[|i]]]]; try lia; (destruct j as [|[|[|[|j]]]]; try lia); unfold cmass; cbn [nth]; blocks.
Qed.
Lemma bM23_eq E I l i j : l <> 0 -> (i < 4)%nat -> (j < 4)%nat -> bM2 (cub_N3 l) E I l i j = E * I / l^3 * cmass3 l i j.
Proof.
  intros Hl Hi Hj. unfold bM2. f_equal.
  destruct i as [|[|[|[|i]]]]; try lia; (destruct j as [|[|[|[|j]]]]; try lia); unfold cmass3; cbn [nth]; blocks.
Qed.
Lemma put_ext n r B B' : (forall i j, (i < n)%nat -> (j < n)%nat -> B i j = B' i j) -> put n r B = put n r B'.
Proof.
  intros H. unfold put. rewrite !flat_map_concat_map. f_equal. apply map_ext_in. intros i Hi. apply in_seq in Hi.
  apply map_ext_in. intros j Hj. apply in_seq in Hj. rewrite H by lia. reflexivity.
Qed.

Definition row_u (i : nat) : nat := (i * 6)%nat.
Definition row_v (i : nat) : nat := (i / 2 * 6 + i mod 2 * 4 + 1)%nat.
Definition row_w (i : nat) : nat := (i / 2 * 6 + i mod 2 * 2 + 2)%nat.
Definition row_t (i : nat) : nat := (i * 6 + 3)%nat.

Lemma meta_K_blocks E G A I2 I3 J l : l <> 0 -> meta_K E G A I2 I3 J l = coo_get
  (put 2 row_u (fun i j => E * A / l * ax i j) ++ put 4 row_v (fun i j => E * I2 / l^3 * curv l i j)
   ++ put 4 row_w (fun i j => E * I3 / l^3 * curv3 l i j) ++ put 2 row_t (fun i j => G * J / l * ax i j)).
Proof.
  intros Hl. unfold meta_K. f_equal. f_equal; [|f_equal; [|f_equal]]; apply put_ext; intros;
    [apply bK1_eq|apply bK2_eq|apply bK23_eq|apply bK3_eq]; assumption.
Qed.
Lemma meta_M_blocks rho A I2 I3 J l : l <> 0 -> meta_M rho A I2 I3 J l = coo_get
  (put 2 row_u (fun i j => 2 * rho * A / l * (if Nat.eqb i j then 2/3 else 1/3)) ++ put 4 row_v (fun i j => rho * I2 / l^3 * cmass l i j)
   ++ put 4 row_w (fun i j => rho * I3 / l^3 * cmass3 l i j) ++ put 2 row_t (fun i j => 2 * rho * J / l * (if Nat.eqb i j then 2/3 else 1/3))).
Proof.
  intros Hl. unfold meta_M. f_equal. f_equal; [|f_equal; [|f_equal]]; apply put_ext; intros;
    [apply bM1_eq|apply bM2_eq|apply bM23_eq|apply bM1_eq]; assumption.
Qed.

Lemma c90_work E G A I2 I3 J l d e : l <> 0 ->
  form12 (meta_K E G A I2 I3 J l) d e = member_work (Stiff (E * A) (G * J) (E * I3) (E * I2)) l d e.
Proof.
  intros Hl. rewrite meta_K_blocks by exact Hl. rewrite form12_bil by reflexivity.
  match goal with |- lsum (map _ ?K) = _ => change (gets d e K = member_work (Stiff (E * A) (G * J) (E * I3) (E * I2)) l d e) end.
  rewrite !gets_app, !gets_put.
  destruct d as [[a1 a2 a3] [a4 a5 a6] [a7 a8 a9] [a10 a11 a12]].
  destruct e as [[b1 b2 b3] [b4 b5 b6] [b7 b8 b9] [b10 b11 b12]].
  unfold member_work, bend, vec, row_u, row_v, row_w, row_t, ax, curv, curv3. cbn. field. exact Hl.
Qed.

Lemma c90_agree E G A I J l i j : l <> 0 -> (i < 12)%nat -> (j < 12)%nat ->
  meta_K E G A I I J l i j = beam_K_mat E G A I I J l i j.
Proof.
  intros Hl Hi Hj. rewrite meta_K_blocks by exact Hl. unfold beam_K_mat.
  do 12 (destruct i as [|i]; [do 12 (destruct j as [|j]; [unfold ax, curv, curv3; cbn; field; try exact Hl|]); lia|]); lia.
Qed.
