(** Placement of shell sub-matrices. *)
From Coq Require Import Reals Lra Lia List String Arith Bool.
From Verif Require Import Base BaseFacts Csys Sections Element Load FeModel Assembly Solver Post Api
  SpecApi CsysFacts SpecGeom SpecBeam BeamFacts AsmFacts SpecAsm.
Import ListNotations.
Local Open Scope R_scope.

Definition qd (n : nat) (A : mat) (x : nat -> R) : R := rsum n (fun i => rsum n (fun j => x i * A i j * x j)).

(** Sum over the equations of n nodes, six per node. *)
Lemma rsum_blocks k n f : rsum (k * n) f = rsum n (fun i => rsum k (fun a => f (k * i + a)%nat)).
Proof.
  induction n; [rewrite Nat.mul_0_r; reflexivity|].
  rewrite Nat.mul_succ_r, rsum_split, IHn. reflexivity.
Qed.

(** Quadratic form of the placed matrix = form of the membrane part on its components
    plus form of the plate part on its components. *)
Lemma six_lt a (P : nat -> Prop) : P 0%nat -> P 1%nat -> P 2%nat -> P 3%nat -> P 4%nat -> P 5%nat -> (a < 6)%nat -> P a.
Proof. intros. do 6 (destruct a as [|a]; [assumption|]). lia. Qed.

Lemma mod6' k a : (a < 6)%nat -> ((6 * k + a) mod 6 = a)%nat.
Proof. intros H. replace (6 * k + a)%nat with (a + k * 6)%nat by lia. rewrite Nat.mod_add by lia. apply Nat.mod_small, H. Qed.
Lemma div6' k a : (a < 6)%nat -> ((6 * k + a) / 6 = k)%nat.
Proof. intros H. replace (6 * k + a)%nat with (a + k * 6)%nat by lia. rewrite Nat.div_add by lia. rewrite Nat.div_small; lia. Qed.

(** in-plane values of a shell: membrane (u, v and drilling) and plate (w, two rotations) *)
Definition membrane_q (x : nat -> R) (r : nat) : R :=
  match (r mod 3)%nat with O => x (6 * (r / 3))%nat | S O => x (6 * (r / 3) + 1)%nat | _ => x (6 * (r / 3) + 5)%nat end.
Definition plate_x (x : nat -> R) (r : nat) : R := x (6 * (r / 3) + 2 + r mod 3)%nat.
Definition membrane_t (x : nat -> R) (r : nat) : R := x (6 * (r / 2) + r mod 2)%nat.

Lemma mod3 k a : (a < 3)%nat -> ((3 * k + a) mod 3 = a)%nat.
Proof. intros H. replace (3 * k + a)%nat with (a + k * 3)%nat by lia. rewrite Nat.mod_add by lia. apply Nat.mod_small, H. Qed.
Lemma div3 k a : (a < 3)%nat -> ((3 * k + a) / 3 = k)%nat.
Proof. intros H. replace (3 * k + a)%nat with (a + k * 3)%nat by lia. rewrite Nat.div_add by lia. rewrite Nat.div_small; lia. Qed.
Lemma mod2 k a : (a < 2)%nat -> ((2 * k + a) mod 2 = a)%nat.
Proof. intros H. replace (2 * k + a)%nat with (a + k * 2)%nat by lia. rewrite Nat.mod_add by lia. apply Nat.mod_small, H. Qed.
Lemma div2 k a : (a < 2)%nat -> ((2 * k + a) / 2 = k)%nat.
Proof. intros H. replace (2 * k + a)%nat with (a + k * 2)%nat by lia. rewrite Nat.div_add by lia. rewrite Nat.div_small; lia. Qed.

(** what [place_tria] computes *)
Definition closed_tria (Km Kp : mat) : mat := fun r c =>
  let i := (r / 6)%nat in let a := (r mod 6)%nat in
  let j := (c / 6)%nat in let b := (c mod 6)%nat in
  if (Nat.leb 2 a && Nat.ltb a 5 && Nat.leb 2 b && Nat.ltb b 5)%bool
  then Kp (i*3 + (a-2))%nat (j*3 + (b-2))%nat
  else if (Nat.ltb a 2 && Nat.ltb b 2)%bool
  then Km (i*2 + a)%nat (j*2 + b)%nat
  else 0.

(** what [place_quad] computes *)
Definition closed_quad (Km Kp : mat) : mat := fun r c =>
  let i := (r / 6)%nat in let a := (r mod 6)%nat in
  let j := (c / 6)%nat in let b := (c mod 6)%nat in
  if (Nat.leb 2 a && Nat.ltb a 5 && Nat.leb 2 b && Nat.ltb b 5)%bool
  then Kp (i*3 + (a-2))%nat (j*3 + (b-2))%nat
  else if (Nat.ltb a 2 && Nat.ltb b 2)%bool then Km (i*3 + a)%nat (j*3 + b)%nat
  else if (Nat.eqb a 5 && Nat.ltb b 2)%bool then Km (i*3 + 2)%nat (j*3 + b)%nat
  else if (Nat.ltb a 2 && Nat.eqb b 5)%bool then Km (i*3 + a)%nat (j*3 + 2)%nat
  else if (Nat.eqb a 5 && Nat.eqb b 5)%bool then Km (i*3 + 2)%nat (j*3 + 2)%nat
  else 0.

Lemma closed_quad_at Km Kp i a j b : (a < 6)%nat -> (b < 6)%nat ->
  closed_quad Km Kp (6 * i + a)%nat (6 * j + b)%nat =
  if (Nat.leb 2 a && Nat.ltb a 5 && Nat.leb 2 b && Nat.ltb b 5)%bool
  then Kp (i*3 + (a-2))%nat (j*3 + (b-2))%nat
  else if (Nat.ltb a 2 && Nat.ltb b 2)%bool then Km (i*3 + a)%nat (j*3 + b)%nat
  else if (Nat.eqb a 5 && Nat.ltb b 2)%bool then Km (i*3 + 2)%nat (j*3 + b)%nat
  else if (Nat.ltb a 2 && Nat.eqb b 5)%bool then Km (i*3 + a)%nat (j*3 + 2)%nat
  else if (Nat.eqb a 5 && Nat.eqb b 5)%bool then Km (i*3 + 2)%nat (j*3 + 2)%nat
  else 0.
Proof. intros Ha Hb. unfold closed_quad. rewrite !mod6', !div6' by assumption. reflexivity. Qed.

Lemma closed_tria_at Km Kp i a j b : (a < 6)%nat -> (b < 6)%nat ->
  closed_tria Km Kp (6 * i + a)%nat (6 * j + b)%nat =
  if (Nat.leb 2 a && Nat.ltb a 5 && Nat.leb 2 b && Nat.ltb b 5)%bool
  then Kp (i*3 + (a-2))%nat (j*3 + (b-2))%nat
  else if (Nat.ltb a 2 && Nat.ltb b 2)%bool
  then Km (i*2 + a)%nat (j*2 + b)%nat
  else 0.
Proof. intros Ha Hb. unfold closed_tria. rewrite !mod6', !div6' by assumption. reflexivity. Qed.

Lemma rsum6 f : rsum 6 f = f 0%nat + f 1%nat + f 2%nat + f 3%nat + f 4%nat + f 5%nat.
Proof. cbn [rsum]. ring. Qed.
Lemma rsum3 f : rsum 3 f = f 0%nat + f 1%nat + f 2%nat.
Proof. cbn [rsum]. ring. Qed.
Lemma rsum2 f : rsum 2 f = f 0%nat + f 1%nat.
Proof. cbn [rsum]. ring. Qed.

(** general bilinear version, n nodes *)
Lemma closed_quad_form n Km Kp x y :
  rsum (6*n) (fun r => rsum (6*n) (fun c => x r * closed_quad Km Kp r c * y c))
  = rsum (3*n) (fun r => rsum (3*n) (fun c => membrane_q x r * Km r c * membrane_q y c))
  + rsum (3*n) (fun r => rsum (3*n) (fun c => plate_x x r * Kp r c * plate_x y c)).
Proof.
  rewrite !rsum_blocks, <- rsum_plus. apply rsum_ext; intros i _.
  transitivity (rsum n (fun j =>
    rsum 3 (fun a => rsum 3 (fun b => membrane_q x (3*i+a)%nat * Km (3*i+a)%nat (3*j+b)%nat * membrane_q y (3*j+b)%nat))
   +rsum 3 (fun a => rsum 3 (fun b => plate_x x (3*i+a)%nat * Kp (3*i+a)%nat (3*j+b)%nat * plate_x y (3*j+b)%nat)))).
  - transitivity (rsum n (fun j => rsum 6 (fun a => rsum 6 (fun b => x (6*i+a)%nat * closed_quad Km Kp (6*i+a)%nat (6*j+b)%nat * y (6*j+b)%nat)))).
    { rewrite (rsum_swap n 6). apply rsum_ext; intros a _. rewrite rsum_blocks. reflexivity. }
    apply rsum_ext; intros j _.
    rewrite ?rsum6, ?rsum3. rewrite !closed_quad_at by lia.
    unfold membrane_q, plate_x. rewrite !mod3, !div3 by lia.
    cbn [Nat.leb Nat.ltb Nat.eqb andb Nat.sub].
    rewrite !(Nat.mul_comm i 3), !(Nat.mul_comm j 3), !Nat.add_0_r, <- !Nat.add_assoc. cbn [Nat.add]. ring.
  - rewrite rsum_plus. f_equal.
    + rewrite (rsum_swap n 3). apply rsum_ext; intros a _. rewrite rsum_blocks. reflexivity.
    + rewrite (rsum_swap n 3). apply rsum_ext; intros a _. rewrite rsum_blocks. reflexivity.
Qed.

Lemma closed_tria_form n Km Kp x y :
  rsum (6*n) (fun r => rsum (6*n) (fun c => x r * closed_tria Km Kp r c * y c))
  = rsum (2*n) (fun r => rsum (2*n) (fun c => membrane_t x r * Km r c * membrane_t y c))
  + rsum (3*n) (fun r => rsum (3*n) (fun c => plate_x x r * Kp r c * plate_x y c)).
Proof.
  rewrite !rsum_blocks, <- rsum_plus. apply rsum_ext; intros i _.
  transitivity (rsum n (fun j =>
    rsum 2 (fun a => rsum 2 (fun b => membrane_t x (2*i+a)%nat * Km (2*i+a)%nat (2*j+b)%nat * membrane_t y (2*j+b)%nat))
   +rsum 3 (fun a => rsum 3 (fun b => plate_x x (3*i+a)%nat * Kp (3*i+a)%nat (3*j+b)%nat * plate_x y (3*j+b)%nat)))).
  - transitivity (rsum n (fun j => rsum 6 (fun a => rsum 6 (fun b => x (6*i+a)%nat * closed_tria Km Kp (6*i+a)%nat (6*j+b)%nat * y (6*j+b)%nat)))).
    { rewrite (rsum_swap n 6). apply rsum_ext; intros a _. rewrite rsum_blocks. reflexivity. }
    apply rsum_ext; intros j _.
    rewrite ?rsum6, ?rsum3, ?rsum2. rewrite !closed_tria_at by lia.
    unfold membrane_t, plate_x. rewrite !mod3, !div3, !mod2, !div2 by lia.
    cbn [Nat.leb Nat.ltb Nat.eqb andb Nat.sub].
    rewrite !(Nat.mul_comm i 3), !(Nat.mul_comm j 3), !(Nat.mul_comm i 2), !(Nat.mul_comm j 2), !Nat.add_0_r, <- !Nat.add_assoc. cbn [Nat.add]. ring.
  - rewrite rsum_plus. f_equal.
    + rewrite (rsum_swap n 2). apply rsum_ext; intros a _. rewrite rsum_blocks. reflexivity.
    + rewrite (rsum_swap n 3). apply rsum_ext; intros a _. rewrite rsum_blocks. reflexivity.
Qed.

Lemma form_sym n (A : mat) x y : symmetric_upto n A ->
  rsum n (fun i => rsum n (fun j => x i * A i j * y j)) = rsum n (fun i => rsum n (fun j => y i * A i j * x j)).
Proof.
  intros S. rewrite rsum_swap. apply rsum_ext; intros i Hi. apply rsum_ext; intros j Hj.
  rewrite (S j i) by assumption. ring.
Qed.

(** ** The triangular membrane *)
Lemma planeD_sym E mu : symmetric_upto 3 (planeD E mu).
Proof.
  intros i j Hi Hj. do 3 (destruct i as [|i]; [do 3 (destruct j as [|j]; [reflexivity|]); lia|]). lia.
Qed.

Lemma BDB_form n B D x y :
  rsum n (fun i => rsum n (fun j => x i * mmul 3 (mT B) (mmul 3 D B) i j * y j))
  = rsum 3 (fun a => rsum 3 (fun b => mvec n B x a * D a b * mvec n B y b)).
Proof.
  unfold mmul, mT, mvec.
  transitivity (rsum n (fun i => rsum n (fun j => rsum 3 (fun a => rsum 3 (fun b => (B a i * x i) * D a b * (B b j * y j)))))).
  - apply rsum_ext; intros i _. apply rsum_ext; intros j _. cbn [rsum]. ring.
  - transitivity (rsum n (fun i => rsum 3 (fun a => rsum n (fun j => rsum 3 (fun b => B a i * x i * D a b * (B b j * y j)))))).
    { apply rsum_ext; intros. apply rsum_swap. }
    rewrite rsum_swap. apply rsum_ext; intros a _.
    transitivity (rsum n (fun i => rsum 3 (fun b => rsum n (fun j => B a i * x i * D a b * (B b j * y j))))).
    { apply rsum_ext; intros. apply rsum_swap. }
    rewrite rsum_swap. apply rsum_ext; intros b _.
    transitivity (rsum n (fun i => B a i * x i * (D a b * rsum n (fun j => B b j * y j)))).
    + apply rsum_ext; intros i _. rewrite rsum_scal. ring.
    + rewrite rsum_scal_r. ring.
Qed.

Lemma t9_sym E mu xl n x y :
  rsum n (fun i => rsum n (fun j => x i * t9_BDB E mu xl i j * y j))
  = rsum n (fun i => rsum n (fun j => y i * t9_BDB E mu xl i j * x j)).
Proof. unfold t9_BDB. rewrite !BDB_form. apply form_sym, planeD_sym. Qed.

Lemma planeD_psd E mu v : 0 <= E -> -1 < mu < 1 ->
  0 <= rsum 3 (fun a => rsum 3 (fun b => v a * planeD E mu a b * v b)).
Proof.
  intros HE Hm. cbn [rsum planeD].
  assert (P : 0 <= E / (1 - mu^2)).
  { apply Rmult_le_pos; [exact HE|]. left. apply Rinv_0_lt_compat. nra. }
  set (k := E / (1 - mu^2)) in *.
  assert (Q : 0 <= v 0%nat * v 0%nat + 2 * mu * (v 0%nat * v 1%nat) + v 1%nat * v 1%nat + (1 - mu)/2 * (v 2%nat * v 2%nat)).
  { assert (0 <= (v 0%nat + mu * v 1%nat) * (v 0%nat + mu * v 1%nat)) by apply Rle_0_sqr.
    assert (0 <= (1 - mu * mu) * (v 1%nat * v 1%nat)) by (apply Rmult_le_pos; [nra|apply Rle_0_sqr]).
    assert (0 <= (1 - mu)/2 * (v 2%nat * v 2%nat)) by (apply Rmult_le_pos; [lra|apply Rle_0_sqr]).
    generalize dependent (v 0%nat). intros v0 Q1. lra. }
  match goal with |- 0 <= ?g => replace g with (k * (v 0%nat * v 0%nat + 2 * mu * (v 0%nat * v 1%nat) + v 1%nat * v 1%nat + (1 - mu)/2 * (v 2%nat * v 2%nat))) by field end.
  apply Rmult_le_pos; assumption.
Qed.

Lemma t9_psd E mu xl n x : 0 <= E -> -1 < mu < 1 ->
  0 <= rsum n (fun i => rsum n (fun j => x i * t9_BDB E mu xl i j * x j)).
Proof. intros. unfold t9_BDB. rewrite BDB_form. apply planeD_psd; assumption. Qed.

(** ** The shell matrix *)
Lemma form_scale n k (A : mat) x y :
  rsum n (fun i => rsum n (fun j => x i * (k * A i j) * y j)) = k * rsum n (fun i => rsum n (fun j => x i * A i j * y j)).
Proof.
  rewrite <- rsum_scal. apply rsum_ext; intros i _. rewrite <- rsum_scal. apply rsum_ext; intros; ring.
Qed.
Lemma form_zero n x y : rsum n (fun i => rsum n (fun j => x i * zero_mat i j * y j)) = 0.
Proof. apply rsum_0; intros. apply rsum_0; intros. unfold zero_mat. ring. Qed.

Lemma below n (P : nat -> Prop) : Forall P (seq 0 n) -> forall k, (k < n)%nat -> P k.
Proof. intros H k Hk. rewrite Forall_forall in H. apply H, in_seq. lia. Qed.
Lemma place_quad_closed Km Kp r c : (r < 24)%nat -> (c < 24)%nat -> place_quad Km Kp r c = closed_quad Km Kp r c.
Proof.
  intros Hr Hc. revert c Hc. pattern r. revert r Hr. apply below. cbn [seq].
  repeat (constructor; [apply below; cbn [seq]; repeat (constructor; [reflexivity|]); constructor|]). constructor.
Qed.
Lemma place_tria_closed Km Kp r c : (r < 18)%nat -> (c < 18)%nat -> place_tria Km Kp r c = closed_tria Km Kp r c.
Proof.
  intros Hr Hc. revert c Hc. pattern r. revert r Hr. apply below. cbn [seq].
  repeat (constructor; [apply below; cbn [seq]; repeat (constructor; [reflexivity|]); constructor|]). constructor.
Qed.
Lemma place_quad_form Km Kp x y :
  rsum (6*4) (fun r => rsum (6*4) (fun c => x r * place_quad Km Kp r c * y c))
  = rsum (3*4) (fun r => rsum (3*4) (fun c => membrane_q x r * Km r c * membrane_q y c))
  + rsum (3*4) (fun r => rsum (3*4) (fun c => plate_x x r * Kp r c * plate_x y c)).
Proof.
  rewrite <- closed_quad_form. apply rsum_ext; intros r Hr. apply rsum_ext; intros c Hc. rewrite place_quad_closed by assumption. reflexivity.
Qed.
Lemma place_tria_form Km Kp x y :
  rsum (6*3) (fun r => rsum (6*3) (fun c => x r * place_tria Km Kp r c * y c))
  = rsum (2*3) (fun r => rsum (2*3) (fun c => membrane_t x r * Km r c * membrane_t y c))
  + rsum (3*3) (fun r => rsum (3*3) (fun c => plate_x x r * Kp r c * plate_x y c)).
Proof.
  rewrite <- closed_tria_form. apply rsum_ext; intros r Hr. apply rsum_ext; intros c Hc. rewrite place_tria_closed by assumption. reflexivity.
Qed.

Lemma shell_form_sym ker s x y : symmetric_kernels ker ->
  List.length (sh_nodes s) = 3%nat \/ List.length (sh_nodes s) = 4%nat ->
  let n := (6 * List.length (sh_nodes s))%nat in
  rsum n (fun i => rsum n (fun j => x i * shell_K ker s i j * y j))
  = rsum n (fun i => rsum n (fun j => y i * shell_K ker s i j * x j)).
Proof.
  intros [S1 S2 S3] [H|H] n; unfold n; rewrite H; unfold shell_K; rewrite H; cbn [Nat.eqb].
  - unfold tria_K. rewrite !place_tria_form. f_equal.
    + rewrite !form_scale. f_equal. apply t9_sym.
    + rewrite !form_scale. f_equal. apply form_sym. intros i j Hi Hj. apply S3; lia.
  - unfold quad_K. rewrite !place_quad_form. f_equal.
    + destruct (_ || _)%bool; [apply form_sym; intros i j Hi Hj; apply S1; lia|rewrite !form_zero; reflexivity].
    + destruct (_ || _)%bool; [apply form_sym; intros i j Hi Hj; apply S2; lia|rewrite !form_zero; reflexivity].
Qed.

Lemma shell_form_psd ker s x : psd_kernels ker -> shell_admissible s ->
  List.length (sh_nodes s) = 3%nat \/ List.length (sh_nodes s) = 4%nat ->
  let n := (6 * List.length (sh_nodes s))%nat in
  0 <= rsum n (fun i => rsum n (fun j => x i * shell_K ker s i j * x j)).
Proof.
  intros [P1 P2 P3] (T & HE & Hm & HA & HC) [H|H] n; unfold n; rewrite H; unfold shell_K; rewrite H; cbn [Nat.eqb].
  - unfold tria_K. rewrite place_tria_form, !form_scale. specialize (HA H).
    assert (0 <= 2 * ss_t (sh_sec s) * sh_area s) by (apply Rmult_le_pos; lra).
    apply Rplus_le_le_0_compat; (apply Rmult_le_pos; [lra|]); [apply t9_psd; assumption|apply P3; assumption].
  - unfold quad_K. rewrite place_quad_form.
    apply Rplus_le_le_0_compat; (destruct (_ || _)%bool; [apply P1 || apply P2; try assumption; exact (HC H)|rewrite form_zero; lra]).
Qed.
