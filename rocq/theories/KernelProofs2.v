(** Proofs about the integrated shell kernels (C74-C77). *)
From Coq Require Import Reals Lra Lia List Arith.
From Verif Require Import Base BaseFacts Csys Sections Element Kernels SpecKernel SpecAsm ShellFacts KernelProofs.
Import ListNotations.
Local Open Scope R_scope.

Definition pt_xi (p : R * R * R) : R := fst (fst p).
Definition pt_eta (p : R * R * R) : R := snd (fst p).

Lemma lsum_ext {A} (f g : A -> R) l : (forall a, In a l -> f a = g a) -> lsum (map f l) = lsum (map g l).
Proof. induction l; intros H; cbn; [reflexivity|]. rewrite H by (left; reflexivity). rewrite IHl; auto. intros; apply H; now right. Qed.
Lemma lsum_zero {A} (f : A -> R) l : (forall a, In a l -> f a = 0) -> lsum (map f l) = 0.
Proof. induction l; intros H; cbn; [reflexivity|]. rewrite H by (left; reflexivity). rewrite IHl; [ring|]. intros; apply H; now right. Qed.
Lemma lsum_pos {A} (f : A -> R) l : (forall a, In a l -> 0 <= f a) -> 0 <= lsum (map f l).
Proof. induction l; intros H; cbn; [lra|]. apply Rplus_le_le_0_compat; [apply H; now left|]. apply IHl. intros; apply H; now right. Qed.
Lemma lsum_scal {A} k (f : A -> R) l : lsum (map (fun a => k * f a) l) = k * lsum (map f l).
Proof. induction l; cbn; [ring|]. rewrite IHl. ring. Qed.
Lemma lsum_add {A} (f g : A -> R) l : lsum (map (fun a => f a + g a) l) = lsum (map f l) + lsum (map g l).
Proof. induction l; cbn; [ring|]. rewrite IHl. ring. Qed.

Lemma integrate_force n q f d r :
  force n (integrate q f) d r = lsum (map (fun p => snd p * force n (f (pt_xi p) (pt_eta p)) d r) q).
Proof.
  unfold force, integrate. induction q as [|p q IH]; cbn [map lsum].
  - apply rsum_0. intros. ring.
  - rewrite <- IH, <- rsum_scal, <- rsum_plus. apply rsum_ext; intros. unfold pt_xi, pt_eta. ring.
Qed.
Lemma integrate_work n q f x y :
  work n (integrate q f) x y = lsum (map (fun p => snd p * work n (f (pt_xi p) (pt_eta p)) x y) q).
Proof.
  unfold work, integrate. induction q as [|p q IH]; cbn [map lsum].
  - apply rsum_0. intros. apply rsum_0. intros. ring.
  - rewrite <- IH, <- rsum_scal, <- rsum_plus. apply rsum_ext; intros. rewrite <- rsum_scal, <- rsum_plus. apply rsum_ext; intros. unfold pt_xi, pt_eta. ring.
Qed.
Lemma integrate_sym n q f : (forall xi eta, symmetric_upto n (f xi eta)) -> symmetric_upto n (integrate q f).
Proof. intros H i j Hi Hj. unfold integrate. apply lsum_ext. intros p _. rewrite (H _ _ i j) by assumption. reflexivity. Qed.

Lemma BDB_sym n B D : symmetric_upto 3 D -> symmetric_upto n (mmul 3 (mT B) (mmul 3 D B)).
Proof.
  intros S i j _ _. unfold mmul, mT. cbn [rsum].
  rewrite (S 1 0)%nat, (S 2 0)%nat, (S 2 1)%nat by lia. ring.
Qed.
Lemma plateD_sym E mu t : symmetric_upto 3 (plateD E mu t).
Proof. apply planeD_sym. Qed.

Lemma gq12_sym E mu t xl xi eta : symmetric_upto 12 (gq12_BDB E mu t xi eta xl).
Proof. intros i j Hi Hj. unfold gq12_BDB. rewrite (BDB_sym 12 _ _ (planeD_sym E mu) i j Hi Hj). reflexivity. Qed.
Lemma dkq_sym E mu t xl xi eta : symmetric_upto 12 (dkq_BDB E mu t xi eta xl).
Proof. intros i j Hi Hj. unfold dkq_BDB. rewrite (BDB_sym 12 _ _ (plateD_sym E mu t) i j Hi Hj). reflexivity. Qed.
Lemma dkt_sym E mu t xl xi eta : symmetric_upto 9 (dkt_BDB E mu t xi eta xl).
Proof. apply BDB_sym, plateD_sym. Qed.
Lemma code_symmetric c2 t2 : symmetric_kernels (code_kernels c2 t2).
Proof.
  constructor; intros; cbn [code_kernels k_gq12 k_dkq k_dkt]; apply integrate_sym; intros;
    [apply gq12_sym|apply dkq_sym|apply dkt_sym].
Qed.

(** ** Work and force at a point *)
Definition density (D : mat) (u v : nat -> R) : R := rsum 3 (fun a => rsum 3 (fun b => u a * D a b * v b)).
Lemma work_scale n k (A : mat) x y : work n (fun i j => k * A i j) x y = k * work n A x y.
Proof. apply form_scale. Qed.
Lemma gq12_work E mu t xl xi eta x y : work 12 (gq12_BDB E mu t xi eta xl) x y
  = t * det2 (gq_J xl xi eta) * density (planeD E mu) (mvec 12 (gq_B xl xi eta) x) (mvec 12 (gq_B xl xi eta) y).
Proof.
  unfold density. rewrite <- BDB_form. rewrite <- form_scale. unfold work, gq12_BDB.
  apply rsum_ext; intros. apply rsum_ext; intros. ring.
Qed.
Lemma dkq_work E mu t xl xi eta x y : work 12 (dkq_BDB E mu t xi eta xl) x y
  = det2 (dkq_J xl xi eta) * density (plateD E mu t) (mvec 12 (dkq_B xl xi eta) x) (mvec 12 (dkq_B xl xi eta) y).
Proof.
  unfold density. rewrite <- BDB_form. rewrite <- form_scale. unfold work, dkq_BDB.
  apply rsum_ext; intros. apply rsum_ext; intros. ring.
Qed.
Lemma dkt_work E mu t xl xi eta x y : work 9 (dkt_BDB E mu t xi eta xl) x y
  = density (plateD E mu t) (mvec 9 (dkt_B xl xi eta) x) (mvec 9 (dkt_B xl xi eta) y).
Proof. unfold density. rewrite <- BDB_form. reflexivity. Qed.

Lemma density_plane E mu u v : density (planeD E mu) u v
  = plane_stress E mu [u 0%nat; u 1%nat; u 2%nat] [v 0%nat; v 1%nat; v 2%nat].
Proof. unfold density, plane_stress. cbn [rsum planeD nth]. unfold Rdiv. ring. Qed.
Lemma density_ext D u v u' v' : (forall r, (r < 3)%nat -> u r = u' r) -> (forall r, (r < 3)%nat -> v r = v' r) ->
  density D u v = density D u' v'.
Proof. intros H1 H2. unfold density. apply rsum_ext; intros. apply rsum_ext; intros. rewrite H1, H2 by assumption. reflexivity. Qed.
Lemma density_psd E mu v : 0 <= E -> -1 < mu < 1 -> 0 <= density (planeD E mu) v v.
Proof. apply planeD_psd. Qed.

Lemma unit_work n A y r : (r < n)%nat -> force n A y r = work n A (fun i => if Nat.eqb i r then 1 else 0) y.
Proof.
  intros Hr. unfold force, work.
  assert (forall m, rsum m (fun i => rsum n (fun j => (if Nat.eqb i r then 1 else 0) * A i j * y j))
     = if Nat.ltb r m then rsum n (fun j => A r j * y j) else 0) as H.
  { induction m; cbn [rsum]; [reflexivity|]. rewrite IHm. destruct (Nat.eqb_spec m r) as [->|N].
    - rewrite Nat.ltb_irrefl. replace (Nat.ltb r (S r)) with true by (symmetry; apply Nat.ltb_lt; lia).
      rewrite Rplus_0_l. apply rsum_ext; intros. ring.
    - rewrite (rsum_0 n (fun j => 0 * A m j * y j)) by (intros; ring). rewrite Rplus_0_r.
      destruct (Nat.ltb_spec r m), (Nat.ltb_spec r (S m)); auto; lia. }
  rewrite H. replace (Nat.ltb r n) with true by (symmetry; apply Nat.ltb_lt; lia). reflexivity.
Qed.
Lemma density_zero_r D u v : (forall r, (r < 3)%nat -> v r = 0) -> density D u v = 0.
Proof. intros H. unfold density. apply rsum_0; intros. apply rsum_0; intros. rewrite H by assumption. ring. Qed.

(** ** Positive semidefinite *)
Lemma code_gq12_psd c2 t2 E mu t xl : inside_square c2 -> convex4 xl -> 0 <= E -> -1 < mu < 1 -> 0 <= t ->
  psd_upto 12 (k_gq12 (code_kernels c2 t2) E mu t xl).
Proof.
  intros Q C HE Hm Ht x. cbn [code_kernels k_gq12]. change (0 <= work 12 (integrate c2 (fun xi eta => gq12_BDB E mu t xi eta xl)) x x).
  rewrite integrate_work. apply lsum_pos. intros p Hp. unfold inside_square in Q. rewrite Forall_forall in Q. destruct (Q p Hp) as (X & Y & W).
  rewrite gq12_work. apply Rmult_le_pos; [exact W|]. apply Rmult_le_pos; [|now apply density_psd].
  apply Rmult_le_pos; [exact Ht|]. left. now apply gq_det_pos.
Qed.
Lemma cube_nonneg E t : 0 <= E -> 0 <= t -> 0 <= E * t^3 / 12.
Proof. intros. apply Rmult_le_pos; [|lra]. apply Rmult_le_pos; [assumption|]. now apply pow_le. Qed.
Lemma code_dkq_psd c2 t2 E mu t xl : inside_square c2 -> convex4 xl -> 0 <= E -> -1 < mu < 1 -> 0 <= t ->
  psd_upto 12 (k_dkq (code_kernels c2 t2) E mu t xl).
Proof.
  intros Q C HE Hm Ht x. cbn [code_kernels k_dkq]. change (0 <= work 12 (integrate c2 (fun xi eta => dkq_BDB E mu t xi eta xl)) x x).
  rewrite integrate_work. apply lsum_pos. intros p Hp. unfold inside_square in Q. rewrite Forall_forall in Q. destruct (Q p Hp) as (X & Y & W).
  rewrite dkq_work. apply Rmult_le_pos; [exact W|]. apply Rmult_le_pos; [left; now apply dkq_det_pos|].
  apply density_psd; [now apply cube_nonneg|assumption].
Qed.
Lemma code_dkt_psd c2 t2 E mu t xl : positive_weights t2 -> 0 <= E -> -1 < mu < 1 -> 0 <= t ->
  psd_upto 9 (k_dkt (code_kernels c2 t2) E mu t xl).
Proof.
  intros Q HE Hm Ht x. cbn [code_kernels k_dkt]. change (0 <= work 9 (integrate t2 (fun xi eta => dkt_BDB E mu t xi eta xl)) x x).
  rewrite integrate_work. apply lsum_pos. intros p Hp. unfold positive_weights in Q. rewrite Forall_forall in Q.
  rewrite dkt_work. apply Rmult_le_pos; [now apply Q|]. apply density_psd; [now apply cube_nonneg|assumption].
Qed.

(** ** Work of linear and quadratic fields *)
Lemma nth_list3 (l : list R) : List.length l = 3%nat -> [nth 0 l 0; nth 1 l 0; nth 2 l 0] = l.
Proof. destruct l as [|a [|b [|c [|]]]]; try discriminate. reflexivity. Qed.

Lemma gq_area c2 xl : exact_square c2 -> lsum (map (fun p => snd p * det2 (gq_J xl (pt_xi p) (pt_eta p))) c2) = area4 xl.
Proof.
  intros (W & X & Y).
  transitivity (lsum (map (fun p => (turn xl 3 0 1 + turn xl 0 1 2 + turn xl 1 2 3 + turn xl 2 3 0) / 16 * snd p
     + ((turn xl 3 0 1 + turn xl 0 1 2 - turn xl 1 2 3 - turn xl 2 3 0) / 16 * (snd p * pt_xi p)
     + (- turn xl 3 0 1 + turn xl 0 1 2 + turn xl 1 2 3 - turn xl 2 3 0) / 16 * (snd p * pt_eta p))) c2)).
  { apply lsum_ext. intros p _. rewrite gq_det_corners. 
    assert (turn xl 3 0 1 + turn xl 1 2 3 = turn xl 0 1 2 + turn xl 2 3 0) by (unfold turn; ring).
    replace (turn xl 3 0 1) with (turn xl 0 1 2 + turn xl 2 3 0 - turn xl 1 2 3) by lra. field. }
  rewrite !lsum_add, !lsum_scal. unfold weights, pt_xi, pt_eta in *. rewrite W, X, Y. unfold area4, turn. field.
Qed.

Lemma c74_constant_strain c2 t2 E mu t xl u v u' v' : inside_square c2 -> exact_square c2 -> convex4 xl ->
  work 12 (k_gq12 (code_kernels c2 t2) E mu t xl) (membrane_values xl u' v' 0) (membrane_values xl u v 0)
  = t * area4 xl * plane_stress E mu (strain u' v') (strain u v).
Proof.
  intros Q X C. cbn [code_kernels k_gq12]. rewrite integrate_work, <- (gq_area c2 xl X).
  rewrite Rmult_assoc, (Rmult_comm (lsum _)), <- Rmult_assoc, <- lsum_scal. apply lsum_ext. intros p Hp.
  unfold inside_square in Q. rewrite Forall_forall in Q. destruct (Q p Hp) as (PX & PY & W).
  pose proof (gq_det_pos xl _ _ C PX PY) as HD. change (fst (fst p)) with (pt_xi p) in HD. change (snd (fst p)) with (pt_eta p) in HD.
  rewrite gq12_work, (density_ext _ _ _ (fun r => nth r (strain u' v') 0) (fun r => nth r (strain u v) 0)).
  - rewrite density_plane. rewrite !(nth_list3 (strain _ _)) by reflexivity. ring.
  - intros r Hr. rewrite gq_strain by (auto; lra). ring.
  - intros r Hr. rewrite gq_strain by (auto; lra). ring.
Qed.

(** rigid motions without drilling rotations *)
Lemma c74_rigid_partial c2 t2 E mu t xl a b th : inside_square c2 -> convex4 xl ->
  forall r, (r < 12)%nat ->
  force 12 (k_gq12 (code_kernels c2 t2) E mu t xl) (membrane_values xl (Lin a 0 (- th)) (Lin b th 0) 0) r = 0.
Proof.
  intros Q C r Hr. rewrite unit_work by assumption. cbn [code_kernels k_gq12]. rewrite integrate_work. apply lsum_zero. intros p Hp.
  unfold inside_square in Q. rewrite Forall_forall in Q. destruct (Q p Hp) as (PX & PY & W).
  pose proof (gq_det_pos xl _ _ C PX PY) as HD. change (fst (fst p)) with (pt_xi p) in HD. change (snd (fst p)) with (pt_eta p) in HD.
  rewrite gq12_work, density_zero_r; [ring|]. intros s Hs. rewrite gq_strain by (auto; lra).
  destruct s as [|[|[|s]]]; [| | |lia]; cbn; ring.
Qed.

Lemma c75_constant_curvature c2 t2 E mu t xl w w' : turn xl 0 1 2 <> 0 ->
  work 9 (k_dkt (code_kernels c2 t2) E mu t xl) (plate_values xl w') (plate_values xl w)
  = weights t2 * plane_stress (E * t^3 / 12) mu (curvature w') (curvature w).
Proof.
  intros HT. cbn [code_kernels k_dkt]. rewrite integrate_work. unfold weights.
  rewrite (Rmult_comm (lsum _)), <- lsum_scal. apply lsum_ext. intros p _.
  rewrite dkt_work, (density_ext _ _ _ (fun r => nth r (curvature w') 0) (fun r => nth r (curvature w) 0)).
  - unfold plateD. rewrite density_plane. rewrite !(nth_list3 (curvature _)) by reflexivity. ring.
  - intros r Hr. now apply dkt_curvature.
  - intros r Hr. now apply dkt_curvature.
Qed.
Lemma c75_rigid c2 t2 E mu t xl w : turn xl 0 1 2 <> 0 -> plane_w w ->
  forall r, (r < 9)%nat -> force 9 (k_dkt (code_kernels c2 t2) E mu t xl) (plate_values xl w) r = 0.
Proof.
  intros HT (W1 & W2 & W3) r Hr. rewrite unit_work by assumption. cbn [code_kernels k_dkt]. rewrite integrate_work. apply lsum_zero. intros p _.
  rewrite dkt_work, density_zero_r; [ring|]. intros s Hs. rewrite dkt_curvature by assumption.
  destruct s as [|[|[|s]]]; [| | |lia]; cbn; rewrite ?W1, ?W2, ?W3; ring.
Qed.

Lemma c76_rigid c2 t2 E mu t xl w : convex4 xl -> plane_w w ->
  forall r, (r < 12)%nat -> force 12 (k_dkq (code_kernels c2 t2) E mu t xl) (plate_values xl w) r = 0.
Proof.
  intros C W r Hr. rewrite unit_work by assumption. cbn [code_kernels k_dkq]. rewrite integrate_work. apply lsum_zero. intros p _.
  rewrite dkq_work, density_zero_r; [ring|]. intros s Hs. rewrite dkq_strain by (auto using convex_sides).
  now apply dkq_taken_plane.
Qed.
Lemma dkq_area c2 xl : exact_square c2 -> lsum (map (fun p => snd p * det2 (dkq_J xl (pt_xi p) (pt_eta p))) c2) = area4 xl.
Proof.
  intros (W & X & Y).
  transitivity (lsum (map (fun p => (turn xl 3 0 1 + turn xl 0 1 2 + turn xl 1 2 3 + turn xl 2 3 0) / 16 * snd p
     + ((- turn xl 3 0 1 + turn xl 0 1 2 + turn xl 1 2 3 - turn xl 2 3 0) / 16 * (snd p * pt_xi p)
     + (- turn xl 3 0 1 - turn xl 0 1 2 + turn xl 1 2 3 + turn xl 2 3 0) / 16 * (snd p * pt_eta p))) c2)).
  { apply lsum_ext. intros p _. rewrite dkq_det_corners. 
    assert (turn xl 3 0 1 + turn xl 1 2 3 = turn xl 0 1 2 + turn xl 2 3 0) by (unfold turn; ring).
    replace (turn xl 3 0 1) with (turn xl 0 1 2 + turn xl 2 3 0 - turn xl 1 2 3) by lra. field. }
  rewrite !lsum_add, !lsum_scal. unfold weights, pt_xi, pt_eta in *. rewrite W, X, Y. unfold area4, turn. field.
Qed.
