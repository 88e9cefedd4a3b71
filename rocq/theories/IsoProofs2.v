(** The plate of the quadrilateral depends on the direction it lies in. *)
From Coq Require Import Reals Lra Lia List String Arith Bool ZArith.
From Verif Require Import Base BaseFacts Csys Sections Element Kernels SpecKernel KernelProofs2 KernelProofs5 SpecIso IsoProofs Demo2.
Import ListNotations.
Local Open Scope R_scope.

Definition plank : list R := [-1; -2; 1; -2; 1; 2; -1; 2].
Definition first (i : nat) : R := match i with O => 1 | _ => 0 end.
Lemma first_work n K x : (forall i, x i = first i) -> work (S n) K x x = K 0%nat 0%nat.
Proof.
  intros H. unfold work. rewrite (rsum_single (S n) 0); [|lia|].
  - rewrite (rsum_single (S n) 0); [|lia|]; [rewrite !H; cbn; ring|]. intros j _ J. rewrite (H j). destruct j; [congruence|]. cbn. ring.
  - intros i _ I. apply rsum_0. intros j _. rewrite (H i). destruct i; [congruence|]. cbn. ring.
Qed.
Lemma plank_entry xi eta : dkq_BDB 12 0 1 xi eta plank 0%nat 0%nat
  = 2 * ((3/8 * xi * (1 - eta)) ^ 2 + (3/8 * eta * (1 - xi)) ^ 2 + 1/2 * (3/32 * (1 - eta * eta) + 3/8 * (1 - xi * xi)) ^ 2).
Proof.
  unfold dkq_BDB, mmul, mT, plateD, planeD. cbn [rsum]. unfold dkq_B, dkq_j, dkq_J, dkq_detJ, det2, dkq_Hx, dkq_Hy, dkq_a, dkq_d, dkq_l2, dkq_x, dkq_y, cx, cy, vnth, plank.
  cbn [Nat.div Nat.divmod fst snd Nat.modulo Nat.sub dkq_before nth Nat.mul Nat.add dkq_M dxi deta ev one]. field.
Qed.
Lemma plank_turned : spin 0 1 plank = [2; -1; 2; 1; -2; 1; -2; -1].
Proof. unfold plank, spin. repeat f_equal; ring. Qed.
Lemma plank_turned_entry xi eta : dkq_BDB 12 0 1 xi eta [2; -1; 2; 1; -2; 1; -2; -1] 0%nat 0%nat
  = 2 * ((3/4 * xi * (1 - eta)) ^ 2 + (3/16 * eta * (1 - xi)) ^ 2 + 1/2 * (3/16 * (1 - eta * eta) + 3/16 * (1 - xi * xi)) ^ 2).
Proof.
  unfold dkq_BDB, mmul, mT, plateD, planeD. cbn [rsum]. unfold dkq_B, dkq_j, dkq_J, dkq_detJ, det2, dkq_Hx, dkq_Hy, dkq_a, dkq_d, dkq_l2, dkq_x, dkq_y, cx, cy, vnth.
  cbn [Nat.div Nat.divmod fst snd Nat.modulo Nat.sub dkq_before nth Nat.mul Nat.add dkq_M dxi deta ev one]. field.
Qed.
Lemma plank_sums : k_dkq (code_kernels gauss2 tri_mid) 12 0 1 plank 0%nat 0%nat = 89/64
  /\ k_dkq (code_kernels gauss2 tri_mid) 12 0 1 [2; -1; 2; 1; -2; 1; -2; -1] 0%nat 0%nat = 19/8.
Proof.
  cbn [code_kernels k_dkq]. unfold integrate, gauss2. cbn [map lsum fst snd]. rewrite !plank_entry, !plank_turned_entry.
  assert (H : 0 < sqrt 3) by (apply sqrt_lt_R0; lra). assert (S : sqrt 3 * sqrt 3 = 3) by (apply sqrt_sqrt; lra).
  assert (G : (/ sqrt 3) * (/ sqrt 3) = / 3) by (rewrite <- Rinv_mult, S; reflexivity). set (g := / sqrt 3) in *.
  assert (G2 : g ^ 2 = 1/3) by (rewrite <- Rsqr_pow2; unfold Rsqr; lra). assert (G4 : g ^ 4 = 1/9) by (replace (g ^ 4) with (g ^ 2 * g ^ 2) by ring; rewrite G2; lra).
  split; field_simplify; rewrite ?G4, ?G2; lra.
Qed.
Lemma spin_first i : spin_plate 0 1 first i = first i.
Proof.
  unfold spin_plate. destruct i as [|[|i]]; [reflexivity|cbn; ring|]. destruct ((S (S i)) mod 3)%nat as [|[|k]]; cbn; ring.
Qed.
Lemma c114_plate_refuted : exists xl c s x, c * c + s * s = 1 /\ List.length xl = 8%nat /\ convex4 xl
  /\ work 12 (k_dkq (code_kernels gauss2 tri_mid) 12 0 1 (spin c s xl)) (spin_plate c s x) (spin_plate c s x)
     <> work 12 (k_dkq (code_kernels gauss2 tri_mid) 12 0 1 xl) x x.
Proof.
  exists plank, 0, 1, first. split; [ring|]. split; [reflexivity|]. split; [unfold convex4, turn, at_x, at_y, plank; cbn; lra|].
  rewrite plank_turned, (first_work 11 _ _ spin_first), (first_work 11 _ first (fun i => eq_refl)).
  destruct plank_sums as [-> ->]. lra.
Qed.
