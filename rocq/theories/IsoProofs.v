(** What turning a shell in its own plane does to its kernels. *)
From Coq Require Import Reals Lra Lia List String Arith Bool ZArith.
From Verif Require Import Base BaseFacts Csys Sections Element Kernels SpecKernel KernelProofs2 SpecIso.
Import ListNotations.
Local Open Scope R_scope.

Definition strain_turns (c s : R) (e e' : nat -> R) : Prop :=
  e' 0%nat = c * c * e 0%nat + s * s * e 1%nat - c * s * e 2%nat
  /\ e' 1%nat = s * s * e 0%nat + c * c * e 1%nat + c * s * e 2%nat
  /\ e' 2%nat = 2 * c * s * (e 0%nat - e 1%nat) + (c * c - s * s) * e 2%nat.
Lemma density_turns c s E mu e e' f f' : c * c + s * s = 1 -> strain_turns c s e e' -> strain_turns c s f f' ->
  density (planeD E mu) e' f' = density (planeD E mu) e f.
Proof.
  intros U (A0 & A1 & A2) (B0 & B1 & B2). rewrite !density_plane. unfold plane_stress. cbn [nth]. rewrite A0, A1, A2, B0, B1, B2. f_equal.
  set (a := e 0%nat). set (b := e 1%nat). set (g := e 2%nat). set (a' := f 0%nat). set (b' := f 1%nat). set (g' := f 2%nat).
  transitivity ((c * c + s * s) * (c * c + s * s) * (a * a' + mu * (a * b' + b * a') + b * b' + (1 - mu) / 2 * g * g')); [field|rewrite U; ring].
Qed.

(** ** Membrane of the quadrilateral *)
Section Membrane.
Variables (c s : R) (x1 y1 x2 y2 x3 y3 x4 y4 : R).
Hypothesis U : c * c + s * s = 1.
Let xl := [x1; y1; x2; y2; x3; y3; x4; y4].
Let xl' := spin c s xl.
Lemma spin_gq_J xi eta r : gq_J xl' xi eta r 0%nat = c * gq_J xl xi eta r 0%nat - s * gq_J xl xi eta r 1%nat
  /\ gq_J xl' xi eta r 1%nat = s * gq_J xl xi eta r 0%nat + c * gq_J xl xi eta r 1%nat.
Proof. unfold gq_J, xl', xl, cx, cy, vnth, spin. cbn [rsum nth Nat.mul Nat.add]. split; ring. Qed.
Lemma spin_gq_det xi eta : det2 (gq_J xl' xi eta) = det2 (gq_J xl xi eta).
Proof.
  unfold det2. destruct (spin_gq_J xi eta 0) as [-> ->]. destruct (spin_gq_J xi eta 1) as [-> ->].
  transitivity ((c * c + s * s) * (gq_J xl xi eta 0%nat 0%nat * gq_J xl xi eta 1%nat 1%nat - gq_J xl xi eta 0%nat 1%nat * gq_J xl xi eta 1%nat 0%nat)); [ring|rewrite U; ring].
Qed.
Lemma spin_gq_ab : gq_a1 xl' = c * gq_a1 xl - s * gq_b1 xl /\ gq_a2 xl' = c * gq_a2 xl - s * gq_b2 xl /\ gq_a3 xl' = c * gq_a3 xl - s * gq_b3 xl
  /\ gq_b1 xl' = s * gq_a1 xl + c * gq_b1 xl /\ gq_b2 xl' = s * gq_a2 xl + c * gq_b2 xl /\ gq_b3 xl' = s * gq_a3 xl + c * gq_b3 xl.
Proof.
  unfold gq_a1, gq_a2, gq_a3, gq_b1, gq_b2, gq_b3, xl', xl, cx, cy, vnth, spin. cbn [rsum nth Nat.mul Nat.add xi0 eta0]. repeat split; field.
Qed.
Lemma spin_gq_N i xi eta :
  (ev (dxi (gq_Nut xl' i)) xi eta = c * ev (dxi (gq_Nut xl i)) xi eta - s * ev (dxi (gq_Nvt xl i)) xi eta
  /\ ev (deta (gq_Nut xl' i)) xi eta = c * ev (deta (gq_Nut xl i)) xi eta - s * ev (deta (gq_Nvt xl i)) xi eta)
  /\ ev (dxi (gq_Nvt xl' i)) xi eta = s * ev (dxi (gq_Nut xl i)) xi eta + c * ev (dxi (gq_Nvt xl i)) xi eta
  /\ ev (deta (gq_Nvt xl' i)) xi eta = s * ev (deta (gq_Nut xl i)) xi eta + c * ev (deta (gq_Nvt xl i)) xi eta.
Proof.
  destruct spin_gq_ab as (A1 & A2 & A3 & B1 & B2 & B3). unfold gq_Nut, gq_Nvt. rewrite A1, A2, A3, B1, B2, B3.
  cbn [dxi deta ev gq_bracket]. repeat split; ring.
Qed.
Definition rate (d : ex -> ex) (l : list R) (r : nat) (xi eta : R) (x : nat -> R) : R := rsum 12 (fun k => ev (d (gq_N l r k)) xi eta * x k).
Lemma rate_open d l xi eta x : ev (d (Cst 0)) xi eta = 0 -> 
  rate d l 0 xi eta x = rsum 4 (fun i => ev (d (gq_N0 i)) xi eta * x (3 * i)%nat + ev (d (gq_Nut l i)) xi eta * x (3 * i + 2)%nat)
  /\ rate d l 1 xi eta x = rsum 4 (fun i => ev (d (gq_N0 i)) xi eta * x (3 * i + 1)%nat + ev (d (gq_Nvt l i)) xi eta * x (3 * i + 2)%nat).
Proof.
  intros Z. unfold rate. cbn [rsum]. 
  change (gq_N l 0 0) with (gq_N0 0). change (gq_N l 0 1) with (Cst 0). change (gq_N l 0 2) with (gq_Nut l 0).
  change (gq_N l 0 3) with (gq_N0 1). change (gq_N l 0 4) with (Cst 0). change (gq_N l 0 5) with (gq_Nut l 1).
  change (gq_N l 0 6) with (gq_N0 2). change (gq_N l 0 7) with (Cst 0). change (gq_N l 0 8) with (gq_Nut l 2).
  change (gq_N l 0 9) with (gq_N0 3). change (gq_N l 0 10) with (Cst 0). change (gq_N l 0 11) with (gq_Nut l 3).
  change (gq_N l 1 0) with (Cst 0). change (gq_N l 1 1) with (gq_N0 0). change (gq_N l 1 2) with (gq_Nvt l 0).
  change (gq_N l 1 3) with (Cst 0). change (gq_N l 1 4) with (gq_N0 1). change (gq_N l 1 5) with (gq_Nvt l 1).
  change (gq_N l 1 6) with (Cst 0). change (gq_N l 1 7) with (gq_N0 2). change (gq_N l 1 8) with (gq_Nvt l 2).
  change (gq_N l 1 9) with (Cst 0). change (gq_N l 1 10) with (gq_N0 3). change (gq_N l 1 11) with (gq_Nvt l 3).
  rewrite Z. cbn [Nat.mul Nat.add]. split; ring.
Qed.
Lemma spin_rate d xi eta x : d = dxi \/ d = deta ->
  rate d xl' 0 xi eta (spin_membrane c s x) = c * rate d xl 0 xi eta x - s * rate d xl 1 xi eta x
  /\ rate d xl' 1 xi eta (spin_membrane c s x) = s * rate d xl 0 xi eta x + c * rate d xl 1 xi eta x.
Proof.
  intros D. assert (Z : ev (d (Cst 0)) xi eta = 0) by (destruct D; subst; reflexivity).
  destruct (rate_open d xl' xi eta (spin_membrane c s x) Z) as [-> ->]. destruct (rate_open d xl xi eta x Z) as [-> ->].
  assert (N : forall i, ev (d (gq_Nut xl' i)) xi eta = c * ev (d (gq_Nut xl i)) xi eta - s * ev (d (gq_Nvt xl i)) xi eta
    /\ ev (d (gq_Nvt xl' i)) xi eta = s * ev (d (gq_Nut xl i)) xi eta + c * ev (d (gq_Nvt xl i)) xi eta).
  { intros i. destruct (spin_gq_N i xi eta) as ((P1 & P2) & P3 & P4). destruct D; subst d; split; assumption. }
  cbn [rsum]. destruct (N 0%nat) as [-> ->]. destruct (N 1%nat) as [-> ->]. destruct (N 2%nat) as [-> ->]. destruct (N 3%nat) as [-> ->].
  unfold spin_membrane. cbn [Nat.mul Nat.add Nat.modulo Nat.divmod Nat.sub fst snd pred]. split; ring.
Qed.
Lemma gq_strain_rate l xi eta x : let J := gq_J l xi eta in let e := mvec 12 (gq_B l xi eta) x in
  e 0%nat = (J 1%nat 1%nat * rate dxi l 0 xi eta x - J 0%nat 1%nat * rate deta l 0 xi eta x) / det2 J
  /\ e 1%nat = (- J 1%nat 0%nat * rate dxi l 1 xi eta x + J 0%nat 0%nat * rate deta l 1 xi eta x) / det2 J
  /\ e 2%nat = (- J 1%nat 0%nat * rate dxi l 0 xi eta x + J 0%nat 0%nat * rate deta l 0 xi eta x) / det2 J
             + (J 1%nat 1%nat * rate dxi l 1 xi eta x - J 0%nat 1%nat * rate deta l 1 xi eta x) / det2 J.
Proof.
  intros J e. assert (H : forall a b f g, rsum 12 (fun k => (a * f k + b * g k) / det2 J * x k) = (a * rsum 12 (fun k => f k * x k) + b * rsum 12 (fun k => g k * x k)) / det2 J).
  { intros. unfold Rdiv. rewrite <- !rsum_scal, <- rsum_plus, Rmult_comm, <- rsum_scal. apply rsum_ext. intros. ring. }
  unfold e, mvec, gq_B, gq_ddx, gq_ddy. fold J. unfold rate. split; [|split].
  - unfold Rminus. rewrite Ropp_mult_distr_l, <- H. apply rsum_ext. intros. f_equal. f_equal. ring.
  - rewrite <- H. reflexivity.
  - unfold Rminus. rewrite (Ropp_mult_distr_l (J 0%nat 1%nat)), <- !H, <- rsum_plus. apply rsum_ext. intros. unfold Rdiv. ring.
Qed.
Lemma spin_gq_strain xi eta x : strain_turns c s (mvec 12 (gq_B xl xi eta) x) (mvec 12 (gq_B xl' xi eta) (spin_membrane c s x)).
Proof.
  destruct (gq_strain_rate xl xi eta x) as (E0 & E1 & E2). destruct (gq_strain_rate xl' xi eta (spin_membrane c s x)) as (F0 & F1 & F2).
  unfold strain_turns. rewrite E0, E1, E2, F0, F1, F2. rewrite spin_gq_det.
  destruct (spin_rate dxi xi eta x (or_introl eq_refl)) as [-> ->]. destruct (spin_rate deta xi eta x (or_intror eq_refl)) as [-> ->].
  destruct (spin_gq_J xi eta 0) as [-> ->]. destruct (spin_gq_J xi eta 1) as [-> ->]. unfold Rdiv. set (i := / _). repeat split; ring.
Qed.
Lemma spin_gq12 E mu t xi eta x y : work 12 (gq12_BDB E mu t xi eta xl') (spin_membrane c s x) (spin_membrane c s y) = work 12 (gq12_BDB E mu t xi eta xl) x y.
Proof.
  rewrite !gq12_work, spin_gq_det. f_equal. apply (density_turns c s); [exact U| |]; apply spin_gq_strain.
Qed.
End Membrane.
Lemma eight {A} (l : list A) : List.length l = 8%nat -> exists a b c d e f g h, l = [a; b; c; d; e; f; g; h].
Proof. intros H. do 8 (destruct l as [|? l]; [discriminate|]). destruct l; [|discriminate]. repeat eexists. Qed.
Lemma six_of {A} (l : list A) : List.length l = 6%nat -> exists a b c d e f, l = [a; b; c; d; e; f].
Proof. intros H. do 6 (destruct l as [|? l]; [discriminate|]). destruct l; [|discriminate]. repeat eexists. Qed.
Lemma c114_membrane c2 t2 E mu t c s xl x y : c * c + s * s = 1 -> List.length xl = 8%nat ->
  work 12 (k_gq12 (code_kernels c2 t2) E mu t (spin c s xl)) (spin_membrane c s x) (spin_membrane c s y)
  = work 12 (k_gq12 (code_kernels c2 t2) E mu t xl) x y.
Proof.
  intros U L. destruct (eight xl L) as (x1 & y1 & x2 & y2 & x3 & y3 & x4 & y4 & ->). cbn [code_kernels k_gq12]. rewrite !integrate_work.
  f_equal. apply map_ext. intros p. f_equal. apply (spin_gq12 c s x1 y1 x2 y2 x3 y3 x4 y4 U).
Qed.

(** ** Plate of the triangle *)
Section Plate.
Variables (c s : R) (x1 y1 x2 y2 x3 y3 : R).
Hypothesis U : c * c + s * s = 1.
Let xl := [x1; y1; x2; y2; x3; y3].
Let xl' := spin c s xl.
Hypothesis NZ : forall k, dkt_x xl k ^ 2 + dkt_y xl k ^ 2 <> 0.
Lemma spin_dkt_xy k : dkt_x xl' k = c * dkt_x xl k - s * dkt_y xl k /\ dkt_y xl' k = s * dkt_x xl k + c * dkt_y xl k.
Proof.
  unfold dkt_x, dkt_y, cx, cy, xl', xl, vnth, spin. cbn [nth Nat.mul Nat.add].
  destruct k as [|[|[|[|[|[|k]]]]]]; split; ring.
Qed.
Lemma dkt_l_sq l k : dkt_l l k ^ 2 = dkt_x l k ^ 2 + dkt_y l k ^ 2.
Proof. unfold dkt_l. rewrite <- Rsqr_pow2. apply Rsqr_sqrt. nra. Qed.
Lemma spin_dkt_l k : dkt_l xl' k ^ 2 = dkt_l xl k ^ 2.
Proof.
  rewrite !dkt_l_sq. destruct (spin_dkt_xy k) as [-> ->].
  transitivity ((c * c + s * s) * (dkt_x xl k ^ 2 + dkt_y xl k ^ 2)); [ring|rewrite U; ring].
Qed.
Lemma spin_dkt_coeff k : dkt_P xl' k = c * dkt_P xl k - s * dkt_t xl k /\ dkt_t xl' k = s * dkt_P xl k + c * dkt_t xl k
  /\ dkt_q xl' k = c * s * (3 - 2 * dkt_r xl k) + (c * c - s * s) * dkt_q xl k
  /\ dkt_r xl' k = s * s * (3 - dkt_r xl k) + 2 * c * s * dkt_q xl k + c * c * dkt_r xl k.
Proof.
  unfold dkt_P, dkt_t, dkt_q, dkt_r. rewrite spin_dkt_l. destruct (spin_dkt_xy k) as [-> ->]. rewrite dkt_l_sq. specialize (NZ k).
  repeat split; field; exact NZ.
Qed.
Definition turning (H : list R -> R -> R -> list R) (xi eta : R) (l : list R) (x : nat -> R) : R := rsum 9 (fun k => vnth (H l xi eta) k * x k).
Lemma spin_dkt_H xi eta x :
  (turning dkt_Hxxi xi eta xl' (spin_plate c s x) = c * turning dkt_Hxxi xi eta xl x - s * turning dkt_Hyxi xi eta xl x
  /\ turning dkt_Hyxi xi eta xl' (spin_plate c s x) = s * turning dkt_Hxxi xi eta xl x + c * turning dkt_Hyxi xi eta xl x)
  /\ turning dkt_Hxeta xi eta xl' (spin_plate c s x) = c * turning dkt_Hxeta xi eta xl x - s * turning dkt_Hyeta xi eta xl x
  /\ turning dkt_Hyeta xi eta xl' (spin_plate c s x) = s * turning dkt_Hxeta xi eta xl x + c * turning dkt_Hyeta xi eta xl x.
Proof.
  assert (C2 : c ^ 2 = 1 - s ^ 2) by (rewrite <- !Rsqr_pow2; unfold Rsqr; lra). assert (C3 : c ^ 3 = c * (1 - s ^ 2)) by (rewrite <- C2; ring).
  unfold turning, dkt_Hxxi, dkt_Hyxi, dkt_Hxeta, dkt_Hyeta. destruct (spin_dkt_coeff 4) as (-> & -> & -> & ->). destruct (spin_dkt_coeff 5) as (-> & -> & -> & ->). destruct (spin_dkt_coeff 6) as (-> & -> & -> & ->).
  unfold vnth, spin_plate. cbn [rsum nth Nat.modulo Nat.divmod Nat.sub fst snd pred].
  set (P4 := dkt_P xl 4). set (P5 := dkt_P xl 5). set (P6 := dkt_P xl 6). set (T4 := dkt_t xl 4). set (T5 := dkt_t xl 5). set (T6 := dkt_t xl 6).
  set (q4 := dkt_q xl 4). set (q5 := dkt_q xl 5). set (q6 := dkt_q xl 6). set (r4 := dkt_r xl 4). set (r5 := dkt_r xl 5). set (r6 := dkt_r xl 6).
  clearbody P4 P5 P6 T4 T5 T6 q4 q5 q6 r4 r5 r6. clear NZ.
  split; split; apply Rminus_diag_uniq; ring_simplify; rewrite ?C3, ?C2; ring.
Qed.
Lemma dkt_strain_rate l xi eta x : let D := dkt_x l 5 * dkt_y l 6 - dkt_x l 6 * dkt_y l 5 in let e := mvec 9 (dkt_B l xi eta) x in
  e 0%nat = (dkt_y l 5 * turning dkt_Hxxi xi eta l x + dkt_y l 6 * turning dkt_Hxeta xi eta l x) / D
  /\ e 1%nat = (- dkt_x l 5 * turning dkt_Hyxi xi eta l x - dkt_x l 6 * turning dkt_Hyeta xi eta l x) / D
  /\ e 2%nat = (- dkt_x l 5 * turning dkt_Hxxi xi eta l x - dkt_x l 6 * turning dkt_Hxeta xi eta l x + dkt_y l 5 * turning dkt_Hyxi xi eta l x + dkt_y l 6 * turning dkt_Hyeta xi eta l x) / D.
Proof.
  intros D e. unfold e, mvec, dkt_B. fold D. unfold turning.
  set (A := dkt_Hxxi l xi eta). set (B := dkt_Hxeta l xi eta). set (A' := dkt_Hyxi l xi eta). set (B' := dkt_Hyeta l xi eta). clearbody A B A' B'.
  cbn [rsum]. unfold Rdiv. repeat split; ring.
Qed.
Lemma spin_dkt_strain xi eta x : strain_turns c s (mvec 9 (dkt_B xl xi eta) x) (mvec 9 (dkt_B xl' xi eta) (spin_plate c s x)).
Proof.
  destruct (dkt_strain_rate xl xi eta x) as (E0 & E1 & E2). destruct (dkt_strain_rate xl' xi eta (spin_plate c s x)) as (F0 & F1 & F2).
  unfold strain_turns. rewrite E0, E1, E2, F0, F1, F2.
  destruct (spin_dkt_H xi eta x) as ((-> & ->) & -> & ->).
  replace (dkt_x xl' 5 * dkt_y xl' 6 - dkt_x xl' 6 * dkt_y xl' 5) with (dkt_x xl 5 * dkt_y xl 6 - dkt_x xl 6 * dkt_y xl 5).
  2:{ destruct (spin_dkt_xy 5) as [-> ->]. destruct (spin_dkt_xy 6) as [-> ->].
      transitivity ((c * c + s * s) * (dkt_x xl 5 * dkt_y xl 6 - dkt_x xl 6 * dkt_y xl 5)); [rewrite U|]; ring. }
  destruct (spin_dkt_xy 5) as [-> ->]. destruct (spin_dkt_xy 6) as [-> ->]. unfold Rdiv. set (i := / _). repeat split; ring.
Qed.
Lemma spin_dkt E mu t xi eta x y : work 9 (dkt_BDB E mu t xi eta xl') (spin_plate c s x) (spin_plate c s y) = work 9 (dkt_BDB E mu t xi eta xl) x y.
Proof. rewrite !dkt_work. apply (density_turns c s); [exact U| |]; apply spin_dkt_strain. Qed.
End Plate.
Lemma c114_triangle_plate c2 t2 E mu t c s xl x y : c * c + s * s = 1 -> List.length xl = 6%nat -> turn xl 0 1 2 <> 0 ->
  work 9 (k_dkt (code_kernels c2 t2) E mu t (spin c s xl)) (spin_plate c s x) (spin_plate c s y)
  = work 9 (k_dkt (code_kernels c2 t2) E mu t xl) x y.
Proof.
  intros U L T. destruct (six_of xl L) as (x1 & y1 & x2 & y2 & x3 & y3 & ->). cbn [code_kernels k_dkt]. rewrite !integrate_work.
  f_equal. apply map_ext. intros p. f_equal. apply (spin_dkt c s x1 y1 x2 y2 x3 y3 U).
  intros k Z. apply T. assert (dkt_x [x1; y1; x2; y2; x3; y3] k = 0 /\ dkt_y [x1; y1; x2; y2; x3; y3] k = 0) as [HX HY] by (split; nra).
  unfold dkt_x, dkt_y, cx, cy, vnth in HX, HY. unfold turn, at_x, at_y. cbn [nth Nat.mul Nat.add] in *.
  destruct k as [|[|[|[|[|[|k]]]]]]; first [assert (x1 = x2) by lra; assert (y1 = y2) by lra; subst; ring|assert (x2 = x3) by lra; assert (y2 = y3) by lra; subst; ring|assert (x3 = x1) by lra; assert (y3 = y1) by lra; subst; ring].
Qed.
(** refuted: the membrane of the triangle, by a quarter turn *)
Lemma c114_triangle_membrane_refuted : exists xl c s x, c * c + s * s = 1 /\ List.length xl = 6%nat /\ turn xl 0 1 2 <> 0
  /\ work 6 (t9_BDB 1 0 (spin c s xl)) (spin_pair c s x) (spin_pair c s x) <> work 6 (t9_BDB 1 0 xl) x x.
Proof.
  exists [0; 0; 1; 0; 0; 1], 0, 1, (fun i => match i with 4%nat => 1 | _ => 0 end).
  split; [ring|]. split; [reflexivity|]. split; [unfold turn, at_x, at_y; cbn; lra|].
  unfold work, t9_BDB, mmul, mT, planeD. cbn [rsum]. unfold t9_B, t9_b, t9_area, spin, spin_pair, vnth. cbn. lra.
Qed.
