(** The C code of the membrane of triangles. *)
From Coq Require Import Reals List Arith ZArith Bool Lra Lia.
From Verif Require Import Base Csys Sections Element Kernels CText CTextFacts CTextT9.
Import ListNotations.
Local Open Scope R_scope.

Lemma ct9_divs : divs_among [CInt 2; ct9_7] ct9_code = true.
Proof. vm_compute. reflexivity. Qed.
Lemma ct9_div : forall E mu t xi eta xl,
  cval (call_with E mu t xi eta xl) ct9_7 = (1 - mu^2) * t9_area xl ^ 2.
Proof.
  intros. unfold ct9_7, ct9_4, ct9_5, ct9_6. cbn [cval call_with].
  unfold t9_area. cbn [Nat.sub Nat.mul Nat.add]. field.
Qed.
Lemma t9_form : forall E mu xl i j, t9_BDB E mu xl i j
  = E / (1 - mu^2) * (t9_B xl 0%nat i * t9_B xl 0%nat j + mu * (t9_B xl 0%nat i * t9_B xl 1%nat j + t9_B xl 1%nat i * t9_B xl 0%nat j)
                      + t9_B xl 1%nat i * t9_B xl 1%nat j + (1 - mu) / 2 * (t9_B xl 2%nat i * t9_B xl 2%nat j)).
Proof. intros. apply plane_form. Qed.

Section Entries.
Variables E mu t xi eta : R.
Variable xl : list R.
Hypothesis Hm : 1 - mu^2 <> 0.
Hypothesis HA : t9_area xl <> 0.
Let env := call_with E mu t xi eta xl.
Local Ltac entry :=
  rewrite t9_form; unfold t9_B, t9_b;
  cbn [cval Nat.div Nat.modulo Nat.divmod fst snd Nat.sub]; unfold env; rewrite ct9_div;
  cbn [call_with Nat.sub Nat.mul Nat.add]; field; auto.

Lemma ct9_at_0_0 : cval env ct9_9 = t9_BDB E mu xl 0%nat 0%nat.
Proof. unfold ct9_9, ct9_8, ct9_3, ct9_2, ct9_1, ct9_0. entry. Qed.
Lemma ct9_at_0_1 : cval env ct9_11 = t9_BDB E mu xl 0%nat 1%nat.
Proof. unfold ct9_11, ct9_10, ct9_8, ct9_3, ct9_2, ct9_1, ct9_0. entry. Qed.
Lemma ct9_at_0_2 : cval env ct9_16 = t9_BDB E mu xl 0%nat 2%nat.
Proof. unfold ct9_16, ct9_15, ct9_14, ct9_13, ct9_12, ct9_2, ct9_1, ct9_0. entry. Qed.
Lemma ct9_at_0_3 : cval env ct9_18 = t9_BDB E mu xl 0%nat 3%nat.
Proof. unfold ct9_18, ct9_17, ct9_14, ct9_13, ct9_12, ct9_10, ct9_2, ct9_1, ct9_0. entry. Qed.
Lemma ct9_at_0_4 : cval env ct9_21 = t9_BDB E mu xl 0%nat 4%nat.
Proof. unfold ct9_21, ct9_20, ct9_19, ct9_2, ct9_1, ct9_0. entry. Qed.
Lemma ct9_at_0_5 : cval env ct9_22 = t9_BDB E mu xl 0%nat 5%nat.
Proof. unfold ct9_22, ct9_20, ct9_19, ct9_10, ct9_2, ct9_1, ct9_0. entry. Qed.
Lemma ct9_at_1_0 : cval env ct9_11 = t9_BDB E mu xl 1%nat 0%nat.
Proof. unfold ct9_11, ct9_10, ct9_8, ct9_3, ct9_2, ct9_1, ct9_0. entry. Qed.
Lemma ct9_at_1_1 : cval env ct9_9 = t9_BDB E mu xl 1%nat 1%nat.
Proof. unfold ct9_9, ct9_8, ct9_3, ct9_2, ct9_1, ct9_0. entry. Qed.
Lemma ct9_at_1_2 : cval env ct9_18 = t9_BDB E mu xl 1%nat 2%nat.
Proof. unfold ct9_18, ct9_17, ct9_14, ct9_13, ct9_12, ct9_10, ct9_2, ct9_1, ct9_0. entry. Qed.
Lemma ct9_at_1_3 : cval env ct9_16 = t9_BDB E mu xl 1%nat 3%nat.
Proof. unfold ct9_16, ct9_15, ct9_14, ct9_13, ct9_12, ct9_2, ct9_1, ct9_0. entry. Qed.
Lemma ct9_at_1_4 : cval env ct9_22 = t9_BDB E mu xl 1%nat 4%nat.
Proof. unfold ct9_22, ct9_20, ct9_19, ct9_10, ct9_2, ct9_1, ct9_0. entry. Qed.
Lemma ct9_at_1_5 : cval env ct9_21 = t9_BDB E mu xl 1%nat 5%nat.
Proof. unfold ct9_21, ct9_20, ct9_19, ct9_2, ct9_1, ct9_0. entry. Qed.
Lemma ct9_at_2_0 : cval env ct9_16 = t9_BDB E mu xl 2%nat 0%nat.
Proof. unfold ct9_16, ct9_15, ct9_14, ct9_13, ct9_12, ct9_2, ct9_1, ct9_0. entry. Qed.
Lemma ct9_at_2_1 : cval env ct9_18 = t9_BDB E mu xl 2%nat 1%nat.
Proof. unfold ct9_18, ct9_17, ct9_14, ct9_13, ct9_12, ct9_10, ct9_2, ct9_1, ct9_0. entry. Qed.
Lemma ct9_at_2_2 : cval env ct9_25 = t9_BDB E mu xl 2%nat 2%nat.
Proof. unfold ct9_25, ct9_24, ct9_23, ct9_12, ct9_1, ct9_0. entry. Qed.
Lemma ct9_at_2_3 : cval env ct9_26 = t9_BDB E mu xl 2%nat 3%nat.
Proof. unfold ct9_26, ct9_24, ct9_23, ct9_12, ct9_10, ct9_1, ct9_0. entry. Qed.
Lemma ct9_at_2_4 : cval env ct9_28 = t9_BDB E mu xl 2%nat 4%nat.
Proof. unfold ct9_28, ct9_27, ct9_19, ct9_15, ct9_13, ct9_12, ct9_1, ct9_0. entry. Qed.
Lemma ct9_at_2_5 : cval env ct9_29 = t9_BDB E mu xl 2%nat 5%nat.
Proof. unfold ct9_29, ct9_27, ct9_19, ct9_17, ct9_13, ct9_12, ct9_10, ct9_1, ct9_0. entry. Qed.
Lemma ct9_at_3_0 : cval env ct9_18 = t9_BDB E mu xl 3%nat 0%nat.
Proof. unfold ct9_18, ct9_17, ct9_14, ct9_13, ct9_12, ct9_10, ct9_2, ct9_1, ct9_0. entry. Qed.
Lemma ct9_at_3_1 : cval env ct9_16 = t9_BDB E mu xl 3%nat 1%nat.
Proof. unfold ct9_16, ct9_15, ct9_14, ct9_13, ct9_12, ct9_2, ct9_1, ct9_0. entry. Qed.
Lemma ct9_at_3_2 : cval env ct9_26 = t9_BDB E mu xl 3%nat 2%nat.
Proof. unfold ct9_26, ct9_24, ct9_23, ct9_12, ct9_10, ct9_1, ct9_0. entry. Qed.
Lemma ct9_at_3_3 : cval env ct9_25 = t9_BDB E mu xl 3%nat 3%nat.
Proof. unfold ct9_25, ct9_24, ct9_23, ct9_12, ct9_1, ct9_0. entry. Qed.
Lemma ct9_at_3_4 : cval env ct9_29 = t9_BDB E mu xl 3%nat 4%nat.
Proof. unfold ct9_29, ct9_27, ct9_19, ct9_17, ct9_13, ct9_12, ct9_10, ct9_1, ct9_0. entry. Qed.
Lemma ct9_at_3_5 : cval env ct9_28 = t9_BDB E mu xl 3%nat 5%nat.
Proof. unfold ct9_28, ct9_27, ct9_19, ct9_15, ct9_13, ct9_12, ct9_1, ct9_0. entry. Qed.
Lemma ct9_at_4_0 : cval env ct9_21 = t9_BDB E mu xl 4%nat 0%nat.
Proof. unfold ct9_21, ct9_20, ct9_19, ct9_2, ct9_1, ct9_0. entry. Qed.
Lemma ct9_at_4_1 : cval env ct9_22 = t9_BDB E mu xl 4%nat 1%nat.
Proof. unfold ct9_22, ct9_20, ct9_19, ct9_10, ct9_2, ct9_1, ct9_0. entry. Qed.
Lemma ct9_at_4_2 : cval env ct9_28 = t9_BDB E mu xl 4%nat 2%nat.
Proof. unfold ct9_28, ct9_27, ct9_19, ct9_15, ct9_13, ct9_12, ct9_1, ct9_0. entry. Qed.
Lemma ct9_at_4_3 : cval env ct9_29 = t9_BDB E mu xl 4%nat 3%nat.
Proof. unfold ct9_29, ct9_27, ct9_19, ct9_17, ct9_13, ct9_12, ct9_10, ct9_1, ct9_0. entry. Qed.
Lemma ct9_at_4_4 : cval env ct9_32 = t9_BDB E mu xl 4%nat 4%nat.
Proof. unfold ct9_32, ct9_31, ct9_30, ct9_19, ct9_1, ct9_0. entry. Qed.
Lemma ct9_at_4_5 : cval env ct9_33 = t9_BDB E mu xl 4%nat 5%nat.
Proof. unfold ct9_33, ct9_31, ct9_30, ct9_19, ct9_10, ct9_1, ct9_0. entry. Qed.
Lemma ct9_at_5_0 : cval env ct9_22 = t9_BDB E mu xl 5%nat 0%nat.
Proof. unfold ct9_22, ct9_20, ct9_19, ct9_10, ct9_2, ct9_1, ct9_0. entry. Qed.
Lemma ct9_at_5_1 : cval env ct9_21 = t9_BDB E mu xl 5%nat 1%nat.
Proof. unfold ct9_21, ct9_20, ct9_19, ct9_2, ct9_1, ct9_0. entry. Qed.
Lemma ct9_at_5_2 : cval env ct9_29 = t9_BDB E mu xl 5%nat 2%nat.
Proof. unfold ct9_29, ct9_27, ct9_19, ct9_17, ct9_13, ct9_12, ct9_10, ct9_1, ct9_0. entry. Qed.
Lemma ct9_at_5_3 : cval env ct9_28 = t9_BDB E mu xl 5%nat 3%nat.
Proof. unfold ct9_28, ct9_27, ct9_19, ct9_15, ct9_13, ct9_12, ct9_1, ct9_0. entry. Qed.
Lemma ct9_at_5_4 : cval env ct9_33 = t9_BDB E mu xl 5%nat 4%nat.
Proof. unfold ct9_33, ct9_31, ct9_30, ct9_19, ct9_10, ct9_1, ct9_0. entry. Qed.
Lemma ct9_at_5_5 : cval env ct9_32 = t9_BDB E mu xl 5%nat 5%nat.
Proof. unfold ct9_32, ct9_31, ct9_30, ct9_19, ct9_1, ct9_0. entry. Qed.

Lemma ct9_entries : forall i j, (i < 6)%nat -> (j < 6)%nat ->
  vnth (map (cval env) ct9_code) (6 * i + j) = t9_BDB E mu xl i j.
Proof.
  intros i j Hi Hj. rewrite vnth_cval by (cbn [length ct9_code]; lia).
  destruct i as [|[|[|[|[|[|i]]]]]]; try (exfalso; lia); destruct j as [|[|[|[|[|[|j]]]]]]; try (exfalso; lia);
    cbn [nth ct9_code Nat.mul Nat.add].

  - exact ct9_at_0_0.
  - exact ct9_at_0_1.
  - exact ct9_at_0_2.
  - exact ct9_at_0_3.
  - exact ct9_at_0_4.
  - exact ct9_at_0_5.
  - exact ct9_at_1_0.
  - exact ct9_at_1_1.
  - exact ct9_at_1_2.
  - exact ct9_at_1_3.
  - exact ct9_at_1_4.
  - exact ct9_at_1_5.
  - exact ct9_at_2_0.
  - exact ct9_at_2_1.
  - exact ct9_at_2_2.
  - exact ct9_at_2_3.
  - exact ct9_at_2_4.
  - exact ct9_at_2_5.
  - exact ct9_at_3_0.
  - exact ct9_at_3_1.
  - exact ct9_at_3_2.
  - exact ct9_at_3_3.
  - exact ct9_at_3_4.
  - exact ct9_at_3_5.
  - exact ct9_at_4_0.
  - exact ct9_at_4_1.
  - exact ct9_at_4_2.
  - exact ct9_at_4_3.
  - exact ct9_at_4_4.
  - exact ct9_at_4_5.
  - exact ct9_at_5_0.
  - exact ct9_at_5_1.
  - exact ct9_at_5_2.
  - exact ct9_at_5_3.
  - exact ct9_at_5_4.
  - exact ct9_at_5_5.
Qed.
End Entries.
