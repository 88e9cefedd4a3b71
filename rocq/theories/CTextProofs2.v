(** The C code of the plate of triangles. *)
From Coq Require Import Reals List Arith ZArith Bool Lra Lia.
From Verif Require Import Base Csys Sections Element Kernels CText CTextFacts CTextDKT.
Import ListNotations.
Local Open Scope R_scope.

Definition dkt_area2 (xl : list R) : R := dkt_x xl 5 * dkt_y xl 6 - dkt_x xl 6 * dkt_y xl 5.
Definition dkt_l2 (xl : list R) (k : nat) : R := dkt_x xl k ^ 2 + dkt_y xl k ^ 2.
Lemma dkt_l_sq : forall xl k, dkt_l xl k ^ 2 = dkt_l2 xl k.
Proof.
  intros. unfold dkt_l, dkt_l2. apply pow2_sqrt. assert (H := pow2_ge_0). pose proof (H (dkt_x xl k)); pose proof (H (dkt_y xl k)); lra.
Qed.
Lemma cdkt_divs : divs_among [CInt 12; CInt 2; cdkt_8; cdkt_15; cdkt_35; cdkt_36; cdkt_40; cdkt_82] cdkt_code = true.
Proof. vm_compute. reflexivity. Qed.
Lemma dkt_form : forall E mu t xi eta xl i j, dkt_BDB E mu t xi eta xl i j
  = E * t^3 / 12 / (1 - mu^2) * (dkt_B xl xi eta 0%nat i * dkt_B xl xi eta 0%nat j
      + mu * (dkt_B xl xi eta 0%nat i * dkt_B xl xi eta 1%nat j + dkt_B xl xi eta 1%nat i * dkt_B xl xi eta 0%nat j)
      + dkt_B xl xi eta 1%nat i * dkt_B xl xi eta 1%nat j + (1 - mu) / 2 * (dkt_B xl xi eta 2%nat i * dkt_B xl xi eta 2%nat j)).
Proof. intros. unfold dkt_BDB, plateD. apply plane_form. Qed.

Section Entries.
Variables E mu t xi eta : R.
Variable xl : list R.
Hypothesis Hm : 1 - mu^2 <> 0.
Hypothesis HA : dkt_area2 xl <> 0.
Let env := call_with E mu t xi eta xl.
Local Ltac node := unfold env; cbn [cval call_with Nat.sub Nat.mul Nat.add].
Lemma dkt_l2_nonzero : forall k, dkt_l2 xl k <> 0.
Proof.
  assert (Z : forall a b : R, a ^ 2 + b ^ 2 = 0 -> a = 0 /\ b = 0) by (intros a b H; split; nra).
  intros k H. apply Z in H. destruct H as [H1 H2]. apply HA. unfold dkt_area2.
  destruct k as [|[|[|[|[|[|k]]]]]]; cbn [dkt_x dkt_y] in *; nra.
Qed.
Lemma cdkt_den_8 : cval env cdkt_8 = dkt_l2 xl 6.
Proof. unfold cdkt_8, cdkt_7, cdkt_6, cdkt_4. node. unfold dkt_l2; cbn [dkt_x dkt_y]; unfold cx, cy; cbn [Nat.mul Nat.add]. ring. Qed.
Lemma cdkt_den_15 : cval env cdkt_15 = dkt_l2 xl 5.
Proof. unfold cdkt_15, cdkt_14, cdkt_13, cdkt_12. node. unfold dkt_l2; cbn [dkt_x dkt_y]; unfold cx, cy; cbn [Nat.mul Nat.add]. ring. Qed.
Lemma cdkt_den_82 : cval env cdkt_82 = dkt_l2 xl 4.
Proof. unfold cdkt_82, cdkt_81, cdkt_80. node. unfold dkt_l2; cbn [dkt_x dkt_y]; unfold cx, cy; cbn [Nat.mul Nat.add]. ring. Qed.
Lemma cdkt_den_35 : cval env cdkt_35 = dkt_area2 xl.
Proof. unfold cdkt_35, cdkt_13, cdkt_12, cdkt_6, cdkt_4. node. unfold dkt_area2; cbn [dkt_x dkt_y]; unfold cx, cy; cbn [Nat.mul Nat.add]. ring. Qed.
Lemma cdkt_den_36 : cval env cdkt_36 = (1 - mu^2) * dkt_area2 xl ^ 2.
Proof. unfold cdkt_36, cdkt_34. cbn [cval]. rewrite cdkt_den_35. unfold env; cbn [call_with]. ring. Qed.
Lemma cdkt_den_40 : cval env cdkt_40 = (1 - mu^2) * dkt_area2 xl.
Proof. unfold cdkt_40, cdkt_34. cbn [cval]. rewrite cdkt_den_35. unfold env; cbn [call_with]. ring. Qed.

Local Ltac atom :=
  cbn [cval]; rewrite ?cdkt_den_8, ?cdkt_den_15, ?cdkt_den_82; unfold env; cbn [call_with];
  unfold dkt_B; cbn [vnth nth dkt_Hxxi dkt_Hxeta dkt_Hyxi dkt_Hyeta];
  fold (dkt_area2 xl); unfold dkt_P, dkt_t, dkt_q, dkt_r; rewrite ?dkt_l_sq;
  pose proof (dkt_l2_nonzero 4); pose proof (dkt_l2_nonzero 5); pose proof (dkt_l2_nonzero 6);
  set (l4 := dkt_l2 xl 4) in *; set (l5 := dkt_l2 xl 5) in *; set (l6 := dkt_l2 xl 6) in *;
  set (A := dkt_area2 xl) in *; cbn [dkt_x dkt_y]; unfold cx, cy; cbn [Nat.mul Nat.add Nat.sub]; field; auto.

Lemma cdkt_B_2_0 : cval env cdkt_33 = dkt_area2 xl * dkt_B xl xi eta 2%nat 0%nat.
Proof. unfold cdkt_33, cdkt_32, cdkt_31, cdkt_30, cdkt_29, cdkt_28, cdkt_27, cdkt_26, cdkt_25, cdkt_24, cdkt_23, cdkt_22, cdkt_21, cdkt_20, cdkt_19, cdkt_18, cdkt_17, cdkt_16, cdkt_13, cdkt_11, cdkt_10, cdkt_9, cdkt_6, cdkt_5, cdkt_4. atom. Qed.
Lemma cdkt_B_1_0 : cval env cdkt_37 = dkt_area2 xl * dkt_B xl xi eta 1%nat 0%nat.
Proof. unfold cdkt_37, cdkt_32, cdkt_31, cdkt_30, cdkt_29, cdkt_28, cdkt_27, cdkt_26, cdkt_25, cdkt_24, cdkt_21, cdkt_20, cdkt_17, cdkt_4. atom. Qed.
Lemma cdkt_B_0_0 : cval env cdkt_39 = dkt_area2 xl * dkt_B xl xi eta 0%nat 0%nat.
Proof. unfold cdkt_39, cdkt_23, cdkt_22, cdkt_21, cdkt_19, cdkt_18, cdkt_17, cdkt_16, cdkt_13, cdkt_11, cdkt_10, cdkt_9, cdkt_6, cdkt_5. atom. Qed.
Lemma cdkt_B_2_1 : cval env cdkt_63 = dkt_area2 xl * dkt_B xl xi eta 2%nat 1%nat.
Proof. unfold cdkt_63, cdkt_62, cdkt_61, cdkt_60, cdkt_59, cdkt_58, cdkt_57, cdkt_56, cdkt_55, cdkt_54, cdkt_53, cdkt_52, cdkt_51, cdkt_50, cdkt_49, cdkt_48, cdkt_47, cdkt_46, cdkt_45, cdkt_21, cdkt_20, cdkt_17, cdkt_14, cdkt_13, cdkt_7, cdkt_6, cdkt_4. atom. Qed.
Lemma cdkt_B_1_1 : cval env cdkt_65 = dkt_area2 xl * dkt_B xl xi eta 1%nat 1%nat.
Proof. unfold cdkt_65, cdkt_62, cdkt_61, cdkt_60, cdkt_59, cdkt_58, cdkt_57, cdkt_56, cdkt_55, cdkt_21, cdkt_20, cdkt_17, cdkt_14, cdkt_13, cdkt_7, cdkt_6, cdkt_4. atom. Qed.
Lemma cdkt_B_0_1 : cval env cdkt_66 = dkt_area2 xl * dkt_B xl xi eta 0%nat 1%nat.
Proof. unfold cdkt_66, cdkt_54, cdkt_53, cdkt_52, cdkt_51, cdkt_50, cdkt_49, cdkt_48, cdkt_47, cdkt_46, cdkt_45, cdkt_21, cdkt_17, cdkt_13, cdkt_6. atom. Qed.
Lemma cdkt_B_2_2 : cval env cdkt_74 = dkt_area2 xl * dkt_B xl xi eta 2%nat 2%nat.
Proof. unfold cdkt_74, cdkt_73, cdkt_72, cdkt_71, cdkt_70, cdkt_69, cdkt_68, cdkt_61, cdkt_59, cdkt_58, cdkt_57, cdkt_56, cdkt_55, cdkt_53, cdkt_51, cdkt_50, cdkt_49, cdkt_48, cdkt_47, cdkt_46, cdkt_45, cdkt_21, cdkt_20, cdkt_17, cdkt_14, cdkt_13, cdkt_7, cdkt_6, cdkt_4. atom. Qed.
Lemma cdkt_B_1_2 : cval env cdkt_76 = dkt_area2 xl * dkt_B xl xi eta 1%nat 2%nat.
Proof. unfold cdkt_76, cdkt_73, cdkt_72, cdkt_53, cdkt_51, cdkt_50, cdkt_49, cdkt_48, cdkt_47, cdkt_46, cdkt_45, cdkt_21, cdkt_20, cdkt_17, cdkt_13, cdkt_6, cdkt_4. atom. Qed.
Lemma cdkt_B_0_2 : cval env cdkt_77 = dkt_area2 xl * dkt_B xl xi eta 0%nat 2%nat.
Proof. unfold cdkt_77, cdkt_71, cdkt_70, cdkt_69, cdkt_68, cdkt_61, cdkt_59, cdkt_58, cdkt_57, cdkt_56, cdkt_55, cdkt_21, cdkt_17, cdkt_14, cdkt_13, cdkt_7, cdkt_6. atom. Qed.
Lemma cdkt_B_2_3 : cval env cdkt_90 = dkt_area2 xl * dkt_B xl xi eta 2%nat 3%nat.
Proof. unfold cdkt_90, cdkt_89, cdkt_88, cdkt_87, cdkt_86, cdkt_85, cdkt_84, cdkt_83, cdkt_79, cdkt_30, cdkt_28, cdkt_25, cdkt_24, cdkt_22, cdkt_21, cdkt_20, cdkt_13, cdkt_10, cdkt_9, cdkt_6, cdkt_5, cdkt_4. atom. Qed.
Lemma cdkt_B_1_3 : cval env cdkt_92 = dkt_area2 xl * dkt_B xl xi eta 1%nat 3%nat.
Proof. unfold cdkt_92, cdkt_89, cdkt_87, cdkt_86, cdkt_79, cdkt_30, cdkt_28, cdkt_25, cdkt_24, cdkt_21, cdkt_20, cdkt_4. atom. Qed.
Lemma cdkt_B_0_3 : cval env cdkt_93 = dkt_area2 xl * dkt_B xl xi eta 0%nat 3%nat.
Proof. unfold cdkt_93, cdkt_88, cdkt_85, cdkt_84, cdkt_83, cdkt_22, cdkt_21, cdkt_13, cdkt_10, cdkt_9, cdkt_6, cdkt_5. atom. Qed.
Lemma cdkt_B_2_4 : cval env cdkt_102 = dkt_area2 xl * dkt_B xl xi eta 2%nat 4%nat.
Proof. unfold cdkt_102, cdkt_101, cdkt_100, cdkt_99, cdkt_98, cdkt_97, cdkt_96, cdkt_95, cdkt_85, cdkt_81, cdkt_80, cdkt_79, cdkt_59, cdkt_53, cdkt_49, cdkt_48, cdkt_47, cdkt_45, cdkt_21, cdkt_20, cdkt_13, cdkt_7, cdkt_6, cdkt_4. atom. Qed.
Lemma cdkt_B_1_4 : cval env cdkt_104 = dkt_area2 xl * dkt_B xl xi eta 1%nat 4%nat.
Proof. unfold cdkt_104, cdkt_101, cdkt_100, cdkt_98, cdkt_97, cdkt_81, cdkt_80, cdkt_79, cdkt_59, cdkt_21, cdkt_20, cdkt_7, cdkt_6, cdkt_4. atom. Qed.
Lemma cdkt_B_0_4 : cval env cdkt_106 = dkt_area2 xl * dkt_B xl xi eta 0%nat 4%nat.
Proof. unfold cdkt_106, cdkt_105, cdkt_99, cdkt_96, cdkt_95, cdkt_85, cdkt_80, cdkt_53, cdkt_49, cdkt_48, cdkt_47, cdkt_45, cdkt_21, cdkt_13, cdkt_6. atom. Qed.
Lemma cdkt_B_2_5 : cval env cdkt_112 = dkt_area2 xl * dkt_B xl xi eta 2%nat 5%nat.
Proof. unfold cdkt_112, cdkt_111, cdkt_110, cdkt_109, cdkt_108, cdkt_105, cdkt_100, cdkt_98, cdkt_97, cdkt_96, cdkt_95, cdkt_85, cdkt_81, cdkt_80, cdkt_69, cdkt_59, cdkt_56, cdkt_53, cdkt_48, cdkt_47, cdkt_45, cdkt_21, cdkt_20, cdkt_13, cdkt_7, cdkt_6, cdkt_4. atom. Qed.
Lemma cdkt_B_1_5 : cval env cdkt_114 = dkt_area2 xl * dkt_B xl xi eta 1%nat 5%nat.
Proof. unfold cdkt_114, cdkt_111, cdkt_108, cdkt_96, cdkt_95, cdkt_80, cdkt_53, cdkt_48, cdkt_47, cdkt_45, cdkt_21, cdkt_20, cdkt_6, cdkt_4. atom. Qed.
Lemma cdkt_B_0_5 : cval env cdkt_115 = dkt_area2 xl * dkt_B xl xi eta 0%nat 5%nat.
Proof. unfold cdkt_115, cdkt_110, cdkt_109, cdkt_100, cdkt_98, cdkt_97, cdkt_81, cdkt_80, cdkt_69, cdkt_59, cdkt_56, cdkt_21, cdkt_13, cdkt_7, cdkt_6. atom. Qed.
Lemma cdkt_B_2_6 : cval env cdkt_123 = dkt_area2 xl * dkt_B xl xi eta 2%nat 6%nat.
Proof. unfold cdkt_123, cdkt_122, cdkt_121, cdkt_120, cdkt_119, cdkt_118, cdkt_117, cdkt_86, cdkt_83, cdkt_31, cdkt_27, cdkt_26, cdkt_25, cdkt_20, cdkt_18, cdkt_17, cdkt_16, cdkt_13, cdkt_11, cdkt_10, cdkt_6, cdkt_4. atom. Qed.
Lemma cdkt_B_1_6 : cval env cdkt_125 = dkt_area2 xl * dkt_B xl xi eta 1%nat 6%nat.
Proof. unfold cdkt_125, cdkt_122, cdkt_120, cdkt_117, cdkt_86, cdkt_31, cdkt_27, cdkt_26, cdkt_25, cdkt_20, cdkt_17, cdkt_4. atom. Qed.
Lemma cdkt_B_0_6 : cval env cdkt_127 = dkt_area2 xl * dkt_B xl xi eta 0%nat 6%nat.
Proof. unfold cdkt_127, cdkt_126, cdkt_121, cdkt_118, cdkt_83, cdkt_18, cdkt_17, cdkt_16, cdkt_13, cdkt_11, cdkt_10, cdkt_6. atom. Qed.
Lemma cdkt_B_2_7 : cval env cdkt_135 = dkt_area2 xl * dkt_B xl xi eta 2%nat 7%nat.
Proof. unfold cdkt_135, cdkt_134, cdkt_133, cdkt_132, cdkt_131, cdkt_130, cdkt_129, cdkt_119, cdkt_97, cdkt_95, cdkt_81, cdkt_80, cdkt_61, cdkt_51, cdkt_47, cdkt_46, cdkt_45, cdkt_20, cdkt_17, cdkt_14, cdkt_13, cdkt_6, cdkt_4. atom. Qed.
Lemma cdkt_B_1_7 : cval env cdkt_137 = dkt_area2 xl * dkt_B xl xi eta 1%nat 7%nat.
Proof. unfold cdkt_137, cdkt_134, cdkt_133, cdkt_131, cdkt_129, cdkt_97, cdkt_81, cdkt_80, cdkt_61, cdkt_20, cdkt_17, cdkt_14, cdkt_13, cdkt_4. atom. Qed.
Lemma cdkt_B_0_7 : cval env cdkt_139 = dkt_area2 xl * dkt_B xl xi eta 0%nat 7%nat.
Proof. unfold cdkt_139, cdkt_138, cdkt_132, cdkt_130, cdkt_119, cdkt_95, cdkt_80, cdkt_51, cdkt_47, cdkt_46, cdkt_45, cdkt_17, cdkt_13, cdkt_6. atom. Qed.
Lemma cdkt_B_2_8 : cval env cdkt_144 = dkt_area2 xl * dkt_B xl xi eta 2%nat 8%nat.
Proof. unfold cdkt_144, cdkt_143, cdkt_142, cdkt_141, cdkt_138, cdkt_133, cdkt_131, cdkt_130, cdkt_119, cdkt_117, cdkt_97, cdkt_95, cdkt_81, cdkt_80, cdkt_68, cdkt_61, cdkt_55, cdkt_51, cdkt_47, cdkt_46, cdkt_45, cdkt_20, cdkt_17, cdkt_14, cdkt_13, cdkt_6, cdkt_4. atom. Qed.
Lemma cdkt_B_1_8 : cval env cdkt_146 = dkt_area2 xl * dkt_B xl xi eta 1%nat 8%nat.
Proof. unfold cdkt_146, cdkt_143, cdkt_130, cdkt_117, cdkt_95, cdkt_80, cdkt_51, cdkt_47, cdkt_46, cdkt_45, cdkt_20, cdkt_17, cdkt_13, cdkt_4. atom. Qed.
Lemma cdkt_B_0_8 : cval env cdkt_147 = dkt_area2 xl * dkt_B xl xi eta 0%nat 8%nat.
Proof. unfold cdkt_147, cdkt_142, cdkt_141, cdkt_133, cdkt_131, cdkt_126, cdkt_97, cdkt_81, cdkt_80, cdkt_68, cdkt_61, cdkt_55, cdkt_17, cdkt_14, cdkt_13, cdkt_6. atom. Qed.

Local Ltac entry := rewrite ?cdkt_den_35, ?cdkt_den_36, ?cdkt_den_40; unfold env; cbn [call_with]; rewrite dkt_form; field; auto.

Lemma cdkt_at_0_0 : cval env cdkt_43 = dkt_BDB E mu t xi eta xl 0%nat 0%nat.
Proof. unfold cdkt_43, cdkt_42, cdkt_41, cdkt_38, cdkt_3, cdkt_2, cdkt_1, cdkt_0. cbn [cval]. rewrite ?cdkt_B_2_0, ?cdkt_B_1_0, ?cdkt_B_0_0. entry. Qed.
Lemma cdkt_at_0_1 : cval env cdkt_67 = dkt_BDB E mu t xi eta xl 0%nat 1%nat.
Proof. unfold cdkt_67, cdkt_64, cdkt_44, cdkt_42, cdkt_41, cdkt_38, cdkt_3, cdkt_2, cdkt_1, cdkt_0. cbn [cval]. rewrite ?cdkt_B_2_0, ?cdkt_B_2_1, ?cdkt_B_1_1, ?cdkt_B_0_0, ?cdkt_B_1_0, ?cdkt_B_0_1. entry. Qed.
Lemma cdkt_at_0_2 : cval env cdkt_78 = dkt_BDB E mu t xi eta xl 0%nat 2%nat.
Proof. unfold cdkt_78, cdkt_75, cdkt_44, cdkt_42, cdkt_41, cdkt_38, cdkt_3, cdkt_2, cdkt_1, cdkt_0. cbn [cval]. rewrite ?cdkt_B_2_0, ?cdkt_B_2_2, ?cdkt_B_1_2, ?cdkt_B_0_0, ?cdkt_B_1_0, ?cdkt_B_0_2. entry. Qed.
Lemma cdkt_at_0_3 : cval env cdkt_94 = dkt_BDB E mu t xi eta xl 0%nat 3%nat.
Proof. unfold cdkt_94, cdkt_91, cdkt_44, cdkt_42, cdkt_41, cdkt_38, cdkt_3, cdkt_2, cdkt_1, cdkt_0. cbn [cval]. rewrite ?cdkt_B_2_0, ?cdkt_B_2_3, ?cdkt_B_1_3, ?cdkt_B_0_0, ?cdkt_B_1_0, ?cdkt_B_0_3. entry. Qed.
Lemma cdkt_at_0_4 : cval env cdkt_107 = dkt_BDB E mu t xi eta xl 0%nat 4%nat.
Proof. unfold cdkt_107, cdkt_103, cdkt_44, cdkt_42, cdkt_41, cdkt_38, cdkt_3, cdkt_2, cdkt_1, cdkt_0. cbn [cval]. rewrite ?cdkt_B_2_0, ?cdkt_B_2_4, ?cdkt_B_1_4, ?cdkt_B_0_0, ?cdkt_B_1_0, ?cdkt_B_0_4. entry. Qed.
Lemma cdkt_at_0_5 : cval env cdkt_116 = dkt_BDB E mu t xi eta xl 0%nat 5%nat.
Proof. unfold cdkt_116, cdkt_113, cdkt_44, cdkt_42, cdkt_41, cdkt_38, cdkt_3, cdkt_2, cdkt_1, cdkt_0. cbn [cval]. rewrite ?cdkt_B_2_0, ?cdkt_B_2_5, ?cdkt_B_1_5, ?cdkt_B_0_0, ?cdkt_B_1_0, ?cdkt_B_0_5. entry. Qed.
Lemma cdkt_at_0_6 : cval env cdkt_128 = dkt_BDB E mu t xi eta xl 0%nat 6%nat.
Proof. unfold cdkt_128, cdkt_124, cdkt_44, cdkt_42, cdkt_41, cdkt_38, cdkt_3, cdkt_2, cdkt_1, cdkt_0. cbn [cval]. rewrite ?cdkt_B_2_0, ?cdkt_B_2_6, ?cdkt_B_1_6, ?cdkt_B_0_0, ?cdkt_B_1_0, ?cdkt_B_0_6. entry. Qed.
Lemma cdkt_at_0_7 : cval env cdkt_140 = dkt_BDB E mu t xi eta xl 0%nat 7%nat.
Proof. unfold cdkt_140, cdkt_136, cdkt_44, cdkt_42, cdkt_41, cdkt_38, cdkt_3, cdkt_2, cdkt_1, cdkt_0. cbn [cval]. rewrite ?cdkt_B_2_0, ?cdkt_B_2_7, ?cdkt_B_1_7, ?cdkt_B_0_0, ?cdkt_B_1_0, ?cdkt_B_0_7. entry. Qed.
Lemma cdkt_at_0_8 : cval env cdkt_148 = dkt_BDB E mu t xi eta xl 0%nat 8%nat.
Proof. unfold cdkt_148, cdkt_145, cdkt_44, cdkt_42, cdkt_41, cdkt_38, cdkt_3, cdkt_2, cdkt_1, cdkt_0. cbn [cval]. rewrite ?cdkt_B_2_0, ?cdkt_B_2_8, ?cdkt_B_1_8, ?cdkt_B_0_0, ?cdkt_B_1_0, ?cdkt_B_0_8. entry. Qed.
Lemma cdkt_at_1_0 : cval env cdkt_151 = dkt_BDB E mu t xi eta xl 1%nat 0%nat.
Proof. unfold cdkt_151, cdkt_150, cdkt_149, cdkt_64, cdkt_44, cdkt_38, cdkt_3, cdkt_2, cdkt_1, cdkt_0. cbn [cval]. rewrite ?cdkt_B_2_0, ?cdkt_B_2_1, ?cdkt_B_1_0, ?cdkt_B_0_1, ?cdkt_B_1_1, ?cdkt_B_0_0. entry. Qed.
Lemma cdkt_at_1_1 : cval env cdkt_152 = dkt_BDB E mu t xi eta xl 1%nat 1%nat.
Proof. unfold cdkt_152, cdkt_150, cdkt_149, cdkt_38, cdkt_3, cdkt_2, cdkt_1, cdkt_0. cbn [cval]. rewrite ?cdkt_B_2_1, ?cdkt_B_1_1, ?cdkt_B_0_1. entry. Qed.
Lemma cdkt_at_1_2 : cval env cdkt_155 = dkt_BDB E mu t xi eta xl 1%nat 2%nat.
Proof. unfold cdkt_155, cdkt_154, cdkt_153, cdkt_150, cdkt_149, cdkt_38, cdkt_3, cdkt_2, cdkt_1, cdkt_0. cbn [cval]. rewrite ?cdkt_B_2_1, ?cdkt_B_2_2, ?cdkt_B_1_2, ?cdkt_B_0_1, ?cdkt_B_1_1, ?cdkt_B_0_2. entry. Qed.
Lemma cdkt_at_1_3 : cval env cdkt_157 = dkt_BDB E mu t xi eta xl 1%nat 3%nat.
Proof. unfold cdkt_157, cdkt_156, cdkt_153, cdkt_150, cdkt_149, cdkt_38, cdkt_3, cdkt_2, cdkt_1, cdkt_0. cbn [cval]. rewrite ?cdkt_B_2_1, ?cdkt_B_2_3, ?cdkt_B_1_3, ?cdkt_B_0_1, ?cdkt_B_1_1, ?cdkt_B_0_3. entry. Qed.
Lemma cdkt_at_1_4 : cval env cdkt_159 = dkt_BDB E mu t xi eta xl 1%nat 4%nat.
Proof. unfold cdkt_159, cdkt_158, cdkt_153, cdkt_150, cdkt_149, cdkt_38, cdkt_3, cdkt_2, cdkt_1, cdkt_0. cbn [cval]. rewrite ?cdkt_B_2_1, ?cdkt_B_2_4, ?cdkt_B_1_4, ?cdkt_B_0_1, ?cdkt_B_1_1, ?cdkt_B_0_4. entry. Qed.
Lemma cdkt_at_1_5 : cval env cdkt_161 = dkt_BDB E mu t xi eta xl 1%nat 5%nat.
Proof. unfold cdkt_161, cdkt_160, cdkt_153, cdkt_150, cdkt_149, cdkt_38, cdkt_3, cdkt_2, cdkt_1, cdkt_0. cbn [cval]. rewrite ?cdkt_B_2_1, ?cdkt_B_2_5, ?cdkt_B_1_5, ?cdkt_B_0_1, ?cdkt_B_1_1, ?cdkt_B_0_5. entry. Qed.
Lemma cdkt_at_1_6 : cval env cdkt_163 = dkt_BDB E mu t xi eta xl 1%nat 6%nat.
Proof. unfold cdkt_163, cdkt_162, cdkt_153, cdkt_150, cdkt_149, cdkt_38, cdkt_3, cdkt_2, cdkt_1, cdkt_0. cbn [cval]. rewrite ?cdkt_B_2_1, ?cdkt_B_2_6, ?cdkt_B_1_6, ?cdkt_B_0_1, ?cdkt_B_1_1, ?cdkt_B_0_6. entry. Qed.
Lemma cdkt_at_1_7 : cval env cdkt_165 = dkt_BDB E mu t xi eta xl 1%nat 7%nat.
Proof. unfold cdkt_165, cdkt_164, cdkt_153, cdkt_150, cdkt_149, cdkt_38, cdkt_3, cdkt_2, cdkt_1, cdkt_0. cbn [cval]. rewrite ?cdkt_B_2_1, ?cdkt_B_2_7, ?cdkt_B_1_7, ?cdkt_B_0_1, ?cdkt_B_1_1, ?cdkt_B_0_7. entry. Qed.
Lemma cdkt_at_1_8 : cval env cdkt_167 = dkt_BDB E mu t xi eta xl 1%nat 8%nat.
Proof. unfold cdkt_167, cdkt_166, cdkt_153, cdkt_150, cdkt_149, cdkt_38, cdkt_3, cdkt_2, cdkt_1, cdkt_0. cbn [cval]. rewrite ?cdkt_B_2_1, ?cdkt_B_2_8, ?cdkt_B_1_8, ?cdkt_B_0_1, ?cdkt_B_1_1, ?cdkt_B_0_8. entry. Qed.
Lemma cdkt_at_2_0 : cval env cdkt_170 = dkt_BDB E mu t xi eta xl 2%nat 0%nat.
Proof. unfold cdkt_170, cdkt_169, cdkt_168, cdkt_75, cdkt_44, cdkt_38, cdkt_3, cdkt_2, cdkt_1, cdkt_0. cbn [cval]. rewrite ?cdkt_B_2_0, ?cdkt_B_2_2, ?cdkt_B_1_0, ?cdkt_B_0_2, ?cdkt_B_1_2, ?cdkt_B_0_0. entry. Qed.
Lemma cdkt_at_2_1 : cval env cdkt_171 = dkt_BDB E mu t xi eta xl 2%nat 1%nat.
Proof. unfold cdkt_171, cdkt_169, cdkt_168, cdkt_154, cdkt_153, cdkt_38, cdkt_3, cdkt_2, cdkt_1, cdkt_0. cbn [cval]. rewrite ?cdkt_B_2_1, ?cdkt_B_2_2, ?cdkt_B_1_1, ?cdkt_B_0_2, ?cdkt_B_1_2, ?cdkt_B_0_1. entry. Qed.
Lemma cdkt_at_2_2 : cval env cdkt_172 = dkt_BDB E mu t xi eta xl 2%nat 2%nat.
Proof. unfold cdkt_172, cdkt_169, cdkt_168, cdkt_38, cdkt_3, cdkt_2, cdkt_1, cdkt_0. cbn [cval]. rewrite ?cdkt_B_2_2, ?cdkt_B_1_2, ?cdkt_B_0_2. entry. Qed.
Lemma cdkt_at_2_3 : cval env cdkt_175 = dkt_BDB E mu t xi eta xl 2%nat 3%nat.
Proof. unfold cdkt_175, cdkt_174, cdkt_173, cdkt_169, cdkt_168, cdkt_38, cdkt_3, cdkt_2, cdkt_1, cdkt_0. cbn [cval]. rewrite ?cdkt_B_2_2, ?cdkt_B_2_3, ?cdkt_B_1_3, ?cdkt_B_0_2, ?cdkt_B_1_2, ?cdkt_B_0_3. entry. Qed.
Lemma cdkt_at_2_4 : cval env cdkt_177 = dkt_BDB E mu t xi eta xl 2%nat 4%nat.
Proof. unfold cdkt_177, cdkt_176, cdkt_173, cdkt_169, cdkt_168, cdkt_38, cdkt_3, cdkt_2, cdkt_1, cdkt_0. cbn [cval]. rewrite ?cdkt_B_2_2, ?cdkt_B_2_4, ?cdkt_B_1_4, ?cdkt_B_0_2, ?cdkt_B_1_2, ?cdkt_B_0_4. entry. Qed.
Lemma cdkt_at_2_5 : cval env cdkt_179 = dkt_BDB E mu t xi eta xl 2%nat 5%nat.
Proof. unfold cdkt_179, cdkt_178, cdkt_173, cdkt_169, cdkt_168, cdkt_38, cdkt_3, cdkt_2, cdkt_1, cdkt_0. cbn [cval]. rewrite ?cdkt_B_2_2, ?cdkt_B_2_5, ?cdkt_B_1_5, ?cdkt_B_0_2, ?cdkt_B_1_2, ?cdkt_B_0_5. entry. Qed.
Lemma cdkt_at_2_6 : cval env cdkt_181 = dkt_BDB E mu t xi eta xl 2%nat 6%nat.
Proof. unfold cdkt_181, cdkt_180, cdkt_173, cdkt_169, cdkt_168, cdkt_38, cdkt_3, cdkt_2, cdkt_1, cdkt_0. cbn [cval]. rewrite ?cdkt_B_2_2, ?cdkt_B_2_6, ?cdkt_B_1_6, ?cdkt_B_0_2, ?cdkt_B_1_2, ?cdkt_B_0_6. entry. Qed.
Lemma cdkt_at_2_7 : cval env cdkt_183 = dkt_BDB E mu t xi eta xl 2%nat 7%nat.
Proof. unfold cdkt_183, cdkt_182, cdkt_173, cdkt_169, cdkt_168, cdkt_38, cdkt_3, cdkt_2, cdkt_1, cdkt_0. cbn [cval]. rewrite ?cdkt_B_2_2, ?cdkt_B_2_7, ?cdkt_B_1_7, ?cdkt_B_0_2, ?cdkt_B_1_2, ?cdkt_B_0_7. entry. Qed.
Lemma cdkt_at_2_8 : cval env cdkt_185 = dkt_BDB E mu t xi eta xl 2%nat 8%nat.
Proof. unfold cdkt_185, cdkt_184, cdkt_173, cdkt_169, cdkt_168, cdkt_38, cdkt_3, cdkt_2, cdkt_1, cdkt_0. cbn [cval]. rewrite ?cdkt_B_2_2, ?cdkt_B_2_8, ?cdkt_B_1_8, ?cdkt_B_0_2, ?cdkt_B_1_2, ?cdkt_B_0_8. entry. Qed.
Lemma cdkt_at_3_0 : cval env cdkt_188 = dkt_BDB E mu t xi eta xl 3%nat 0%nat.
Proof. unfold cdkt_188, cdkt_187, cdkt_186, cdkt_91, cdkt_44, cdkt_38, cdkt_3, cdkt_2, cdkt_1, cdkt_0. cbn [cval]. rewrite ?cdkt_B_2_0, ?cdkt_B_2_3, ?cdkt_B_1_0, ?cdkt_B_0_3, ?cdkt_B_1_3, ?cdkt_B_0_0. entry. Qed.
Lemma cdkt_at_3_1 : cval env cdkt_189 = dkt_BDB E mu t xi eta xl 3%nat 1%nat.
Proof. unfold cdkt_189, cdkt_187, cdkt_186, cdkt_156, cdkt_153, cdkt_38, cdkt_3, cdkt_2, cdkt_1, cdkt_0. cbn [cval]. rewrite ?cdkt_B_2_1, ?cdkt_B_2_3, ?cdkt_B_1_1, ?cdkt_B_0_3, ?cdkt_B_1_3, ?cdkt_B_0_1. entry. Qed.
Lemma cdkt_at_3_2 : cval env cdkt_190 = dkt_BDB E mu t xi eta xl 3%nat 2%nat.
Proof. unfold cdkt_190, cdkt_187, cdkt_186, cdkt_174, cdkt_173, cdkt_38, cdkt_3, cdkt_2, cdkt_1, cdkt_0. cbn [cval]. rewrite ?cdkt_B_2_2, ?cdkt_B_2_3, ?cdkt_B_1_2, ?cdkt_B_0_3, ?cdkt_B_1_3, ?cdkt_B_0_2. entry. Qed.
Lemma cdkt_at_3_3 : cval env cdkt_191 = dkt_BDB E mu t xi eta xl 3%nat 3%nat.
Proof. unfold cdkt_191, cdkt_187, cdkt_186, cdkt_38, cdkt_3, cdkt_2, cdkt_1, cdkt_0. cbn [cval]. rewrite ?cdkt_B_2_3, ?cdkt_B_1_3, ?cdkt_B_0_3. entry. Qed.
Lemma cdkt_at_3_4 : cval env cdkt_194 = dkt_BDB E mu t xi eta xl 3%nat 4%nat.
Proof. unfold cdkt_194, cdkt_193, cdkt_192, cdkt_187, cdkt_186, cdkt_38, cdkt_3, cdkt_2, cdkt_1, cdkt_0. cbn [cval]. rewrite ?cdkt_B_2_3, ?cdkt_B_2_4, ?cdkt_B_1_4, ?cdkt_B_0_3, ?cdkt_B_1_3, ?cdkt_B_0_4. entry. Qed.
Lemma cdkt_at_3_5 : cval env cdkt_196 = dkt_BDB E mu t xi eta xl 3%nat 5%nat.
Proof. unfold cdkt_196, cdkt_195, cdkt_192, cdkt_187, cdkt_186, cdkt_38, cdkt_3, cdkt_2, cdkt_1, cdkt_0. cbn [cval]. rewrite ?cdkt_B_2_3, ?cdkt_B_2_5, ?cdkt_B_1_5, ?cdkt_B_0_3, ?cdkt_B_1_3, ?cdkt_B_0_5. entry. Qed.
Lemma cdkt_at_3_6 : cval env cdkt_199 = dkt_BDB E mu t xi eta xl 3%nat 6%nat.
Proof. unfold cdkt_199, cdkt_198, cdkt_197, cdkt_187, cdkt_186, cdkt_38, cdkt_3, cdkt_2, cdkt_1, cdkt_0. cbn [cval]. rewrite ?cdkt_B_2_6, ?cdkt_B_2_3, ?cdkt_B_1_6, ?cdkt_B_0_3, ?cdkt_B_1_3, ?cdkt_B_0_6. entry. Qed.
Lemma cdkt_at_3_7 : cval env cdkt_202 = dkt_BDB E mu t xi eta xl 3%nat 7%nat.
Proof. unfold cdkt_202, cdkt_201, cdkt_200, cdkt_187, cdkt_186, cdkt_38, cdkt_3, cdkt_2, cdkt_1, cdkt_0. cbn [cval]. rewrite ?cdkt_B_2_7, ?cdkt_B_2_3, ?cdkt_B_1_7, ?cdkt_B_0_3, ?cdkt_B_1_3, ?cdkt_B_0_7. entry. Qed.
Lemma cdkt_at_3_8 : cval env cdkt_205 = dkt_BDB E mu t xi eta xl 3%nat 8%nat.
Proof. unfold cdkt_205, cdkt_204, cdkt_203, cdkt_187, cdkt_186, cdkt_38, cdkt_3, cdkt_2, cdkt_1, cdkt_0. cbn [cval]. rewrite ?cdkt_B_2_8, ?cdkt_B_2_3, ?cdkt_B_1_8, ?cdkt_B_0_3, ?cdkt_B_1_3, ?cdkt_B_0_8. entry. Qed.
Lemma cdkt_at_4_0 : cval env cdkt_208 = dkt_BDB E mu t xi eta xl 4%nat 0%nat.
Proof. unfold cdkt_208, cdkt_207, cdkt_206, cdkt_103, cdkt_44, cdkt_38, cdkt_3, cdkt_2, cdkt_1, cdkt_0. cbn [cval]. rewrite ?cdkt_B_2_0, ?cdkt_B_2_4, ?cdkt_B_1_0, ?cdkt_B_0_4, ?cdkt_B_1_4, ?cdkt_B_0_0. entry. Qed.
Lemma cdkt_at_4_1 : cval env cdkt_209 = dkt_BDB E mu t xi eta xl 4%nat 1%nat.
Proof. unfold cdkt_209, cdkt_207, cdkt_206, cdkt_158, cdkt_153, cdkt_38, cdkt_3, cdkt_2, cdkt_1, cdkt_0. cbn [cval]. rewrite ?cdkt_B_2_1, ?cdkt_B_2_4, ?cdkt_B_1_1, ?cdkt_B_0_4, ?cdkt_B_1_4, ?cdkt_B_0_1. entry. Qed.
Lemma cdkt_at_4_2 : cval env cdkt_210 = dkt_BDB E mu t xi eta xl 4%nat 2%nat.
Proof. unfold cdkt_210, cdkt_207, cdkt_206, cdkt_176, cdkt_173, cdkt_38, cdkt_3, cdkt_2, cdkt_1, cdkt_0. cbn [cval]. rewrite ?cdkt_B_2_2, ?cdkt_B_2_4, ?cdkt_B_1_2, ?cdkt_B_0_4, ?cdkt_B_1_4, ?cdkt_B_0_2. entry. Qed.
Lemma cdkt_at_4_3 : cval env cdkt_211 = dkt_BDB E mu t xi eta xl 4%nat 3%nat.
Proof. unfold cdkt_211, cdkt_207, cdkt_206, cdkt_193, cdkt_192, cdkt_38, cdkt_3, cdkt_2, cdkt_1, cdkt_0. cbn [cval]. rewrite ?cdkt_B_2_3, ?cdkt_B_2_4, ?cdkt_B_1_3, ?cdkt_B_0_4, ?cdkt_B_1_4, ?cdkt_B_0_3. entry. Qed.
Lemma cdkt_at_4_4 : cval env cdkt_212 = dkt_BDB E mu t xi eta xl 4%nat 4%nat.
Proof. unfold cdkt_212, cdkt_207, cdkt_206, cdkt_38, cdkt_3, cdkt_2, cdkt_1, cdkt_0. cbn [cval]. rewrite ?cdkt_B_2_4, ?cdkt_B_1_4, ?cdkt_B_0_4. entry. Qed.
Lemma cdkt_at_4_5 : cval env cdkt_214 = dkt_BDB E mu t xi eta xl 4%nat 5%nat.
Proof. unfold cdkt_214, cdkt_213, cdkt_207, cdkt_206, cdkt_38, cdkt_3, cdkt_2, cdkt_1, cdkt_0. cbn [cval]. rewrite ?cdkt_B_2_5, ?cdkt_B_2_4, ?cdkt_B_1_5, ?cdkt_B_0_4, ?cdkt_B_1_4, ?cdkt_B_0_5. entry. Qed.
Lemma cdkt_at_4_6 : cval env cdkt_216 = dkt_BDB E mu t xi eta xl 4%nat 6%nat.
Proof. unfold cdkt_216, cdkt_215, cdkt_207, cdkt_206, cdkt_197, cdkt_38, cdkt_3, cdkt_2, cdkt_1, cdkt_0. cbn [cval]. rewrite ?cdkt_B_2_6, ?cdkt_B_2_4, ?cdkt_B_1_6, ?cdkt_B_0_4, ?cdkt_B_1_4, ?cdkt_B_0_6. entry. Qed.
Lemma cdkt_at_4_7 : cval env cdkt_218 = dkt_BDB E mu t xi eta xl 4%nat 7%nat.
Proof. unfold cdkt_218, cdkt_217, cdkt_207, cdkt_206, cdkt_200, cdkt_38, cdkt_3, cdkt_2, cdkt_1, cdkt_0. cbn [cval]. rewrite ?cdkt_B_2_7, ?cdkt_B_2_4, ?cdkt_B_1_7, ?cdkt_B_0_4, ?cdkt_B_1_4, ?cdkt_B_0_7. entry. Qed.
Lemma cdkt_at_4_8 : cval env cdkt_220 = dkt_BDB E mu t xi eta xl 4%nat 8%nat.
Proof. unfold cdkt_220, cdkt_219, cdkt_207, cdkt_206, cdkt_203, cdkt_38, cdkt_3, cdkt_2, cdkt_1, cdkt_0. cbn [cval]. rewrite ?cdkt_B_2_8, ?cdkt_B_2_4, ?cdkt_B_1_8, ?cdkt_B_0_4, ?cdkt_B_1_4, ?cdkt_B_0_8. entry. Qed.
Lemma cdkt_at_5_0 : cval env cdkt_223 = dkt_BDB E mu t xi eta xl 5%nat 0%nat.
Proof. unfold cdkt_223, cdkt_222, cdkt_221, cdkt_113, cdkt_44, cdkt_38, cdkt_3, cdkt_2, cdkt_1, cdkt_0. cbn [cval]. rewrite ?cdkt_B_2_0, ?cdkt_B_2_5, ?cdkt_B_1_0, ?cdkt_B_0_5, ?cdkt_B_1_5, ?cdkt_B_0_0. entry. Qed.
Lemma cdkt_at_5_1 : cval env cdkt_224 = dkt_BDB E mu t xi eta xl 5%nat 1%nat.
Proof. unfold cdkt_224, cdkt_222, cdkt_221, cdkt_160, cdkt_153, cdkt_38, cdkt_3, cdkt_2, cdkt_1, cdkt_0. cbn [cval]. rewrite ?cdkt_B_2_1, ?cdkt_B_2_5, ?cdkt_B_1_1, ?cdkt_B_0_5, ?cdkt_B_1_5, ?cdkt_B_0_1. entry. Qed.
Lemma cdkt_at_5_2 : cval env cdkt_225 = dkt_BDB E mu t xi eta xl 5%nat 2%nat.
Proof. unfold cdkt_225, cdkt_222, cdkt_221, cdkt_178, cdkt_173, cdkt_38, cdkt_3, cdkt_2, cdkt_1, cdkt_0. cbn [cval]. rewrite ?cdkt_B_2_2, ?cdkt_B_2_5, ?cdkt_B_1_2, ?cdkt_B_0_5, ?cdkt_B_1_5, ?cdkt_B_0_2. entry. Qed.
Lemma cdkt_at_5_3 : cval env cdkt_226 = dkt_BDB E mu t xi eta xl 5%nat 3%nat.
Proof. unfold cdkt_226, cdkt_222, cdkt_221, cdkt_195, cdkt_192, cdkt_38, cdkt_3, cdkt_2, cdkt_1, cdkt_0. cbn [cval]. rewrite ?cdkt_B_2_3, ?cdkt_B_2_5, ?cdkt_B_1_3, ?cdkt_B_0_5, ?cdkt_B_1_5, ?cdkt_B_0_3. entry. Qed.
Lemma cdkt_at_5_4 : cval env cdkt_227 = dkt_BDB E mu t xi eta xl 5%nat 4%nat.
Proof. unfold cdkt_227, cdkt_222, cdkt_221, cdkt_213, cdkt_38, cdkt_3, cdkt_2, cdkt_1, cdkt_0. cbn [cval]. rewrite ?cdkt_B_2_5, ?cdkt_B_2_4, ?cdkt_B_1_4, ?cdkt_B_0_5, ?cdkt_B_1_5, ?cdkt_B_0_4. entry. Qed.
Lemma cdkt_at_5_5 : cval env cdkt_228 = dkt_BDB E mu t xi eta xl 5%nat 5%nat.
Proof. unfold cdkt_228, cdkt_222, cdkt_221, cdkt_38, cdkt_3, cdkt_2, cdkt_1, cdkt_0. cbn [cval]. rewrite ?cdkt_B_2_5, ?cdkt_B_1_5, ?cdkt_B_0_5. entry. Qed.
Lemma cdkt_at_5_6 : cval env cdkt_230 = dkt_BDB E mu t xi eta xl 5%nat 6%nat.
Proof. unfold cdkt_230, cdkt_229, cdkt_222, cdkt_221, cdkt_197, cdkt_38, cdkt_3, cdkt_2, cdkt_1, cdkt_0. cbn [cval]. rewrite ?cdkt_B_2_6, ?cdkt_B_2_5, ?cdkt_B_1_6, ?cdkt_B_0_5, ?cdkt_B_1_5, ?cdkt_B_0_6. entry. Qed.
Lemma cdkt_at_5_7 : cval env cdkt_232 = dkt_BDB E mu t xi eta xl 5%nat 7%nat.
Proof. unfold cdkt_232, cdkt_231, cdkt_222, cdkt_221, cdkt_200, cdkt_38, cdkt_3, cdkt_2, cdkt_1, cdkt_0. cbn [cval]. rewrite ?cdkt_B_2_7, ?cdkt_B_2_5, ?cdkt_B_1_7, ?cdkt_B_0_5, ?cdkt_B_1_5, ?cdkt_B_0_7. entry. Qed.
Lemma cdkt_at_5_8 : cval env cdkt_234 = dkt_BDB E mu t xi eta xl 5%nat 8%nat.
Proof. unfold cdkt_234, cdkt_233, cdkt_222, cdkt_221, cdkt_203, cdkt_38, cdkt_3, cdkt_2, cdkt_1, cdkt_0. cbn [cval]. rewrite ?cdkt_B_2_8, ?cdkt_B_2_5, ?cdkt_B_1_8, ?cdkt_B_0_5, ?cdkt_B_1_5, ?cdkt_B_0_8. entry. Qed.
Lemma cdkt_at_6_0 : cval env cdkt_237 = dkt_BDB E mu t xi eta xl 6%nat 0%nat.
Proof. unfold cdkt_237, cdkt_236, cdkt_235, cdkt_124, cdkt_44, cdkt_38, cdkt_3, cdkt_2, cdkt_1, cdkt_0. cbn [cval]. rewrite ?cdkt_B_2_0, ?cdkt_B_2_6, ?cdkt_B_1_0, ?cdkt_B_0_6, ?cdkt_B_1_6, ?cdkt_B_0_0. entry. Qed.
Lemma cdkt_at_6_1 : cval env cdkt_238 = dkt_BDB E mu t xi eta xl 6%nat 1%nat.
Proof. unfold cdkt_238, cdkt_236, cdkt_235, cdkt_162, cdkt_153, cdkt_38, cdkt_3, cdkt_2, cdkt_1, cdkt_0. cbn [cval]. rewrite ?cdkt_B_2_1, ?cdkt_B_2_6, ?cdkt_B_1_1, ?cdkt_B_0_6, ?cdkt_B_1_6, ?cdkt_B_0_1. entry. Qed.
Lemma cdkt_at_6_2 : cval env cdkt_239 = dkt_BDB E mu t xi eta xl 6%nat 2%nat.
Proof. unfold cdkt_239, cdkt_236, cdkt_235, cdkt_180, cdkt_173, cdkt_38, cdkt_3, cdkt_2, cdkt_1, cdkt_0. cbn [cval]. rewrite ?cdkt_B_2_2, ?cdkt_B_2_6, ?cdkt_B_1_2, ?cdkt_B_0_6, ?cdkt_B_1_6, ?cdkt_B_0_2. entry. Qed.
Lemma cdkt_at_6_3 : cval env cdkt_240 = dkt_BDB E mu t xi eta xl 6%nat 3%nat.
Proof. unfold cdkt_240, cdkt_236, cdkt_235, cdkt_198, cdkt_197, cdkt_38, cdkt_3, cdkt_2, cdkt_1, cdkt_0. cbn [cval]. rewrite ?cdkt_B_2_6, ?cdkt_B_2_3, ?cdkt_B_1_3, ?cdkt_B_0_6, ?cdkt_B_1_6, ?cdkt_B_0_3. entry. Qed.
Lemma cdkt_at_6_4 : cval env cdkt_241 = dkt_BDB E mu t xi eta xl 6%nat 4%nat.
Proof. unfold cdkt_241, cdkt_236, cdkt_235, cdkt_215, cdkt_197, cdkt_38, cdkt_3, cdkt_2, cdkt_1, cdkt_0. cbn [cval]. rewrite ?cdkt_B_2_6, ?cdkt_B_2_4, ?cdkt_B_1_4, ?cdkt_B_0_6, ?cdkt_B_1_6, ?cdkt_B_0_4. entry. Qed.
Lemma cdkt_at_6_5 : cval env cdkt_242 = dkt_BDB E mu t xi eta xl 6%nat 5%nat.
Proof. unfold cdkt_242, cdkt_236, cdkt_235, cdkt_229, cdkt_197, cdkt_38, cdkt_3, cdkt_2, cdkt_1, cdkt_0. cbn [cval]. rewrite ?cdkt_B_2_6, ?cdkt_B_2_5, ?cdkt_B_1_5, ?cdkt_B_0_6, ?cdkt_B_1_6, ?cdkt_B_0_5. entry. Qed.
Lemma cdkt_at_6_6 : cval env cdkt_243 = dkt_BDB E mu t xi eta xl 6%nat 6%nat.
Proof. unfold cdkt_243, cdkt_236, cdkt_235, cdkt_38, cdkt_3, cdkt_2, cdkt_1, cdkt_0. cbn [cval]. rewrite ?cdkt_B_2_6, ?cdkt_B_1_6, ?cdkt_B_0_6. entry. Qed.
Lemma cdkt_at_6_7 : cval env cdkt_245 = dkt_BDB E mu t xi eta xl 6%nat 7%nat.
Proof. unfold cdkt_245, cdkt_244, cdkt_236, cdkt_235, cdkt_197, cdkt_38, cdkt_3, cdkt_2, cdkt_1, cdkt_0. cbn [cval]. rewrite ?cdkt_B_2_6, ?cdkt_B_2_7, ?cdkt_B_1_7, ?cdkt_B_0_6, ?cdkt_B_1_6, ?cdkt_B_0_7. entry. Qed.
Lemma cdkt_at_6_8 : cval env cdkt_247 = dkt_BDB E mu t xi eta xl 6%nat 8%nat.
Proof. unfold cdkt_247, cdkt_246, cdkt_236, cdkt_235, cdkt_197, cdkt_38, cdkt_3, cdkt_2, cdkt_1, cdkt_0. cbn [cval]. rewrite ?cdkt_B_2_6, ?cdkt_B_2_8, ?cdkt_B_1_8, ?cdkt_B_0_6, ?cdkt_B_1_6, ?cdkt_B_0_8. entry. Qed.
Lemma cdkt_at_7_0 : cval env cdkt_250 = dkt_BDB E mu t xi eta xl 7%nat 0%nat.
Proof. unfold cdkt_250, cdkt_249, cdkt_248, cdkt_136, cdkt_44, cdkt_38, cdkt_3, cdkt_2, cdkt_1, cdkt_0. cbn [cval]. rewrite ?cdkt_B_2_0, ?cdkt_B_2_7, ?cdkt_B_1_0, ?cdkt_B_0_7, ?cdkt_B_1_7, ?cdkt_B_0_0. entry. Qed.
Lemma cdkt_at_7_1 : cval env cdkt_251 = dkt_BDB E mu t xi eta xl 7%nat 1%nat.
Proof. unfold cdkt_251, cdkt_249, cdkt_248, cdkt_164, cdkt_153, cdkt_38, cdkt_3, cdkt_2, cdkt_1, cdkt_0. cbn [cval]. rewrite ?cdkt_B_2_1, ?cdkt_B_2_7, ?cdkt_B_1_1, ?cdkt_B_0_7, ?cdkt_B_1_7, ?cdkt_B_0_1. entry. Qed.
Lemma cdkt_at_7_2 : cval env cdkt_252 = dkt_BDB E mu t xi eta xl 7%nat 2%nat.
Proof. unfold cdkt_252, cdkt_249, cdkt_248, cdkt_182, cdkt_173, cdkt_38, cdkt_3, cdkt_2, cdkt_1, cdkt_0. cbn [cval]. rewrite ?cdkt_B_2_2, ?cdkt_B_2_7, ?cdkt_B_1_2, ?cdkt_B_0_7, ?cdkt_B_1_7, ?cdkt_B_0_2. entry. Qed.
Lemma cdkt_at_7_3 : cval env cdkt_253 = dkt_BDB E mu t xi eta xl 7%nat 3%nat.
Proof. unfold cdkt_253, cdkt_249, cdkt_248, cdkt_201, cdkt_200, cdkt_38, cdkt_3, cdkt_2, cdkt_1, cdkt_0. cbn [cval]. rewrite ?cdkt_B_2_7, ?cdkt_B_2_3, ?cdkt_B_1_3, ?cdkt_B_0_7, ?cdkt_B_1_7, ?cdkt_B_0_3. entry. Qed.
Lemma cdkt_at_7_4 : cval env cdkt_254 = dkt_BDB E mu t xi eta xl 7%nat 4%nat.
Proof. unfold cdkt_254, cdkt_249, cdkt_248, cdkt_217, cdkt_200, cdkt_38, cdkt_3, cdkt_2, cdkt_1, cdkt_0. cbn [cval]. rewrite ?cdkt_B_2_7, ?cdkt_B_2_4, ?cdkt_B_1_4, ?cdkt_B_0_7, ?cdkt_B_1_7, ?cdkt_B_0_4. entry. Qed.
Lemma cdkt_at_7_5 : cval env cdkt_255 = dkt_BDB E mu t xi eta xl 7%nat 5%nat.
Proof. unfold cdkt_255, cdkt_249, cdkt_248, cdkt_231, cdkt_200, cdkt_38, cdkt_3, cdkt_2, cdkt_1, cdkt_0. cbn [cval]. rewrite ?cdkt_B_2_7, ?cdkt_B_2_5, ?cdkt_B_1_5, ?cdkt_B_0_7, ?cdkt_B_1_7, ?cdkt_B_0_5. entry. Qed.
Lemma cdkt_at_7_6 : cval env cdkt_256 = dkt_BDB E mu t xi eta xl 7%nat 6%nat.
Proof. unfold cdkt_256, cdkt_249, cdkt_248, cdkt_244, cdkt_197, cdkt_38, cdkt_3, cdkt_2, cdkt_1, cdkt_0. cbn [cval]. rewrite ?cdkt_B_2_6, ?cdkt_B_2_7, ?cdkt_B_1_6, ?cdkt_B_0_7, ?cdkt_B_1_7, ?cdkt_B_0_6. entry. Qed.
Lemma cdkt_at_7_7 : cval env cdkt_257 = dkt_BDB E mu t xi eta xl 7%nat 7%nat.
Proof. unfold cdkt_257, cdkt_249, cdkt_248, cdkt_38, cdkt_3, cdkt_2, cdkt_1, cdkt_0. cbn [cval]. rewrite ?cdkt_B_2_7, ?cdkt_B_1_7, ?cdkt_B_0_7. entry. Qed.
Lemma cdkt_at_7_8 : cval env cdkt_259 = dkt_BDB E mu t xi eta xl 7%nat 8%nat.
Proof. unfold cdkt_259, cdkt_258, cdkt_249, cdkt_248, cdkt_203, cdkt_38, cdkt_3, cdkt_2, cdkt_1, cdkt_0. cbn [cval]. rewrite ?cdkt_B_2_8, ?cdkt_B_2_7, ?cdkt_B_1_8, ?cdkt_B_0_7, ?cdkt_B_1_7, ?cdkt_B_0_8. entry. Qed.
Lemma cdkt_at_8_0 : cval env cdkt_262 = dkt_BDB E mu t xi eta xl 8%nat 0%nat.
Proof. unfold cdkt_262, cdkt_261, cdkt_260, cdkt_145, cdkt_44, cdkt_38, cdkt_3, cdkt_2, cdkt_1, cdkt_0. cbn [cval]. rewrite ?cdkt_B_2_0, ?cdkt_B_2_8, ?cdkt_B_1_0, ?cdkt_B_0_8, ?cdkt_B_1_8, ?cdkt_B_0_0. entry. Qed.
Lemma cdkt_at_8_1 : cval env cdkt_263 = dkt_BDB E mu t xi eta xl 8%nat 1%nat.
Proof. unfold cdkt_263, cdkt_261, cdkt_260, cdkt_166, cdkt_153, cdkt_38, cdkt_3, cdkt_2, cdkt_1, cdkt_0. cbn [cval]. rewrite ?cdkt_B_2_1, ?cdkt_B_2_8, ?cdkt_B_1_1, ?cdkt_B_0_8, ?cdkt_B_1_8, ?cdkt_B_0_1. entry. Qed.
Lemma cdkt_at_8_2 : cval env cdkt_264 = dkt_BDB E mu t xi eta xl 8%nat 2%nat.
Proof. unfold cdkt_264, cdkt_261, cdkt_260, cdkt_184, cdkt_173, cdkt_38, cdkt_3, cdkt_2, cdkt_1, cdkt_0. cbn [cval]. rewrite ?cdkt_B_2_2, ?cdkt_B_2_8, ?cdkt_B_1_2, ?cdkt_B_0_8, ?cdkt_B_1_8, ?cdkt_B_0_2. entry. Qed.
Lemma cdkt_at_8_3 : cval env cdkt_265 = dkt_BDB E mu t xi eta xl 8%nat 3%nat.
Proof. unfold cdkt_265, cdkt_261, cdkt_260, cdkt_204, cdkt_203, cdkt_38, cdkt_3, cdkt_2, cdkt_1, cdkt_0. cbn [cval]. rewrite ?cdkt_B_2_8, ?cdkt_B_2_3, ?cdkt_B_1_3, ?cdkt_B_0_8, ?cdkt_B_1_8, ?cdkt_B_0_3. entry. Qed.
Lemma cdkt_at_8_4 : cval env cdkt_266 = dkt_BDB E mu t xi eta xl 8%nat 4%nat.
Proof. unfold cdkt_266, cdkt_261, cdkt_260, cdkt_219, cdkt_203, cdkt_38, cdkt_3, cdkt_2, cdkt_1, cdkt_0. cbn [cval]. rewrite ?cdkt_B_2_8, ?cdkt_B_2_4, ?cdkt_B_1_4, ?cdkt_B_0_8, ?cdkt_B_1_8, ?cdkt_B_0_4. entry. Qed.
Lemma cdkt_at_8_5 : cval env cdkt_267 = dkt_BDB E mu t xi eta xl 8%nat 5%nat.
Proof. unfold cdkt_267, cdkt_261, cdkt_260, cdkt_233, cdkt_203, cdkt_38, cdkt_3, cdkt_2, cdkt_1, cdkt_0. cbn [cval]. rewrite ?cdkt_B_2_8, ?cdkt_B_2_5, ?cdkt_B_1_5, ?cdkt_B_0_8, ?cdkt_B_1_8, ?cdkt_B_0_5. entry. Qed.
Lemma cdkt_at_8_6 : cval env cdkt_268 = dkt_BDB E mu t xi eta xl 8%nat 6%nat.
Proof. unfold cdkt_268, cdkt_261, cdkt_260, cdkt_246, cdkt_197, cdkt_38, cdkt_3, cdkt_2, cdkt_1, cdkt_0. cbn [cval]. rewrite ?cdkt_B_2_6, ?cdkt_B_2_8, ?cdkt_B_1_6, ?cdkt_B_0_8, ?cdkt_B_1_8, ?cdkt_B_0_6. entry. Qed.
Lemma cdkt_at_8_7 : cval env cdkt_269 = dkt_BDB E mu t xi eta xl 8%nat 7%nat.
Proof. unfold cdkt_269, cdkt_261, cdkt_260, cdkt_258, cdkt_203, cdkt_38, cdkt_3, cdkt_2, cdkt_1, cdkt_0. cbn [cval]. rewrite ?cdkt_B_2_8, ?cdkt_B_2_7, ?cdkt_B_1_7, ?cdkt_B_0_8, ?cdkt_B_1_8, ?cdkt_B_0_7. entry. Qed.
Lemma cdkt_at_8_8 : cval env cdkt_270 = dkt_BDB E mu t xi eta xl 8%nat 8%nat.
Proof. unfold cdkt_270, cdkt_261, cdkt_260, cdkt_38, cdkt_3, cdkt_2, cdkt_1, cdkt_0. cbn [cval]. rewrite ?cdkt_B_2_8, ?cdkt_B_1_8, ?cdkt_B_0_8. entry. Qed.

Lemma cdkt_entries : forall i j, (i < 9)%nat -> (j < 9)%nat ->
  vnth (map (cval env) cdkt_code) (9 * i + j) = dkt_BDB E mu t xi eta xl i j.
Proof.
  intros i j Hi Hj. rewrite vnth_cval by (cbn [length cdkt_code]; lia).
  destruct i as [|[|[|[|[|[|[|[|[|i]]]]]]]]]; try (exfalso; lia); destruct j as [|[|[|[|[|[|[|[|[|j]]]]]]]]]; try (exfalso; lia);
    cbn [nth cdkt_code Nat.mul Nat.add].

  - exact cdkt_at_0_0.
  - exact cdkt_at_0_1.
  - exact cdkt_at_0_2.
  - exact cdkt_at_0_3.
  - exact cdkt_at_0_4.
  - exact cdkt_at_0_5.
  - exact cdkt_at_0_6.
  - exact cdkt_at_0_7.
  - exact cdkt_at_0_8.
  - exact cdkt_at_1_0.
  - exact cdkt_at_1_1.
  - exact cdkt_at_1_2.
  - exact cdkt_at_1_3.
  - exact cdkt_at_1_4.
  - exact cdkt_at_1_5.
  - exact cdkt_at_1_6.
  - exact cdkt_at_1_7.
  - exact cdkt_at_1_8.
  - exact cdkt_at_2_0.
  - exact cdkt_at_2_1.
  - exact cdkt_at_2_2.
  - exact cdkt_at_2_3.
  - exact cdkt_at_2_4.
  - exact cdkt_at_2_5.
  - exact cdkt_at_2_6.
  - exact cdkt_at_2_7.
  - exact cdkt_at_2_8.
  - exact cdkt_at_3_0.
  - exact cdkt_at_3_1.
  - exact cdkt_at_3_2.
  - exact cdkt_at_3_3.
  - exact cdkt_at_3_4.
  - exact cdkt_at_3_5.
  - exact cdkt_at_3_6.
  - exact cdkt_at_3_7.
  - exact cdkt_at_3_8.
  - exact cdkt_at_4_0.
  - exact cdkt_at_4_1.
  - exact cdkt_at_4_2.
  - exact cdkt_at_4_3.
  - exact cdkt_at_4_4.
  - exact cdkt_at_4_5.
  - exact cdkt_at_4_6.
  - exact cdkt_at_4_7.
  - exact cdkt_at_4_8.
  - exact cdkt_at_5_0.
  - exact cdkt_at_5_1.
  - exact cdkt_at_5_2.
  - exact cdkt_at_5_3.
  - exact cdkt_at_5_4.
  - exact cdkt_at_5_5.
  - exact cdkt_at_5_6.
  - exact cdkt_at_5_7.
  - exact cdkt_at_5_8.
  - exact cdkt_at_6_0.
  - exact cdkt_at_6_1.
  - exact cdkt_at_6_2.
  - exact cdkt_at_6_3.
  - exact cdkt_at_6_4.
  - exact cdkt_at_6_5.
  - exact cdkt_at_6_6.
  - exact cdkt_at_6_7.
  - exact cdkt_at_6_8.
  - exact cdkt_at_7_0.
  - exact cdkt_at_7_1.
  - exact cdkt_at_7_2.
  - exact cdkt_at_7_3.
  - exact cdkt_at_7_4.
  - exact cdkt_at_7_5.
  - exact cdkt_at_7_6.
  - exact cdkt_at_7_7.
  - exact cdkt_at_7_8.
  - exact cdkt_at_8_0.
  - exact cdkt_at_8_1.
  - exact cdkt_at_8_2.
  - exact cdkt_at_8_3.
  - exact cdkt_at_8_4.
  - exact cdkt_at_8_5.
  - exact cdkt_at_8_6.
  - exact cdkt_at_8_7.
  - exact cdkt_at_8_8.
Qed.
End Entries.
