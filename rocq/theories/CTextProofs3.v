(** The C code of the membrane of quadrilaterals. *)
From Coq Require Import Reals List Arith ZArith Bool Lra Lia.
From Verif Require Import Base Csys Sections Element Kernels CText CTextFacts CTextGQ12.
Import ListNotations.
Local Open Scope R_scope.

Lemma cgq_divs : divs_among [CInt 2; cgq_20; cgq_23; CInt 8; CInt 4] cgq_code = true.
Proof. vm_compute. reflexivity. Qed.
Lemma gq_form : forall E mu t xi eta xl i j, gq12_BDB E mu t xi eta xl i j
  = t * (E / (1 - mu^2) * (gq_B xl xi eta 0%nat i * gq_B xl xi eta 0%nat j
      + mu * (gq_B xl xi eta 0%nat i * gq_B xl xi eta 1%nat j + gq_B xl xi eta 1%nat i * gq_B xl xi eta 0%nat j)
      + gq_B xl xi eta 1%nat i * gq_B xl xi eta 1%nat j + (1 - mu) / 2 * (gq_B xl xi eta 2%nat i * gq_B xl xi eta 2%nat j)))
    * det2 (gq_J xl xi eta).
Proof. intros. unfold gq12_BDB. rewrite plane_form. reflexivity. Qed.

Section Entries.
Variables E mu t xi eta : R.
Variable xl : list R.
Hypothesis Hm : 1 - mu^2 <> 0.
Hypothesis HJ : det2 (gq_J xl xi eta) <> 0.
Let env := call_with E mu t xi eta xl.
Local Ltac model :=
  cbn [rsum ev dxi deta gq_N0]; unfold xi0, eta0, cx, cy; cbn [nth Nat.mul Nat.add Nat.sub].

Lemma cgq_den : cval env cgq_20 = det2 (gq_J xl xi eta).
Proof. unfold cgq_20, cgq_19, cgq_18, cgq_17, cgq_16, cgq_15, cgq_14, cgq_13, cgq_12, cgq_10, cgq_9, cgq_8, cgq_7, cgq_6, cgq_5, cgq_4, cgq_3, cgq_2, cgq_1, env. cbn [cval call_with]. unfold det2, gq_J. model. field. Qed.
Lemma cgq_fac : cval env cgq_39 = det2 (gq_J xl xi eta).
Proof. unfold cgq_39, cgq_38, cgq_37, cgq_36, cgq_35, cgq_34, cgq_33, cgq_32, cgq_31, cgq_30, cgq_29, cgq_28, cgq_27, env. cbn [cval call_with]. unfold det2, gq_J. model. field. Qed.
Lemma cgq_mu : cval env cgq_23 = 1 - mu^2.
Proof. reflexivity. Qed.
Local Ltac atom :=
  cbn [cval]; rewrite ?cgq_den; unfold env; cbn [call_with];
  unfold gq_B, gq_ddx, gq_ddy; set (D := det2 (gq_J xl xi eta)) in *;
  unfold gq_J, gq_N; cbn [Nat.div Nat.modulo Nat.divmod fst snd Nat.sub];
  unfold gq_Nut, gq_Nvt, gq_bracket; model; unfold gq_a1, gq_a2, gq_a3, gq_b1, gq_b2, gq_b3; model; field; auto.

Lemma cgq_B_1_1 : cval env cgq_21 = gq_B xl xi eta 1%nat 1%nat.
Proof. unfold cgq_21, cgq_15, cgq_14, cgq_13, cgq_12, cgq_11, cgq_10, cgq_9, cgq_8, cgq_7, cgq_6, cgq_5, cgq_4, cgq_3, cgq_2, cgq_1. atom. Qed.
Lemma cgq_B_2_0 : cval env cgq_21 = gq_B xl xi eta 2%nat 0%nat.
Proof. unfold cgq_21, cgq_15, cgq_14, cgq_13, cgq_12, cgq_11, cgq_10, cgq_9, cgq_8, cgq_7, cgq_6, cgq_5, cgq_4, cgq_3, cgq_2, cgq_1. atom. Qed.
Lemma cgq_B_0_0 : cval env cgq_25 = gq_B xl xi eta 0%nat 0%nat.
Proof. unfold cgq_25, cgq_24, cgq_19, cgq_18, cgq_17, cgq_16, cgq_14, cgq_13, cgq_12, cgq_9, cgq_7, cgq_5, cgq_4, cgq_3, cgq_2, cgq_1. atom. Qed.
Lemma cgq_B_2_1 : cval env cgq_25 = gq_B xl xi eta 2%nat 1%nat.
Proof. unfold cgq_25, cgq_24, cgq_19, cgq_18, cgq_17, cgq_16, cgq_14, cgq_13, cgq_12, cgq_9, cgq_7, cgq_5, cgq_4, cgq_3, cgq_2, cgq_1. atom. Qed.
Lemma cgq_B_1_2 : cval env cgq_68 = gq_B xl xi eta 1%nat 2%nat.
Proof. unfold cgq_68, cgq_67, cgq_66, cgq_65, cgq_64, cgq_63, cgq_62, cgq_61, cgq_60, cgq_59, cgq_58, cgq_57, cgq_56, cgq_55, cgq_54, cgq_53, cgq_52, cgq_51, cgq_50, cgq_49, cgq_48, cgq_47, cgq_46, cgq_15, cgq_14, cgq_13, cgq_12, cgq_11, cgq_10, cgq_9, cgq_8, cgq_7, cgq_6, cgq_5, cgq_4, cgq_3, cgq_2, cgq_1. atom. Qed.
Lemma cgq_B_2_2 : cval env cgq_80 = gq_B xl xi eta 2%nat 2%nat.
Proof. unfold cgq_80, cgq_79, cgq_78, cgq_77, cgq_76, cgq_75, cgq_74, cgq_73, cgq_72, cgq_71, cgq_70, cgq_69, cgq_67, cgq_66, cgq_65, cgq_64, cgq_63, cgq_62, cgq_61, cgq_60, cgq_59, cgq_58, cgq_57, cgq_56, cgq_55, cgq_54, cgq_53, cgq_52, cgq_51, cgq_50, cgq_49, cgq_48, cgq_47, cgq_46, cgq_24, cgq_19, cgq_18, cgq_17, cgq_16, cgq_15, cgq_14, cgq_13, cgq_12, cgq_11, cgq_10, cgq_9, cgq_8, cgq_7, cgq_6, cgq_5, cgq_4, cgq_3, cgq_2, cgq_1. atom. Qed.
Lemma cgq_B_0_2 : cval env cgq_83 = gq_B xl xi eta 0%nat 2%nat.
Proof. unfold cgq_83, cgq_79, cgq_78, cgq_77, cgq_76, cgq_75, cgq_74, cgq_73, cgq_72, cgq_71, cgq_70, cgq_69, cgq_65, cgq_63, cgq_61, cgq_55, cgq_54, cgq_53, cgq_52, cgq_47, cgq_46, cgq_24, cgq_19, cgq_18, cgq_17, cgq_16, cgq_14, cgq_13, cgq_12, cgq_9, cgq_7, cgq_5, cgq_4, cgq_3, cgq_2, cgq_1. atom. Qed.
Lemma cgq_B_1_4 : cval env cgq_85 = gq_B xl xi eta 1%nat 4%nat.
Proof. unfold cgq_85, cgq_15, cgq_14, cgq_13, cgq_12, cgq_11, cgq_10, cgq_9, cgq_8, cgq_7, cgq_6, cgq_5, cgq_4, cgq_3, cgq_2, cgq_1. atom. Qed.
Lemma cgq_B_2_3 : cval env cgq_85 = gq_B xl xi eta 2%nat 3%nat.
Proof. unfold cgq_85, cgq_15, cgq_14, cgq_13, cgq_12, cgq_11, cgq_10, cgq_9, cgq_8, cgq_7, cgq_6, cgq_5, cgq_4, cgq_3, cgq_2, cgq_1. atom. Qed.
Lemma cgq_B_0_3 : cval env cgq_86 = gq_B xl xi eta 0%nat 3%nat.
Proof. unfold cgq_86, cgq_24, cgq_19, cgq_18, cgq_17, cgq_16, cgq_14, cgq_13, cgq_12, cgq_9, cgq_7, cgq_5, cgq_4, cgq_3, cgq_2, cgq_1. atom. Qed.
Lemma cgq_B_2_4 : cval env cgq_86 = gq_B xl xi eta 2%nat 4%nat.
Proof. unfold cgq_86, cgq_24, cgq_19, cgq_18, cgq_17, cgq_16, cgq_14, cgq_13, cgq_12, cgq_9, cgq_7, cgq_5, cgq_4, cgq_3, cgq_2, cgq_1. atom. Qed.
Lemma cgq_B_1_5 : cval env cgq_98 = gq_B xl xi eta 1%nat 5%nat.
Proof. unfold cgq_98, cgq_97, cgq_96, cgq_95, cgq_94, cgq_93, cgq_92, cgq_91, cgq_90, cgq_89, cgq_78, cgq_63, cgq_60, cgq_55, cgq_54, cgq_53, cgq_52, cgq_51, cgq_50, cgq_49, cgq_48, cgq_47, cgq_15, cgq_14, cgq_13, cgq_12, cgq_11, cgq_10, cgq_9, cgq_8, cgq_7, cgq_6, cgq_5, cgq_4, cgq_3, cgq_2, cgq_1. atom. Qed.
Lemma cgq_B_2_5 : cval env cgq_106 = gq_B xl xi eta 2%nat 5%nat.
Proof. unfold cgq_106, cgq_105, cgq_104, cgq_103, cgq_102, cgq_101, cgq_100, cgq_99, cgq_97, cgq_96, cgq_95, cgq_94, cgq_93, cgq_92, cgq_91, cgq_90, cgq_89, cgq_78, cgq_76, cgq_71, cgq_70, cgq_69, cgq_65, cgq_64, cgq_63, cgq_60, cgq_55, cgq_54, cgq_53, cgq_52, cgq_51, cgq_50, cgq_49, cgq_48, cgq_47, cgq_24, cgq_19, cgq_18, cgq_17, cgq_16, cgq_15, cgq_14, cgq_13, cgq_12, cgq_11, cgq_10, cgq_9, cgq_8, cgq_7, cgq_6, cgq_5, cgq_4, cgq_3, cgq_2, cgq_1. atom. Qed.
Lemma cgq_B_0_5 : cval env cgq_108 = gq_B xl xi eta 0%nat 5%nat.
Proof. unfold cgq_108, cgq_105, cgq_104, cgq_103, cgq_102, cgq_101, cgq_100, cgq_99, cgq_94, cgq_89, cgq_76, cgq_71, cgq_70, cgq_69, cgq_65, cgq_64, cgq_63, cgq_55, cgq_54, cgq_53, cgq_52, cgq_47, cgq_24, cgq_19, cgq_18, cgq_17, cgq_16, cgq_14, cgq_13, cgq_12, cgq_9, cgq_7, cgq_5, cgq_4, cgq_3, cgq_2, cgq_1. atom. Qed.
Lemma cgq_B_1_7 : cval env cgq_110 = gq_B xl xi eta 1%nat 7%nat.
Proof. unfold cgq_110, cgq_15, cgq_14, cgq_13, cgq_12, cgq_11, cgq_10, cgq_9, cgq_8, cgq_7, cgq_6, cgq_5, cgq_4, cgq_3, cgq_2, cgq_1. atom. Qed.
Lemma cgq_B_2_6 : cval env cgq_110 = gq_B xl xi eta 2%nat 6%nat.
Proof. unfold cgq_110, cgq_15, cgq_14, cgq_13, cgq_12, cgq_11, cgq_10, cgq_9, cgq_8, cgq_7, cgq_6, cgq_5, cgq_4, cgq_3, cgq_2, cgq_1. atom. Qed.
Lemma cgq_B_0_6 : cval env cgq_111 = gq_B xl xi eta 0%nat 6%nat.
Proof. unfold cgq_111, cgq_24, cgq_19, cgq_18, cgq_17, cgq_16, cgq_14, cgq_13, cgq_12, cgq_9, cgq_7, cgq_5, cgq_4, cgq_3, cgq_2, cgq_1. atom. Qed.
Lemma cgq_B_2_7 : cval env cgq_111 = gq_B xl xi eta 2%nat 7%nat.
Proof. unfold cgq_111, cgq_24, cgq_19, cgq_18, cgq_17, cgq_16, cgq_14, cgq_13, cgq_12, cgq_9, cgq_7, cgq_5, cgq_4, cgq_3, cgq_2, cgq_1. atom. Qed.
Lemma cgq_B_1_8 : cval env cgq_118 = gq_B xl xi eta 1%nat 8%nat.
Proof. unfold cgq_118, cgq_117, cgq_116, cgq_115, cgq_114, cgq_96, cgq_95, cgq_94, cgq_92, cgq_91, cgq_90, cgq_89, cgq_64, cgq_63, cgq_60, cgq_56, cgq_55, cgq_54, cgq_53, cgq_52, cgq_50, cgq_48, cgq_15, cgq_14, cgq_13, cgq_12, cgq_11, cgq_10, cgq_9, cgq_8, cgq_7, cgq_6, cgq_5, cgq_4, cgq_3, cgq_2, cgq_1. atom. Qed.
Lemma cgq_B_2_8 : cval env cgq_123 = gq_B xl xi eta 2%nat 8%nat.
Proof. unfold cgq_123, cgq_122, cgq_121, cgq_120, cgq_119, cgq_117, cgq_116, cgq_115, cgq_114, cgq_104, cgq_103, cgq_101, cgq_100, cgq_99, cgq_96, cgq_95, cgq_94, cgq_92, cgq_91, cgq_90, cgq_89, cgq_78, cgq_76, cgq_72, cgq_70, cgq_65, cgq_64, cgq_63, cgq_60, cgq_56, cgq_55, cgq_54, cgq_53, cgq_52, cgq_50, cgq_48, cgq_24, cgq_19, cgq_18, cgq_17, cgq_16, cgq_15, cgq_14, cgq_13, cgq_12, cgq_11, cgq_10, cgq_9, cgq_8, cgq_7, cgq_6, cgq_5, cgq_4, cgq_3, cgq_2, cgq_1. atom. Qed.
Lemma cgq_B_0_8 : cval env cgq_125 = gq_B xl xi eta 0%nat 8%nat.
Proof. unfold cgq_125, cgq_122, cgq_121, cgq_120, cgq_119, cgq_104, cgq_103, cgq_101, cgq_100, cgq_99, cgq_94, cgq_89, cgq_78, cgq_76, cgq_72, cgq_70, cgq_65, cgq_63, cgq_55, cgq_54, cgq_53, cgq_52, cgq_24, cgq_19, cgq_18, cgq_17, cgq_16, cgq_14, cgq_13, cgq_12, cgq_9, cgq_7, cgq_5, cgq_4, cgq_3, cgq_2, cgq_1. atom. Qed.
Lemma cgq_B_1_10 : cval env cgq_127 = gq_B xl xi eta 1%nat 10%nat.
Proof. unfold cgq_127, cgq_15, cgq_14, cgq_13, cgq_12, cgq_11, cgq_10, cgq_9, cgq_8, cgq_7, cgq_6, cgq_5, cgq_4, cgq_3, cgq_2, cgq_1. atom. Qed.
Lemma cgq_B_2_9 : cval env cgq_127 = gq_B xl xi eta 2%nat 9%nat.
Proof. unfold cgq_127, cgq_15, cgq_14, cgq_13, cgq_12, cgq_11, cgq_10, cgq_9, cgq_8, cgq_7, cgq_6, cgq_5, cgq_4, cgq_3, cgq_2, cgq_1. atom. Qed.
Lemma cgq_B_0_9 : cval env cgq_128 = gq_B xl xi eta 0%nat 9%nat.
Proof. unfold cgq_128, cgq_24, cgq_19, cgq_18, cgq_17, cgq_16, cgq_14, cgq_13, cgq_12, cgq_9, cgq_7, cgq_5, cgq_4, cgq_3, cgq_2, cgq_1. atom. Qed.
Lemma cgq_B_2_10 : cval env cgq_128 = gq_B xl xi eta 2%nat 10%nat.
Proof. unfold cgq_128, cgq_24, cgq_19, cgq_18, cgq_17, cgq_16, cgq_14, cgq_13, cgq_12, cgq_9, cgq_7, cgq_5, cgq_4, cgq_3, cgq_2, cgq_1. atom. Qed.
Lemma cgq_B_1_11 : cval env cgq_133 = gq_B xl xi eta 1%nat 11%nat.
Proof. unfold cgq_133, cgq_132, cgq_131, cgq_115, cgq_114, cgq_90, cgq_78, cgq_66, cgq_65, cgq_63, cgq_62, cgq_61, cgq_60, cgq_58, cgq_57, cgq_56, cgq_55, cgq_54, cgq_53, cgq_52, cgq_46, cgq_15, cgq_14, cgq_13, cgq_12, cgq_11, cgq_10, cgq_9, cgq_8, cgq_7, cgq_6, cgq_5, cgq_4, cgq_3, cgq_2, cgq_1. atom. Qed.
Lemma cgq_B_2_11 : cval env cgq_136 = gq_B xl xi eta 2%nat 11%nat.
Proof. unfold cgq_136, cgq_135, cgq_134, cgq_132, cgq_131, cgq_120, cgq_119, cgq_115, cgq_114, cgq_99, cgq_90, cgq_78, cgq_77, cgq_76, cgq_74, cgq_73, cgq_72, cgq_66, cgq_65, cgq_64, cgq_63, cgq_62, cgq_61, cgq_60, cgq_58, cgq_57, cgq_56, cgq_55, cgq_54, cgq_53, cgq_52, cgq_46, cgq_24, cgq_19, cgq_18, cgq_17, cgq_16, cgq_15, cgq_14, cgq_13, cgq_12, cgq_11, cgq_10, cgq_9, cgq_8, cgq_7, cgq_6, cgq_5, cgq_4, cgq_3, cgq_2, cgq_1. atom. Qed.
Lemma cgq_B_0_11 : cval env cgq_138 = gq_B xl xi eta 0%nat 11%nat.
Proof. unfold cgq_138, cgq_135, cgq_134, cgq_120, cgq_119, cgq_99, cgq_77, cgq_76, cgq_74, cgq_73, cgq_72, cgq_65, cgq_64, cgq_63, cgq_61, cgq_55, cgq_54, cgq_53, cgq_52, cgq_46, cgq_24, cgq_19, cgq_18, cgq_17, cgq_16, cgq_14, cgq_13, cgq_12, cgq_9, cgq_7, cgq_5, cgq_4, cgq_3, cgq_2, cgq_1. atom. Qed.
Lemma cgq_B_0_1 : gq_B xl xi eta 0%nat 1%nat = 0.
Proof. unfold gq_B, gq_ddx, gq_ddy, gq_N; cbn [Nat.div Nat.modulo Nat.divmod fst snd Nat.sub ev dxi deta]. field; auto. Qed.
Lemma cgq_B_0_4 : gq_B xl xi eta 0%nat 4%nat = 0.
Proof. unfold gq_B, gq_ddx, gq_ddy, gq_N; cbn [Nat.div Nat.modulo Nat.divmod fst snd Nat.sub ev dxi deta]. field; auto. Qed.
Lemma cgq_B_0_7 : gq_B xl xi eta 0%nat 7%nat = 0.
Proof. unfold gq_B, gq_ddx, gq_ddy, gq_N; cbn [Nat.div Nat.modulo Nat.divmod fst snd Nat.sub ev dxi deta]. field; auto. Qed.
Lemma cgq_B_0_10 : gq_B xl xi eta 0%nat 10%nat = 0.
Proof. unfold gq_B, gq_ddx, gq_ddy, gq_N; cbn [Nat.div Nat.modulo Nat.divmod fst snd Nat.sub ev dxi deta]. field; auto. Qed.
Lemma cgq_B_1_0 : gq_B xl xi eta 1%nat 0%nat = 0.
Proof. unfold gq_B, gq_ddx, gq_ddy, gq_N; cbn [Nat.div Nat.modulo Nat.divmod fst snd Nat.sub ev dxi deta]. field; auto. Qed.
Lemma cgq_B_1_3 : gq_B xl xi eta 1%nat 3%nat = 0.
Proof. unfold gq_B, gq_ddx, gq_ddy, gq_N; cbn [Nat.div Nat.modulo Nat.divmod fst snd Nat.sub ev dxi deta]. field; auto. Qed.
Lemma cgq_B_1_6 : gq_B xl xi eta 1%nat 6%nat = 0.
Proof. unfold gq_B, gq_ddx, gq_ddy, gq_N; cbn [Nat.div Nat.modulo Nat.divmod fst snd Nat.sub ev dxi deta]. field; auto. Qed.
Lemma cgq_B_1_9 : gq_B xl xi eta 1%nat 9%nat = 0.
Proof. unfold gq_B, gq_ddx, gq_ddy, gq_N; cbn [Nat.div Nat.modulo Nat.divmod fst snd Nat.sub ev dxi deta]. field; auto. Qed.
Local Ltac entry := rewrite ?cgq_mu, ?cgq_fac; set (D := det2 (gq_J xl xi eta)) in *;
  unfold env; cbn [call_with]; fold env; field; auto.

Lemma cgq_at_0_0 : cval env cgq_40 = gq12_BDB E mu t xi eta xl 0%nat 0%nat.
Proof. unfold cgq_40, cgq_26, cgq_22, cgq_0. cbn [cval]. rewrite gq_form, <- cgq_B_0_0, cgq_B_1_0, <- cgq_B_2_0. entry. Qed.
Lemma cgq_at_0_1 : cval env cgq_44 = gq12_BDB E mu t xi eta xl 0%nat 1%nat.
Proof. unfold cgq_44, cgq_43, cgq_42, cgq_41, cgq_0. cbn [cval]. rewrite gq_form, <- cgq_B_0_0, cgq_B_0_1, cgq_B_1_0, <- cgq_B_1_1, <- cgq_B_2_0, <- cgq_B_2_1. entry. Qed.
Lemma cgq_at_0_2 : cval env cgq_84 = gq12_BDB E mu t xi eta xl 0%nat 2%nat.
Proof. unfold cgq_84, cgq_82, cgq_81, cgq_45, cgq_43, cgq_41, cgq_0. cbn [cval]. rewrite gq_form, <- cgq_B_0_0, <- cgq_B_0_2, cgq_B_1_0, <- cgq_B_1_2, <- cgq_B_2_0, <- cgq_B_2_2. entry. Qed.
Lemma cgq_at_0_3 : cval env cgq_87 = gq12_BDB E mu t xi eta xl 0%nat 3%nat.
Proof. unfold cgq_87, cgq_82, cgq_43, cgq_0. cbn [cval]. rewrite gq_form, <- cgq_B_0_0, <- cgq_B_0_3, cgq_B_1_0, cgq_B_1_3, <- cgq_B_2_0, <- cgq_B_2_3. entry. Qed.
Lemma cgq_at_0_4 : cval env cgq_88 = gq12_BDB E mu t xi eta xl 0%nat 4%nat.
Proof. unfold cgq_88, cgq_45, cgq_43, cgq_41, cgq_0. cbn [cval]. rewrite gq_form, <- cgq_B_0_0, cgq_B_0_4, cgq_B_1_0, <- cgq_B_1_4, <- cgq_B_2_0, <- cgq_B_2_4. entry. Qed.
Lemma cgq_at_0_5 : cval env cgq_109 = gq12_BDB E mu t xi eta xl 0%nat 5%nat.
Proof. unfold cgq_109, cgq_107, cgq_82, cgq_45, cgq_43, cgq_41, cgq_0. cbn [cval]. rewrite gq_form, <- cgq_B_0_0, <- cgq_B_0_5, cgq_B_1_0, <- cgq_B_1_5, <- cgq_B_2_0, <- cgq_B_2_5. entry. Qed.
Lemma cgq_at_0_6 : cval env cgq_112 = gq12_BDB E mu t xi eta xl 0%nat 6%nat.
Proof. unfold cgq_112, cgq_82, cgq_43, cgq_0. cbn [cval]. rewrite gq_form, <- cgq_B_0_0, <- cgq_B_0_6, cgq_B_1_0, cgq_B_1_6, <- cgq_B_2_0, <- cgq_B_2_6. entry. Qed.
Lemma cgq_at_0_7 : cval env cgq_113 = gq12_BDB E mu t xi eta xl 0%nat 7%nat.
Proof. unfold cgq_113, cgq_45, cgq_43, cgq_41, cgq_0. cbn [cval]. rewrite gq_form, <- cgq_B_0_0, cgq_B_0_7, cgq_B_1_0, <- cgq_B_1_7, <- cgq_B_2_0, <- cgq_B_2_7. entry. Qed.
Lemma cgq_at_0_8 : cval env cgq_126 = gq12_BDB E mu t xi eta xl 0%nat 8%nat.
Proof. unfold cgq_126, cgq_124, cgq_82, cgq_45, cgq_43, cgq_41, cgq_0. cbn [cval]. rewrite gq_form, <- cgq_B_0_0, <- cgq_B_0_8, cgq_B_1_0, <- cgq_B_1_8, <- cgq_B_2_0, <- cgq_B_2_8. entry. Qed.
Lemma cgq_at_0_9 : cval env cgq_129 = gq12_BDB E mu t xi eta xl 0%nat 9%nat.
Proof. unfold cgq_129, cgq_82, cgq_43, cgq_0. cbn [cval]. rewrite gq_form, <- cgq_B_0_0, <- cgq_B_0_9, cgq_B_1_0, cgq_B_1_9, <- cgq_B_2_0, <- cgq_B_2_9. entry. Qed.
Lemma cgq_at_0_10 : cval env cgq_130 = gq12_BDB E mu t xi eta xl 0%nat 10%nat.
Proof. unfold cgq_130, cgq_45, cgq_43, cgq_41, cgq_0. cbn [cval]. rewrite gq_form, <- cgq_B_0_0, cgq_B_0_10, cgq_B_1_0, <- cgq_B_1_10, <- cgq_B_2_0, <- cgq_B_2_10. entry. Qed.
Lemma cgq_at_0_11 : cval env cgq_139 = gq12_BDB E mu t xi eta xl 0%nat 11%nat.
Proof. unfold cgq_139, cgq_137, cgq_82, cgq_45, cgq_43, cgq_41, cgq_0. cbn [cval]. rewrite gq_form, <- cgq_B_0_0, <- cgq_B_0_11, cgq_B_1_0, <- cgq_B_1_11, <- cgq_B_2_0, <- cgq_B_2_11. entry. Qed.
Lemma cgq_at_1_0 : cval env cgq_44 = gq12_BDB E mu t xi eta xl 1%nat 0%nat.
Proof. unfold cgq_44, cgq_43, cgq_42, cgq_41, cgq_0. cbn [cval]. rewrite gq_form, <- cgq_B_0_0, cgq_B_0_1, cgq_B_1_0, <- cgq_B_1_1, <- cgq_B_2_0, <- cgq_B_2_1. entry. Qed.
Lemma cgq_at_1_1 : cval env cgq_140 = gq12_BDB E mu t xi eta xl 1%nat 1%nat.
Proof. unfold cgq_140, cgq_26, cgq_22, cgq_0. cbn [cval]. rewrite gq_form, cgq_B_0_1, <- cgq_B_1_1, <- cgq_B_2_1. entry. Qed.
Lemma cgq_at_1_2 : cval env cgq_144 = gq12_BDB E mu t xi eta xl 1%nat 2%nat.
Proof. unfold cgq_144, cgq_143, cgq_142, cgq_141, cgq_42, cgq_41, cgq_0. cbn [cval]. rewrite gq_form, cgq_B_0_1, <- cgq_B_0_2, <- cgq_B_1_1, <- cgq_B_1_2, <- cgq_B_2_1, <- cgq_B_2_2. entry. Qed.
Lemma cgq_at_1_3 : cval env cgq_145 = gq12_BDB E mu t xi eta xl 1%nat 3%nat.
Proof. unfold cgq_145, cgq_141, cgq_42, cgq_41, cgq_0. cbn [cval]. rewrite gq_form, cgq_B_0_1, <- cgq_B_0_3, <- cgq_B_1_1, cgq_B_1_3, <- cgq_B_2_1, <- cgq_B_2_3. entry. Qed.
Lemma cgq_at_1_4 : cval env cgq_146 = gq12_BDB E mu t xi eta xl 1%nat 4%nat.
Proof. unfold cgq_146, cgq_143, cgq_141, cgq_0. cbn [cval]. rewrite gq_form, cgq_B_0_1, cgq_B_0_4, <- cgq_B_1_1, <- cgq_B_1_4, <- cgq_B_2_1, <- cgq_B_2_4. entry. Qed.
Lemma cgq_at_1_5 : cval env cgq_148 = gq12_BDB E mu t xi eta xl 1%nat 5%nat.
Proof. unfold cgq_148, cgq_147, cgq_143, cgq_141, cgq_42, cgq_41, cgq_0. cbn [cval]. rewrite gq_form, cgq_B_0_1, <- cgq_B_0_5, <- cgq_B_1_1, <- cgq_B_1_5, <- cgq_B_2_1, <- cgq_B_2_5. entry. Qed.
Lemma cgq_at_1_6 : cval env cgq_149 = gq12_BDB E mu t xi eta xl 1%nat 6%nat.
Proof. unfold cgq_149, cgq_141, cgq_42, cgq_41, cgq_0. cbn [cval]. rewrite gq_form, cgq_B_0_1, <- cgq_B_0_6, <- cgq_B_1_1, cgq_B_1_6, <- cgq_B_2_1, <- cgq_B_2_6. entry. Qed.
Lemma cgq_at_1_7 : cval env cgq_150 = gq12_BDB E mu t xi eta xl 1%nat 7%nat.
Proof. unfold cgq_150, cgq_143, cgq_141, cgq_0. cbn [cval]. rewrite gq_form, cgq_B_0_1, cgq_B_0_7, <- cgq_B_1_1, <- cgq_B_1_7, <- cgq_B_2_1, <- cgq_B_2_7. entry. Qed.
Lemma cgq_at_1_8 : cval env cgq_152 = gq12_BDB E mu t xi eta xl 1%nat 8%nat.
Proof. unfold cgq_152, cgq_151, cgq_143, cgq_141, cgq_42, cgq_41, cgq_0. cbn [cval]. rewrite gq_form, cgq_B_0_1, <- cgq_B_0_8, <- cgq_B_1_1, <- cgq_B_1_8, <- cgq_B_2_1, <- cgq_B_2_8. entry. Qed.
Lemma cgq_at_1_9 : cval env cgq_153 = gq12_BDB E mu t xi eta xl 1%nat 9%nat.
Proof. unfold cgq_153, cgq_141, cgq_42, cgq_41, cgq_0. cbn [cval]. rewrite gq_form, cgq_B_0_1, <- cgq_B_0_9, <- cgq_B_1_1, cgq_B_1_9, <- cgq_B_2_1, <- cgq_B_2_9. entry. Qed.
Lemma cgq_at_1_10 : cval env cgq_154 = gq12_BDB E mu t xi eta xl 1%nat 10%nat.
Proof. unfold cgq_154, cgq_143, cgq_141, cgq_0. cbn [cval]. rewrite gq_form, cgq_B_0_1, cgq_B_0_10, <- cgq_B_1_1, <- cgq_B_1_10, <- cgq_B_2_1, <- cgq_B_2_10. entry. Qed.
Lemma cgq_at_1_11 : cval env cgq_156 = gq12_BDB E mu t xi eta xl 1%nat 11%nat.
Proof. unfold cgq_156, cgq_155, cgq_143, cgq_141, cgq_42, cgq_41, cgq_0. cbn [cval]. rewrite gq_form, cgq_B_0_1, <- cgq_B_0_11, <- cgq_B_1_1, <- cgq_B_1_11, <- cgq_B_2_1, <- cgq_B_2_11. entry. Qed.
Lemma cgq_at_2_0 : cval env cgq_158 = gq12_BDB E mu t xi eta xl 2%nat 0%nat.
Proof. unfold cgq_158, cgq_157, cgq_81, cgq_43, cgq_41, cgq_0. cbn [cval]. rewrite gq_form, <- cgq_B_0_0, <- cgq_B_0_2, cgq_B_1_0, <- cgq_B_1_2, <- cgq_B_2_0, <- cgq_B_2_2. entry. Qed.
Lemma cgq_at_2_1 : cval env cgq_160 = gq12_BDB E mu t xi eta xl 2%nat 1%nat.
Proof. unfold cgq_160, cgq_159, cgq_142, cgq_141, cgq_41, cgq_0. cbn [cval]. rewrite gq_form, cgq_B_0_1, <- cgq_B_0_2, <- cgq_B_1_1, <- cgq_B_1_2, <- cgq_B_2_1, <- cgq_B_2_2. entry. Qed.
Lemma cgq_at_2_2 : cval env cgq_161 = gq12_BDB E mu t xi eta xl 2%nat 2%nat.
Proof. unfold cgq_161, cgq_159, cgq_157, cgq_41, cgq_0. cbn [cval]. rewrite gq_form, <- cgq_B_0_2, <- cgq_B_1_2, <- cgq_B_2_2. entry. Qed.
Lemma cgq_at_2_3 : cval env cgq_164 = gq12_BDB E mu t xi eta xl 2%nat 3%nat.
Proof. unfold cgq_164, cgq_163, cgq_162, cgq_157, cgq_41, cgq_0. cbn [cval]. rewrite gq_form, <- cgq_B_0_2, <- cgq_B_0_3, <- cgq_B_1_2, cgq_B_1_3, <- cgq_B_2_2, <- cgq_B_2_3. entry. Qed.
Lemma cgq_at_2_4 : cval env cgq_167 = gq12_BDB E mu t xi eta xl 2%nat 4%nat.
Proof. unfold cgq_167, cgq_166, cgq_165, cgq_159, cgq_41, cgq_0. cbn [cval]. rewrite gq_form, <- cgq_B_0_2, cgq_B_0_4, <- cgq_B_1_2, <- cgq_B_1_4, <- cgq_B_2_2, <- cgq_B_2_4. entry. Qed.
Lemma cgq_at_2_5 : cval env cgq_169 = gq12_BDB E mu t xi eta xl 2%nat 5%nat.
Proof. unfold cgq_169, cgq_168, cgq_159, cgq_157, cgq_41, cgq_0. cbn [cval]. rewrite gq_form, <- cgq_B_0_2, <- cgq_B_0_5, <- cgq_B_1_2, <- cgq_B_1_5, <- cgq_B_2_2, <- cgq_B_2_5. entry. Qed.
Lemma cgq_at_2_6 : cval env cgq_172 = gq12_BDB E mu t xi eta xl 2%nat 6%nat.
Proof. unfold cgq_172, cgq_171, cgq_170, cgq_157, cgq_41, cgq_0. cbn [cval]. rewrite gq_form, <- cgq_B_0_2, <- cgq_B_0_6, <- cgq_B_1_2, cgq_B_1_6, <- cgq_B_2_2, <- cgq_B_2_6. entry. Qed.
Lemma cgq_at_2_7 : cval env cgq_175 = gq12_BDB E mu t xi eta xl 2%nat 7%nat.
Proof. unfold cgq_175, cgq_174, cgq_173, cgq_159, cgq_41, cgq_0. cbn [cval]. rewrite gq_form, <- cgq_B_0_2, cgq_B_0_7, <- cgq_B_1_2, <- cgq_B_1_7, <- cgq_B_2_2, <- cgq_B_2_7. entry. Qed.
Lemma cgq_at_2_8 : cval env cgq_178 = gq12_BDB E mu t xi eta xl 2%nat 8%nat.
Proof. unfold cgq_178, cgq_177, cgq_176, cgq_159, cgq_157, cgq_41, cgq_0. cbn [cval]. rewrite gq_form, <- cgq_B_0_2, <- cgq_B_0_8, <- cgq_B_1_2, <- cgq_B_1_8, <- cgq_B_2_2, <- cgq_B_2_8. entry. Qed.
Lemma cgq_at_2_9 : cval env cgq_181 = gq12_BDB E mu t xi eta xl 2%nat 9%nat.
Proof. unfold cgq_181, cgq_180, cgq_179, cgq_157, cgq_41, cgq_0. cbn [cval]. rewrite gq_form, <- cgq_B_0_2, <- cgq_B_0_9, <- cgq_B_1_2, cgq_B_1_9, <- cgq_B_2_2, <- cgq_B_2_9. entry. Qed.
Lemma cgq_at_2_10 : cval env cgq_184 = gq12_BDB E mu t xi eta xl 2%nat 10%nat.
Proof. unfold cgq_184, cgq_183, cgq_182, cgq_159, cgq_41, cgq_0. cbn [cval]. rewrite gq_form, <- cgq_B_0_2, cgq_B_0_10, <- cgq_B_1_2, <- cgq_B_1_10, <- cgq_B_2_2, <- cgq_B_2_10. entry. Qed.
Lemma cgq_at_2_11 : cval env cgq_187 = gq12_BDB E mu t xi eta xl 2%nat 11%nat.
Proof. unfold cgq_187, cgq_186, cgq_185, cgq_159, cgq_157, cgq_41, cgq_0. cbn [cval]. rewrite gq_form, <- cgq_B_0_2, <- cgq_B_0_11, <- cgq_B_1_2, <- cgq_B_1_11, <- cgq_B_2_2, <- cgq_B_2_11. entry. Qed.
Lemma cgq_at_3_0 : cval env cgq_87 = gq12_BDB E mu t xi eta xl 3%nat 0%nat.
Proof. unfold cgq_87, cgq_82, cgq_43, cgq_0. cbn [cval]. rewrite gq_form, <- cgq_B_0_0, <- cgq_B_0_3, cgq_B_1_0, cgq_B_1_3, <- cgq_B_2_0, <- cgq_B_2_3. entry. Qed.
Lemma cgq_at_3_1 : cval env cgq_145 = gq12_BDB E mu t xi eta xl 3%nat 1%nat.
Proof. unfold cgq_145, cgq_141, cgq_42, cgq_41, cgq_0. cbn [cval]. rewrite gq_form, cgq_B_0_1, <- cgq_B_0_3, <- cgq_B_1_1, cgq_B_1_3, <- cgq_B_2_1, <- cgq_B_2_3. entry. Qed.
Lemma cgq_at_3_2 : cval env cgq_190 = gq12_BDB E mu t xi eta xl 3%nat 2%nat.
Proof. unfold cgq_190, cgq_189, cgq_188, cgq_163, cgq_162, cgq_41, cgq_0. cbn [cval]. rewrite gq_form, <- cgq_B_0_2, <- cgq_B_0_3, <- cgq_B_1_2, cgq_B_1_3, <- cgq_B_2_2, <- cgq_B_2_3. entry. Qed.
Lemma cgq_at_3_3 : cval env cgq_193 = gq12_BDB E mu t xi eta xl 3%nat 3%nat.
Proof. unfold cgq_193, cgq_192, cgq_191, cgq_0. cbn [cval]. rewrite gq_form, <- cgq_B_0_3, cgq_B_1_3, <- cgq_B_2_3. entry. Qed.
Lemma cgq_at_3_4 : cval env cgq_195 = gq12_BDB E mu t xi eta xl 3%nat 4%nat.
Proof. unfold cgq_195, cgq_194, cgq_162, cgq_41, cgq_0. cbn [cval]. rewrite gq_form, <- cgq_B_0_3, cgq_B_0_4, cgq_B_1_3, <- cgq_B_1_4, <- cgq_B_2_3, <- cgq_B_2_4. entry. Qed.
Lemma cgq_at_3_5 : cval env cgq_197 = gq12_BDB E mu t xi eta xl 3%nat 5%nat.
Proof. unfold cgq_197, cgq_196, cgq_189, cgq_188, cgq_162, cgq_41, cgq_0. cbn [cval]. rewrite gq_form, <- cgq_B_0_3, <- cgq_B_0_5, cgq_B_1_3, <- cgq_B_1_5, <- cgq_B_2_3, <- cgq_B_2_5. entry. Qed.
Lemma cgq_at_3_6 : cval env cgq_199 = gq12_BDB E mu t xi eta xl 3%nat 6%nat.
Proof. unfold cgq_199, cgq_198, cgq_170, cgq_0. cbn [cval]. rewrite gq_form, <- cgq_B_0_3, <- cgq_B_0_6, cgq_B_1_3, cgq_B_1_6, <- cgq_B_2_3, <- cgq_B_2_6. entry. Qed.
Lemma cgq_at_3_7 : cval env cgq_201 = gq12_BDB E mu t xi eta xl 3%nat 7%nat.
Proof. unfold cgq_201, cgq_200, cgq_173, cgq_41, cgq_0. cbn [cval]. rewrite gq_form, <- cgq_B_0_3, cgq_B_0_7, cgq_B_1_3, <- cgq_B_1_7, <- cgq_B_2_3, <- cgq_B_2_7. entry. Qed.
Lemma cgq_at_3_8 : cval env cgq_203 = gq12_BDB E mu t xi eta xl 3%nat 8%nat.
Proof. unfold cgq_203, cgq_202, cgq_189, cgq_188, cgq_162, cgq_41, cgq_0. cbn [cval]. rewrite gq_form, <- cgq_B_0_3, <- cgq_B_0_8, cgq_B_1_3, <- cgq_B_1_8, <- cgq_B_2_3, <- cgq_B_2_8. entry. Qed.
Lemma cgq_at_3_9 : cval env cgq_205 = gq12_BDB E mu t xi eta xl 3%nat 9%nat.
Proof. unfold cgq_205, cgq_204, cgq_179, cgq_0. cbn [cval]. rewrite gq_form, <- cgq_B_0_3, <- cgq_B_0_9, cgq_B_1_3, cgq_B_1_9, <- cgq_B_2_3, <- cgq_B_2_9. entry. Qed.
Lemma cgq_at_3_10 : cval env cgq_207 = gq12_BDB E mu t xi eta xl 3%nat 10%nat.
Proof. unfold cgq_207, cgq_206, cgq_182, cgq_41, cgq_0. cbn [cval]. rewrite gq_form, <- cgq_B_0_3, cgq_B_0_10, cgq_B_1_3, <- cgq_B_1_10, <- cgq_B_2_3, <- cgq_B_2_10. entry. Qed.
Lemma cgq_at_3_11 : cval env cgq_209 = gq12_BDB E mu t xi eta xl 3%nat 11%nat.
Proof. unfold cgq_209, cgq_208, cgq_189, cgq_188, cgq_162, cgq_41, cgq_0. cbn [cval]. rewrite gq_form, <- cgq_B_0_3, <- cgq_B_0_11, cgq_B_1_3, <- cgq_B_1_11, <- cgq_B_2_3, <- cgq_B_2_11. entry. Qed.
Lemma cgq_at_4_0 : cval env cgq_88 = gq12_BDB E mu t xi eta xl 4%nat 0%nat.
Proof. unfold cgq_88, cgq_45, cgq_43, cgq_41, cgq_0. cbn [cval]. rewrite gq_form, <- cgq_B_0_0, cgq_B_0_4, cgq_B_1_0, <- cgq_B_1_4, <- cgq_B_2_0, <- cgq_B_2_4. entry. Qed.
Lemma cgq_at_4_1 : cval env cgq_146 = gq12_BDB E mu t xi eta xl 4%nat 1%nat.
Proof. unfold cgq_146, cgq_143, cgq_141, cgq_0. cbn [cval]. rewrite gq_form, cgq_B_0_1, cgq_B_0_4, <- cgq_B_1_1, <- cgq_B_1_4, <- cgq_B_2_1, <- cgq_B_2_4. entry. Qed.
Lemma cgq_at_4_2 : cval env cgq_211 = gq12_BDB E mu t xi eta xl 4%nat 2%nat.
Proof. unfold cgq_211, cgq_210, cgq_194, cgq_166, cgq_165, cgq_41, cgq_0. cbn [cval]. rewrite gq_form, <- cgq_B_0_2, cgq_B_0_4, <- cgq_B_1_2, <- cgq_B_1_4, <- cgq_B_2_2, <- cgq_B_2_4. entry. Qed.
Lemma cgq_at_4_3 : cval env cgq_195 = gq12_BDB E mu t xi eta xl 4%nat 3%nat.
Proof. unfold cgq_195, cgq_194, cgq_162, cgq_41, cgq_0. cbn [cval]. rewrite gq_form, <- cgq_B_0_3, cgq_B_0_4, cgq_B_1_3, <- cgq_B_1_4, <- cgq_B_2_3, <- cgq_B_2_4. entry. Qed.
Lemma cgq_at_4_4 : cval env cgq_212 = gq12_BDB E mu t xi eta xl 4%nat 4%nat.
Proof. unfold cgq_212, cgq_192, cgq_191, cgq_0. cbn [cval]. rewrite gq_form, cgq_B_0_4, <- cgq_B_1_4, <- cgq_B_2_4. entry. Qed.
Lemma cgq_at_4_5 : cval env cgq_214 = gq12_BDB E mu t xi eta xl 4%nat 5%nat.
Proof. unfold cgq_214, cgq_213, cgq_210, cgq_194, cgq_165, cgq_41, cgq_0. cbn [cval]. rewrite gq_form, cgq_B_0_4, <- cgq_B_0_5, <- cgq_B_1_4, <- cgq_B_1_5, <- cgq_B_2_4, <- cgq_B_2_5. entry. Qed.
Lemma cgq_at_4_6 : cval env cgq_216 = gq12_BDB E mu t xi eta xl 4%nat 6%nat.
Proof. unfold cgq_216, cgq_215, cgq_170, cgq_41, cgq_0. cbn [cval]. rewrite gq_form, cgq_B_0_4, <- cgq_B_0_6, <- cgq_B_1_4, cgq_B_1_6, <- cgq_B_2_4, <- cgq_B_2_6. entry. Qed.
Lemma cgq_at_4_7 : cval env cgq_218 = gq12_BDB E mu t xi eta xl 4%nat 7%nat.
Proof. unfold cgq_218, cgq_217, cgq_173, cgq_0. cbn [cval]. rewrite gq_form, cgq_B_0_4, cgq_B_0_7, <- cgq_B_1_4, <- cgq_B_1_7, <- cgq_B_2_4, <- cgq_B_2_7. entry. Qed.
Lemma cgq_at_4_8 : cval env cgq_220 = gq12_BDB E mu t xi eta xl 4%nat 8%nat.
Proof. unfold cgq_220, cgq_219, cgq_210, cgq_194, cgq_165, cgq_41, cgq_0. cbn [cval]. rewrite gq_form, cgq_B_0_4, <- cgq_B_0_8, <- cgq_B_1_4, <- cgq_B_1_8, <- cgq_B_2_4, <- cgq_B_2_8. entry. Qed.
Lemma cgq_at_4_9 : cval env cgq_222 = gq12_BDB E mu t xi eta xl 4%nat 9%nat.
Proof. unfold cgq_222, cgq_221, cgq_179, cgq_41, cgq_0. cbn [cval]. rewrite gq_form, cgq_B_0_4, <- cgq_B_0_9, <- cgq_B_1_4, cgq_B_1_9, <- cgq_B_2_4, <- cgq_B_2_9. entry. Qed.
Lemma cgq_at_4_10 : cval env cgq_224 = gq12_BDB E mu t xi eta xl 4%nat 10%nat.
Proof. unfold cgq_224, cgq_223, cgq_182, cgq_0. cbn [cval]. rewrite gq_form, cgq_B_0_4, cgq_B_0_10, <- cgq_B_1_4, <- cgq_B_1_10, <- cgq_B_2_4, <- cgq_B_2_10. entry. Qed.
Lemma cgq_at_4_11 : cval env cgq_226 = gq12_BDB E mu t xi eta xl 4%nat 11%nat.
Proof. unfold cgq_226, cgq_225, cgq_210, cgq_194, cgq_165, cgq_41, cgq_0. cbn [cval]. rewrite gq_form, cgq_B_0_4, <- cgq_B_0_11, <- cgq_B_1_4, <- cgq_B_1_11, <- cgq_B_2_4, <- cgq_B_2_11. entry. Qed.
Lemma cgq_at_5_0 : cval env cgq_228 = gq12_BDB E mu t xi eta xl 5%nat 0%nat.
Proof. unfold cgq_228, cgq_227, cgq_107, cgq_43, cgq_41, cgq_0. cbn [cval]. rewrite gq_form, <- cgq_B_0_0, <- cgq_B_0_5, cgq_B_1_0, <- cgq_B_1_5, <- cgq_B_2_0, <- cgq_B_2_5. entry. Qed.
Lemma cgq_at_5_1 : cval env cgq_230 = gq12_BDB E mu t xi eta xl 5%nat 1%nat.
Proof. unfold cgq_230, cgq_229, cgq_147, cgq_141, cgq_41, cgq_0. cbn [cval]. rewrite gq_form, cgq_B_0_1, <- cgq_B_0_5, <- cgq_B_1_1, <- cgq_B_1_5, <- cgq_B_2_1, <- cgq_B_2_5. entry. Qed.
Lemma cgq_at_5_2 : cval env cgq_231 = gq12_BDB E mu t xi eta xl 5%nat 2%nat.
Proof. unfold cgq_231, cgq_229, cgq_227, cgq_168, cgq_41, cgq_0. cbn [cval]. rewrite gq_form, <- cgq_B_0_2, <- cgq_B_0_5, <- cgq_B_1_2, <- cgq_B_1_5, <- cgq_B_2_2, <- cgq_B_2_5. entry. Qed.
Lemma cgq_at_5_3 : cval env cgq_232 = gq12_BDB E mu t xi eta xl 5%nat 3%nat.
Proof. unfold cgq_232, cgq_227, cgq_196, cgq_162, cgq_41, cgq_0. cbn [cval]. rewrite gq_form, <- cgq_B_0_3, <- cgq_B_0_5, cgq_B_1_3, <- cgq_B_1_5, <- cgq_B_2_3, <- cgq_B_2_5. entry. Qed.
Lemma cgq_at_5_4 : cval env cgq_233 = gq12_BDB E mu t xi eta xl 5%nat 4%nat.
Proof. unfold cgq_233, cgq_229, cgq_213, cgq_165, cgq_41, cgq_0. cbn [cval]. rewrite gq_form, cgq_B_0_4, <- cgq_B_0_5, <- cgq_B_1_4, <- cgq_B_1_5, <- cgq_B_2_4, <- cgq_B_2_5. entry. Qed.
Lemma cgq_at_5_5 : cval env cgq_234 = gq12_BDB E mu t xi eta xl 5%nat 5%nat.
Proof. unfold cgq_234, cgq_229, cgq_227, cgq_41, cgq_0. cbn [cval]. rewrite gq_form, <- cgq_B_0_5, <- cgq_B_1_5, <- cgq_B_2_5. entry. Qed.
Lemma cgq_at_5_6 : cval env cgq_236 = gq12_BDB E mu t xi eta xl 5%nat 6%nat.
Proof. unfold cgq_236, cgq_235, cgq_227, cgq_170, cgq_41, cgq_0. cbn [cval]. rewrite gq_form, <- cgq_B_0_5, <- cgq_B_0_6, <- cgq_B_1_5, cgq_B_1_6, <- cgq_B_2_5, <- cgq_B_2_6. entry. Qed.
Lemma cgq_at_5_7 : cval env cgq_238 = gq12_BDB E mu t xi eta xl 5%nat 7%nat.
Proof. unfold cgq_238, cgq_237, cgq_229, cgq_173, cgq_41, cgq_0. cbn [cval]. rewrite gq_form, <- cgq_B_0_5, cgq_B_0_7, <- cgq_B_1_5, <- cgq_B_1_7, <- cgq_B_2_5, <- cgq_B_2_7. entry. Qed.
Lemma cgq_at_5_8 : cval env cgq_240 = gq12_BDB E mu t xi eta xl 5%nat 8%nat.
Proof. unfold cgq_240, cgq_239, cgq_229, cgq_227, cgq_176, cgq_41, cgq_0. cbn [cval]. rewrite gq_form, <- cgq_B_0_5, <- cgq_B_0_8, <- cgq_B_1_5, <- cgq_B_1_8, <- cgq_B_2_5, <- cgq_B_2_8. entry. Qed.
Lemma cgq_at_5_9 : cval env cgq_242 = gq12_BDB E mu t xi eta xl 5%nat 9%nat.
Proof. unfold cgq_242, cgq_241, cgq_227, cgq_179, cgq_41, cgq_0. cbn [cval]. rewrite gq_form, <- cgq_B_0_5, <- cgq_B_0_9, <- cgq_B_1_5, cgq_B_1_9, <- cgq_B_2_5, <- cgq_B_2_9. entry. Qed.
Lemma cgq_at_5_10 : cval env cgq_244 = gq12_BDB E mu t xi eta xl 5%nat 10%nat.
Proof. unfold cgq_244, cgq_243, cgq_229, cgq_182, cgq_41, cgq_0. cbn [cval]. rewrite gq_form, <- cgq_B_0_5, cgq_B_0_10, <- cgq_B_1_5, <- cgq_B_1_10, <- cgq_B_2_5, <- cgq_B_2_10. entry. Qed.
Lemma cgq_at_5_11 : cval env cgq_246 = gq12_BDB E mu t xi eta xl 5%nat 11%nat.
Proof. unfold cgq_246, cgq_245, cgq_229, cgq_227, cgq_185, cgq_41, cgq_0. cbn [cval]. rewrite gq_form, <- cgq_B_0_5, <- cgq_B_0_11, <- cgq_B_1_5, <- cgq_B_1_11, <- cgq_B_2_5, <- cgq_B_2_11. entry. Qed.
Lemma cgq_at_6_0 : cval env cgq_112 = gq12_BDB E mu t xi eta xl 6%nat 0%nat.
Proof. unfold cgq_112, cgq_82, cgq_43, cgq_0. cbn [cval]. rewrite gq_form, <- cgq_B_0_0, <- cgq_B_0_6, cgq_B_1_0, cgq_B_1_6, <- cgq_B_2_0, <- cgq_B_2_6. entry. Qed.
Lemma cgq_at_6_1 : cval env cgq_149 = gq12_BDB E mu t xi eta xl 6%nat 1%nat.
Proof. unfold cgq_149, cgq_141, cgq_42, cgq_41, cgq_0. cbn [cval]. rewrite gq_form, cgq_B_0_1, <- cgq_B_0_6, <- cgq_B_1_1, cgq_B_1_6, <- cgq_B_2_1, <- cgq_B_2_6. entry. Qed.
Lemma cgq_at_6_2 : cval env cgq_247 = gq12_BDB E mu t xi eta xl 6%nat 2%nat.
Proof. unfold cgq_247, cgq_215, cgq_198, cgq_171, cgq_170, cgq_41, cgq_0. cbn [cval]. rewrite gq_form, <- cgq_B_0_2, <- cgq_B_0_6, <- cgq_B_1_2, cgq_B_1_6, <- cgq_B_2_2, <- cgq_B_2_6. entry. Qed.
Lemma cgq_at_6_3 : cval env cgq_199 = gq12_BDB E mu t xi eta xl 6%nat 3%nat.
Proof. unfold cgq_199, cgq_198, cgq_170, cgq_0. cbn [cval]. rewrite gq_form, <- cgq_B_0_3, <- cgq_B_0_6, cgq_B_1_3, cgq_B_1_6, <- cgq_B_2_3, <- cgq_B_2_6. entry. Qed.
Lemma cgq_at_6_4 : cval env cgq_216 = gq12_BDB E mu t xi eta xl 6%nat 4%nat.
Proof. unfold cgq_216, cgq_215, cgq_170, cgq_41, cgq_0. cbn [cval]. rewrite gq_form, cgq_B_0_4, <- cgq_B_0_6, <- cgq_B_1_4, cgq_B_1_6, <- cgq_B_2_4, <- cgq_B_2_6. entry. Qed.
Lemma cgq_at_6_5 : cval env cgq_248 = gq12_BDB E mu t xi eta xl 6%nat 5%nat.
Proof. unfold cgq_248, cgq_235, cgq_215, cgq_198, cgq_170, cgq_41, cgq_0. cbn [cval]. rewrite gq_form, <- cgq_B_0_5, <- cgq_B_0_6, <- cgq_B_1_5, cgq_B_1_6, <- cgq_B_2_5, <- cgq_B_2_6. entry. Qed.
Lemma cgq_at_6_6 : cval env cgq_251 = gq12_BDB E mu t xi eta xl 6%nat 6%nat.
Proof. unfold cgq_251, cgq_250, cgq_249, cgq_0. cbn [cval]. rewrite gq_form, <- cgq_B_0_6, cgq_B_1_6, <- cgq_B_2_6. entry. Qed.
Lemma cgq_at_6_7 : cval env cgq_252 = gq12_BDB E mu t xi eta xl 6%nat 7%nat.
Proof. unfold cgq_252, cgq_200, cgq_170, cgq_41, cgq_0. cbn [cval]. rewrite gq_form, <- cgq_B_0_6, cgq_B_0_7, cgq_B_1_6, <- cgq_B_1_7, <- cgq_B_2_6, <- cgq_B_2_7. entry. Qed.
Lemma cgq_at_6_8 : cval env cgq_254 = gq12_BDB E mu t xi eta xl 6%nat 8%nat.
Proof. unfold cgq_254, cgq_253, cgq_215, cgq_198, cgq_170, cgq_41, cgq_0. cbn [cval]. rewrite gq_form, <- cgq_B_0_6, <- cgq_B_0_8, cgq_B_1_6, <- cgq_B_1_8, <- cgq_B_2_6, <- cgq_B_2_8. entry. Qed.
Lemma cgq_at_6_9 : cval env cgq_255 = gq12_BDB E mu t xi eta xl 6%nat 9%nat.
Proof. unfold cgq_255, cgq_198, cgq_170, cgq_0. cbn [cval]. rewrite gq_form, <- cgq_B_0_6, <- cgq_B_0_9, cgq_B_1_6, cgq_B_1_9, <- cgq_B_2_6, <- cgq_B_2_9. entry. Qed.
Lemma cgq_at_6_10 : cval env cgq_256 = gq12_BDB E mu t xi eta xl 6%nat 10%nat.
Proof. unfold cgq_256, cgq_215, cgq_170, cgq_41, cgq_0. cbn [cval]. rewrite gq_form, <- cgq_B_0_6, cgq_B_0_10, cgq_B_1_6, <- cgq_B_1_10, <- cgq_B_2_6, <- cgq_B_2_10. entry. Qed.
Lemma cgq_at_6_11 : cval env cgq_258 = gq12_BDB E mu t xi eta xl 6%nat 11%nat.
Proof. unfold cgq_258, cgq_257, cgq_215, cgq_198, cgq_170, cgq_41, cgq_0. cbn [cval]. rewrite gq_form, <- cgq_B_0_6, <- cgq_B_0_11, cgq_B_1_6, <- cgq_B_1_11, <- cgq_B_2_6, <- cgq_B_2_11. entry. Qed.
Lemma cgq_at_7_0 : cval env cgq_113 = gq12_BDB E mu t xi eta xl 7%nat 0%nat.
Proof. unfold cgq_113, cgq_45, cgq_43, cgq_41, cgq_0. cbn [cval]. rewrite gq_form, <- cgq_B_0_0, cgq_B_0_7, cgq_B_1_0, <- cgq_B_1_7, <- cgq_B_2_0, <- cgq_B_2_7. entry. Qed.
Lemma cgq_at_7_1 : cval env cgq_150 = gq12_BDB E mu t xi eta xl 7%nat 1%nat.
Proof. unfold cgq_150, cgq_143, cgq_141, cgq_0. cbn [cval]. rewrite gq_form, cgq_B_0_1, cgq_B_0_7, <- cgq_B_1_1, <- cgq_B_1_7, <- cgq_B_2_1, <- cgq_B_2_7. entry. Qed.
Lemma cgq_at_7_2 : cval env cgq_259 = gq12_BDB E mu t xi eta xl 7%nat 2%nat.
Proof. unfold cgq_259, cgq_217, cgq_200, cgq_174, cgq_173, cgq_41, cgq_0. cbn [cval]. rewrite gq_form, <- cgq_B_0_2, cgq_B_0_7, <- cgq_B_1_2, <- cgq_B_1_7, <- cgq_B_2_2, <- cgq_B_2_7. entry. Qed.
Lemma cgq_at_7_3 : cval env cgq_201 = gq12_BDB E mu t xi eta xl 7%nat 3%nat.
Proof. unfold cgq_201, cgq_200, cgq_173, cgq_41, cgq_0. cbn [cval]. rewrite gq_form, <- cgq_B_0_3, cgq_B_0_7, cgq_B_1_3, <- cgq_B_1_7, <- cgq_B_2_3, <- cgq_B_2_7. entry. Qed.
Lemma cgq_at_7_4 : cval env cgq_218 = gq12_BDB E mu t xi eta xl 7%nat 4%nat.
Proof. unfold cgq_218, cgq_217, cgq_173, cgq_0. cbn [cval]. rewrite gq_form, cgq_B_0_4, cgq_B_0_7, <- cgq_B_1_4, <- cgq_B_1_7, <- cgq_B_2_4, <- cgq_B_2_7. entry. Qed.
Lemma cgq_at_7_5 : cval env cgq_260 = gq12_BDB E mu t xi eta xl 7%nat 5%nat.
Proof. unfold cgq_260, cgq_237, cgq_217, cgq_200, cgq_173, cgq_41, cgq_0. cbn [cval]. rewrite gq_form, <- cgq_B_0_5, cgq_B_0_7, <- cgq_B_1_5, <- cgq_B_1_7, <- cgq_B_2_5, <- cgq_B_2_7. entry. Qed.
Lemma cgq_at_7_6 : cval env cgq_252 = gq12_BDB E mu t xi eta xl 7%nat 6%nat.
Proof. unfold cgq_252, cgq_200, cgq_170, cgq_41, cgq_0. cbn [cval]. rewrite gq_form, <- cgq_B_0_6, cgq_B_0_7, cgq_B_1_6, <- cgq_B_1_7, <- cgq_B_2_6, <- cgq_B_2_7. entry. Qed.
Lemma cgq_at_7_7 : cval env cgq_261 = gq12_BDB E mu t xi eta xl 7%nat 7%nat.
Proof. unfold cgq_261, cgq_250, cgq_249, cgq_0. cbn [cval]. rewrite gq_form, cgq_B_0_7, <- cgq_B_1_7, <- cgq_B_2_7. entry. Qed.
Lemma cgq_at_7_8 : cval env cgq_263 = gq12_BDB E mu t xi eta xl 7%nat 8%nat.
Proof. unfold cgq_263, cgq_262, cgq_217, cgq_200, cgq_173, cgq_41, cgq_0. cbn [cval]. rewrite gq_form, cgq_B_0_7, <- cgq_B_0_8, <- cgq_B_1_7, <- cgq_B_1_8, <- cgq_B_2_7, <- cgq_B_2_8. entry. Qed.
Lemma cgq_at_7_9 : cval env cgq_264 = gq12_BDB E mu t xi eta xl 7%nat 9%nat.
Proof. unfold cgq_264, cgq_200, cgq_173, cgq_41, cgq_0. cbn [cval]. rewrite gq_form, cgq_B_0_7, <- cgq_B_0_9, <- cgq_B_1_7, cgq_B_1_9, <- cgq_B_2_7, <- cgq_B_2_9. entry. Qed.
Lemma cgq_at_7_10 : cval env cgq_265 = gq12_BDB E mu t xi eta xl 7%nat 10%nat.
Proof. unfold cgq_265, cgq_217, cgq_173, cgq_0. cbn [cval]. rewrite gq_form, cgq_B_0_7, cgq_B_0_10, <- cgq_B_1_7, <- cgq_B_1_10, <- cgq_B_2_7, <- cgq_B_2_10. entry. Qed.
Lemma cgq_at_7_11 : cval env cgq_267 = gq12_BDB E mu t xi eta xl 7%nat 11%nat.
Proof. unfold cgq_267, cgq_266, cgq_217, cgq_200, cgq_173, cgq_41, cgq_0. cbn [cval]. rewrite gq_form, cgq_B_0_7, <- cgq_B_0_11, <- cgq_B_1_7, <- cgq_B_1_11, <- cgq_B_2_7, <- cgq_B_2_11. entry. Qed.
Lemma cgq_at_8_0 : cval env cgq_269 = gq12_BDB E mu t xi eta xl 8%nat 0%nat.
Proof. unfold cgq_269, cgq_268, cgq_124, cgq_43, cgq_41, cgq_0. cbn [cval]. rewrite gq_form, <- cgq_B_0_0, <- cgq_B_0_8, cgq_B_1_0, <- cgq_B_1_8, <- cgq_B_2_0, <- cgq_B_2_8. entry. Qed.
Lemma cgq_at_8_1 : cval env cgq_271 = gq12_BDB E mu t xi eta xl 8%nat 1%nat.
Proof. unfold cgq_271, cgq_270, cgq_151, cgq_141, cgq_41, cgq_0. cbn [cval]. rewrite gq_form, cgq_B_0_1, <- cgq_B_0_8, <- cgq_B_1_1, <- cgq_B_1_8, <- cgq_B_2_1, <- cgq_B_2_8. entry. Qed.
Lemma cgq_at_8_2 : cval env cgq_272 = gq12_BDB E mu t xi eta xl 8%nat 2%nat.
Proof. unfold cgq_272, cgq_270, cgq_268, cgq_177, cgq_176, cgq_41, cgq_0. cbn [cval]. rewrite gq_form, <- cgq_B_0_2, <- cgq_B_0_8, <- cgq_B_1_2, <- cgq_B_1_8, <- cgq_B_2_2, <- cgq_B_2_8. entry. Qed.
Lemma cgq_at_8_3 : cval env cgq_273 = gq12_BDB E mu t xi eta xl 8%nat 3%nat.
Proof. unfold cgq_273, cgq_268, cgq_202, cgq_162, cgq_41, cgq_0. cbn [cval]. rewrite gq_form, <- cgq_B_0_3, <- cgq_B_0_8, cgq_B_1_3, <- cgq_B_1_8, <- cgq_B_2_3, <- cgq_B_2_8. entry. Qed.
Lemma cgq_at_8_4 : cval env cgq_274 = gq12_BDB E mu t xi eta xl 8%nat 4%nat.
Proof. unfold cgq_274, cgq_270, cgq_219, cgq_165, cgq_41, cgq_0. cbn [cval]. rewrite gq_form, cgq_B_0_4, <- cgq_B_0_8, <- cgq_B_1_4, <- cgq_B_1_8, <- cgq_B_2_4, <- cgq_B_2_8. entry. Qed.
Lemma cgq_at_8_5 : cval env cgq_275 = gq12_BDB E mu t xi eta xl 8%nat 5%nat.
Proof. unfold cgq_275, cgq_270, cgq_268, cgq_239, cgq_176, cgq_41, cgq_0. cbn [cval]. rewrite gq_form, <- cgq_B_0_5, <- cgq_B_0_8, <- cgq_B_1_5, <- cgq_B_1_8, <- cgq_B_2_5, <- cgq_B_2_8. entry. Qed.
Lemma cgq_at_8_6 : cval env cgq_276 = gq12_BDB E mu t xi eta xl 8%nat 6%nat.
Proof. unfold cgq_276, cgq_268, cgq_253, cgq_170, cgq_41, cgq_0. cbn [cval]. rewrite gq_form, <- cgq_B_0_6, <- cgq_B_0_8, cgq_B_1_6, <- cgq_B_1_8, <- cgq_B_2_6, <- cgq_B_2_8. entry. Qed.
Lemma cgq_at_8_7 : cval env cgq_277 = gq12_BDB E mu t xi eta xl 8%nat 7%nat.
Proof. unfold cgq_277, cgq_270, cgq_262, cgq_173, cgq_41, cgq_0. cbn [cval]. rewrite gq_form, cgq_B_0_7, <- cgq_B_0_8, <- cgq_B_1_7, <- cgq_B_1_8, <- cgq_B_2_7, <- cgq_B_2_8. entry. Qed.
Lemma cgq_at_8_8 : cval env cgq_278 = gq12_BDB E mu t xi eta xl 8%nat 8%nat.
Proof. unfold cgq_278, cgq_270, cgq_268, cgq_41, cgq_0. cbn [cval]. rewrite gq_form, <- cgq_B_0_8, <- cgq_B_1_8, <- cgq_B_2_8. entry. Qed.
Lemma cgq_at_8_9 : cval env cgq_280 = gq12_BDB E mu t xi eta xl 8%nat 9%nat.
Proof. unfold cgq_280, cgq_279, cgq_268, cgq_179, cgq_41, cgq_0. cbn [cval]. rewrite gq_form, <- cgq_B_0_8, <- cgq_B_0_9, <- cgq_B_1_8, cgq_B_1_9, <- cgq_B_2_8, <- cgq_B_2_9. entry. Qed.
Lemma cgq_at_8_10 : cval env cgq_282 = gq12_BDB E mu t xi eta xl 8%nat 10%nat.
Proof. unfold cgq_282, cgq_281, cgq_270, cgq_182, cgq_41, cgq_0. cbn [cval]. rewrite gq_form, <- cgq_B_0_8, cgq_B_0_10, <- cgq_B_1_8, <- cgq_B_1_10, <- cgq_B_2_8, <- cgq_B_2_10. entry. Qed.
Lemma cgq_at_8_11 : cval env cgq_284 = gq12_BDB E mu t xi eta xl 8%nat 11%nat.
Proof. unfold cgq_284, cgq_283, cgq_270, cgq_268, cgq_176, cgq_41, cgq_0. cbn [cval]. rewrite gq_form, <- cgq_B_0_8, <- cgq_B_0_11, <- cgq_B_1_8, <- cgq_B_1_11, <- cgq_B_2_8, <- cgq_B_2_11. entry. Qed.
Lemma cgq_at_9_0 : cval env cgq_129 = gq12_BDB E mu t xi eta xl 9%nat 0%nat.
Proof. unfold cgq_129, cgq_82, cgq_43, cgq_0. cbn [cval]. rewrite gq_form, <- cgq_B_0_0, <- cgq_B_0_9, cgq_B_1_0, cgq_B_1_9, <- cgq_B_2_0, <- cgq_B_2_9. entry. Qed.
Lemma cgq_at_9_1 : cval env cgq_153 = gq12_BDB E mu t xi eta xl 9%nat 1%nat.
Proof. unfold cgq_153, cgq_141, cgq_42, cgq_41, cgq_0. cbn [cval]. rewrite gq_form, cgq_B_0_1, <- cgq_B_0_9, <- cgq_B_1_1, cgq_B_1_9, <- cgq_B_2_1, <- cgq_B_2_9. entry. Qed.
Lemma cgq_at_9_2 : cval env cgq_285 = gq12_BDB E mu t xi eta xl 9%nat 2%nat.
Proof. unfold cgq_285, cgq_221, cgq_204, cgq_180, cgq_179, cgq_41, cgq_0. cbn [cval]. rewrite gq_form, <- cgq_B_0_2, <- cgq_B_0_9, <- cgq_B_1_2, cgq_B_1_9, <- cgq_B_2_2, <- cgq_B_2_9. entry. Qed.
Lemma cgq_at_9_3 : cval env cgq_205 = gq12_BDB E mu t xi eta xl 9%nat 3%nat.
Proof. unfold cgq_205, cgq_204, cgq_179, cgq_0. cbn [cval]. rewrite gq_form, <- cgq_B_0_3, <- cgq_B_0_9, cgq_B_1_3, cgq_B_1_9, <- cgq_B_2_3, <- cgq_B_2_9. entry. Qed.
Lemma cgq_at_9_4 : cval env cgq_222 = gq12_BDB E mu t xi eta xl 9%nat 4%nat.
Proof. unfold cgq_222, cgq_221, cgq_179, cgq_41, cgq_0. cbn [cval]. rewrite gq_form, cgq_B_0_4, <- cgq_B_0_9, <- cgq_B_1_4, cgq_B_1_9, <- cgq_B_2_4, <- cgq_B_2_9. entry. Qed.
Lemma cgq_at_9_5 : cval env cgq_286 = gq12_BDB E mu t xi eta xl 9%nat 5%nat.
Proof. unfold cgq_286, cgq_241, cgq_221, cgq_204, cgq_179, cgq_41, cgq_0. cbn [cval]. rewrite gq_form, <- cgq_B_0_5, <- cgq_B_0_9, <- cgq_B_1_5, cgq_B_1_9, <- cgq_B_2_5, <- cgq_B_2_9. entry. Qed.
Lemma cgq_at_9_6 : cval env cgq_255 = gq12_BDB E mu t xi eta xl 9%nat 6%nat.
Proof. unfold cgq_255, cgq_198, cgq_170, cgq_0. cbn [cval]. rewrite gq_form, <- cgq_B_0_6, <- cgq_B_0_9, cgq_B_1_6, cgq_B_1_9, <- cgq_B_2_6, <- cgq_B_2_9. entry. Qed.
Lemma cgq_at_9_7 : cval env cgq_264 = gq12_BDB E mu t xi eta xl 9%nat 7%nat.
Proof. unfold cgq_264, cgq_200, cgq_173, cgq_41, cgq_0. cbn [cval]. rewrite gq_form, cgq_B_0_7, <- cgq_B_0_9, <- cgq_B_1_7, cgq_B_1_9, <- cgq_B_2_7, <- cgq_B_2_9. entry. Qed.
Lemma cgq_at_9_8 : cval env cgq_287 = gq12_BDB E mu t xi eta xl 9%nat 8%nat.
Proof. unfold cgq_287, cgq_279, cgq_221, cgq_204, cgq_179, cgq_41, cgq_0. cbn [cval]. rewrite gq_form, <- cgq_B_0_8, <- cgq_B_0_9, <- cgq_B_1_8, cgq_B_1_9, <- cgq_B_2_8, <- cgq_B_2_9. entry. Qed.
Lemma cgq_at_9_9 : cval env cgq_290 = gq12_BDB E mu t xi eta xl 9%nat 9%nat.
Proof. unfold cgq_290, cgq_289, cgq_288, cgq_0. cbn [cval]. rewrite gq_form, <- cgq_B_0_9, cgq_B_1_9, <- cgq_B_2_9. entry. Qed.
Lemma cgq_at_9_10 : cval env cgq_291 = gq12_BDB E mu t xi eta xl 9%nat 10%nat.
Proof. unfold cgq_291, cgq_206, cgq_179, cgq_41, cgq_0. cbn [cval]. rewrite gq_form, <- cgq_B_0_9, cgq_B_0_10, cgq_B_1_9, <- cgq_B_1_10, <- cgq_B_2_9, <- cgq_B_2_10. entry. Qed.
Lemma cgq_at_9_11 : cval env cgq_293 = gq12_BDB E mu t xi eta xl 9%nat 11%nat.
Proof. unfold cgq_293, cgq_292, cgq_221, cgq_204, cgq_179, cgq_41, cgq_0. cbn [cval]. rewrite gq_form, <- cgq_B_0_9, <- cgq_B_0_11, cgq_B_1_9, <- cgq_B_1_11, <- cgq_B_2_9, <- cgq_B_2_11. entry. Qed.
Lemma cgq_at_10_0 : cval env cgq_130 = gq12_BDB E mu t xi eta xl 10%nat 0%nat.
Proof. unfold cgq_130, cgq_45, cgq_43, cgq_41, cgq_0. cbn [cval]. rewrite gq_form, <- cgq_B_0_0, cgq_B_0_10, cgq_B_1_0, <- cgq_B_1_10, <- cgq_B_2_0, <- cgq_B_2_10. entry. Qed.
Lemma cgq_at_10_1 : cval env cgq_154 = gq12_BDB E mu t xi eta xl 10%nat 1%nat.
Proof. unfold cgq_154, cgq_143, cgq_141, cgq_0. cbn [cval]. rewrite gq_form, cgq_B_0_1, cgq_B_0_10, <- cgq_B_1_1, <- cgq_B_1_10, <- cgq_B_2_1, <- cgq_B_2_10. entry. Qed.
Lemma cgq_at_10_2 : cval env cgq_294 = gq12_BDB E mu t xi eta xl 10%nat 2%nat.
Proof. unfold cgq_294, cgq_223, cgq_206, cgq_183, cgq_182, cgq_41, cgq_0. cbn [cval]. rewrite gq_form, <- cgq_B_0_2, cgq_B_0_10, <- cgq_B_1_2, <- cgq_B_1_10, <- cgq_B_2_2, <- cgq_B_2_10. entry. Qed.
Lemma cgq_at_10_3 : cval env cgq_207 = gq12_BDB E mu t xi eta xl 10%nat 3%nat.
Proof. unfold cgq_207, cgq_206, cgq_182, cgq_41, cgq_0. cbn [cval]. rewrite gq_form, <- cgq_B_0_3, cgq_B_0_10, cgq_B_1_3, <- cgq_B_1_10, <- cgq_B_2_3, <- cgq_B_2_10. entry. Qed.
Lemma cgq_at_10_4 : cval env cgq_224 = gq12_BDB E mu t xi eta xl 10%nat 4%nat.
Proof. unfold cgq_224, cgq_223, cgq_182, cgq_0. cbn [cval]. rewrite gq_form, cgq_B_0_4, cgq_B_0_10, <- cgq_B_1_4, <- cgq_B_1_10, <- cgq_B_2_4, <- cgq_B_2_10. entry. Qed.
Lemma cgq_at_10_5 : cval env cgq_295 = gq12_BDB E mu t xi eta xl 10%nat 5%nat.
Proof. unfold cgq_295, cgq_243, cgq_223, cgq_206, cgq_182, cgq_41, cgq_0. cbn [cval]. rewrite gq_form, <- cgq_B_0_5, cgq_B_0_10, <- cgq_B_1_5, <- cgq_B_1_10, <- cgq_B_2_5, <- cgq_B_2_10. entry. Qed.
Lemma cgq_at_10_6 : cval env cgq_256 = gq12_BDB E mu t xi eta xl 10%nat 6%nat.
Proof. unfold cgq_256, cgq_215, cgq_170, cgq_41, cgq_0. cbn [cval]. rewrite gq_form, <- cgq_B_0_6, cgq_B_0_10, cgq_B_1_6, <- cgq_B_1_10, <- cgq_B_2_6, <- cgq_B_2_10. entry. Qed.
Lemma cgq_at_10_7 : cval env cgq_265 = gq12_BDB E mu t xi eta xl 10%nat 7%nat.
Proof. unfold cgq_265, cgq_217, cgq_173, cgq_0. cbn [cval]. rewrite gq_form, cgq_B_0_7, cgq_B_0_10, <- cgq_B_1_7, <- cgq_B_1_10, <- cgq_B_2_7, <- cgq_B_2_10. entry. Qed.
Lemma cgq_at_10_8 : cval env cgq_296 = gq12_BDB E mu t xi eta xl 10%nat 8%nat.
Proof. unfold cgq_296, cgq_281, cgq_223, cgq_206, cgq_182, cgq_41, cgq_0. cbn [cval]. rewrite gq_form, <- cgq_B_0_8, cgq_B_0_10, <- cgq_B_1_8, <- cgq_B_1_10, <- cgq_B_2_8, <- cgq_B_2_10. entry. Qed.
Lemma cgq_at_10_9 : cval env cgq_291 = gq12_BDB E mu t xi eta xl 10%nat 9%nat.
Proof. unfold cgq_291, cgq_206, cgq_179, cgq_41, cgq_0. cbn [cval]. rewrite gq_form, <- cgq_B_0_9, cgq_B_0_10, cgq_B_1_9, <- cgq_B_1_10, <- cgq_B_2_9, <- cgq_B_2_10. entry. Qed.
Lemma cgq_at_10_10 : cval env cgq_297 = gq12_BDB E mu t xi eta xl 10%nat 10%nat.
Proof. unfold cgq_297, cgq_289, cgq_288, cgq_0. cbn [cval]. rewrite gq_form, cgq_B_0_10, <- cgq_B_1_10, <- cgq_B_2_10. entry. Qed.
Lemma cgq_at_10_11 : cval env cgq_299 = gq12_BDB E mu t xi eta xl 10%nat 11%nat.
Proof. unfold cgq_299, cgq_298, cgq_223, cgq_206, cgq_182, cgq_41, cgq_0. cbn [cval]. rewrite gq_form, cgq_B_0_10, <- cgq_B_0_11, <- cgq_B_1_10, <- cgq_B_1_11, <- cgq_B_2_10, <- cgq_B_2_11. entry. Qed.
Lemma cgq_at_11_0 : cval env cgq_301 = gq12_BDB E mu t xi eta xl 11%nat 0%nat.
Proof. unfold cgq_301, cgq_300, cgq_137, cgq_43, cgq_41, cgq_0. cbn [cval]. rewrite gq_form, <- cgq_B_0_0, <- cgq_B_0_11, cgq_B_1_0, <- cgq_B_1_11, <- cgq_B_2_0, <- cgq_B_2_11. entry. Qed.
Lemma cgq_at_11_1 : cval env cgq_303 = gq12_BDB E mu t xi eta xl 11%nat 1%nat.
Proof. unfold cgq_303, cgq_302, cgq_155, cgq_141, cgq_41, cgq_0. cbn [cval]. rewrite gq_form, cgq_B_0_1, <- cgq_B_0_11, <- cgq_B_1_1, <- cgq_B_1_11, <- cgq_B_2_1, <- cgq_B_2_11. entry. Qed.
Lemma cgq_at_11_2 : cval env cgq_304 = gq12_BDB E mu t xi eta xl 11%nat 2%nat.
Proof. unfold cgq_304, cgq_302, cgq_300, cgq_186, cgq_185, cgq_41, cgq_0. cbn [cval]. rewrite gq_form, <- cgq_B_0_2, <- cgq_B_0_11, <- cgq_B_1_2, <- cgq_B_1_11, <- cgq_B_2_2, <- cgq_B_2_11. entry. Qed.
Lemma cgq_at_11_3 : cval env cgq_305 = gq12_BDB E mu t xi eta xl 11%nat 3%nat.
Proof. unfold cgq_305, cgq_300, cgq_208, cgq_162, cgq_41, cgq_0. cbn [cval]. rewrite gq_form, <- cgq_B_0_3, <- cgq_B_0_11, cgq_B_1_3, <- cgq_B_1_11, <- cgq_B_2_3, <- cgq_B_2_11. entry. Qed.
Lemma cgq_at_11_4 : cval env cgq_306 = gq12_BDB E mu t xi eta xl 11%nat 4%nat.
Proof. unfold cgq_306, cgq_302, cgq_225, cgq_165, cgq_41, cgq_0. cbn [cval]. rewrite gq_form, cgq_B_0_4, <- cgq_B_0_11, <- cgq_B_1_4, <- cgq_B_1_11, <- cgq_B_2_4, <- cgq_B_2_11. entry. Qed.
Lemma cgq_at_11_5 : cval env cgq_307 = gq12_BDB E mu t xi eta xl 11%nat 5%nat.
Proof. unfold cgq_307, cgq_302, cgq_300, cgq_245, cgq_185, cgq_41, cgq_0. cbn [cval]. rewrite gq_form, <- cgq_B_0_5, <- cgq_B_0_11, <- cgq_B_1_5, <- cgq_B_1_11, <- cgq_B_2_5, <- cgq_B_2_11. entry. Qed.
Lemma cgq_at_11_6 : cval env cgq_308 = gq12_BDB E mu t xi eta xl 11%nat 6%nat.
Proof. unfold cgq_308, cgq_300, cgq_257, cgq_170, cgq_41, cgq_0. cbn [cval]. rewrite gq_form, <- cgq_B_0_6, <- cgq_B_0_11, cgq_B_1_6, <- cgq_B_1_11, <- cgq_B_2_6, <- cgq_B_2_11. entry. Qed.
Lemma cgq_at_11_7 : cval env cgq_309 = gq12_BDB E mu t xi eta xl 11%nat 7%nat.
Proof. unfold cgq_309, cgq_302, cgq_266, cgq_173, cgq_41, cgq_0. cbn [cval]. rewrite gq_form, cgq_B_0_7, <- cgq_B_0_11, <- cgq_B_1_7, <- cgq_B_1_11, <- cgq_B_2_7, <- cgq_B_2_11. entry. Qed.
Lemma cgq_at_11_8 : cval env cgq_310 = gq12_BDB E mu t xi eta xl 11%nat 8%nat.
Proof. unfold cgq_310, cgq_302, cgq_300, cgq_283, cgq_176, cgq_41, cgq_0. cbn [cval]. rewrite gq_form, <- cgq_B_0_8, <- cgq_B_0_11, <- cgq_B_1_8, <- cgq_B_1_11, <- cgq_B_2_8, <- cgq_B_2_11. entry. Qed.
Lemma cgq_at_11_9 : cval env cgq_311 = gq12_BDB E mu t xi eta xl 11%nat 9%nat.
Proof. unfold cgq_311, cgq_300, cgq_292, cgq_179, cgq_41, cgq_0. cbn [cval]. rewrite gq_form, <- cgq_B_0_9, <- cgq_B_0_11, cgq_B_1_9, <- cgq_B_1_11, <- cgq_B_2_9, <- cgq_B_2_11. entry. Qed.
Lemma cgq_at_11_10 : cval env cgq_312 = gq12_BDB E mu t xi eta xl 11%nat 10%nat.
Proof. unfold cgq_312, cgq_302, cgq_298, cgq_182, cgq_41, cgq_0. cbn [cval]. rewrite gq_form, cgq_B_0_10, <- cgq_B_0_11, <- cgq_B_1_10, <- cgq_B_1_11, <- cgq_B_2_10, <- cgq_B_2_11. entry. Qed.
Lemma cgq_at_11_11 : cval env cgq_313 = gq12_BDB E mu t xi eta xl 11%nat 11%nat.
Proof. unfold cgq_313, cgq_302, cgq_300, cgq_41, cgq_0. cbn [cval]. rewrite gq_form, <- cgq_B_0_11, <- cgq_B_1_11, <- cgq_B_2_11. entry. Qed.

Lemma cgq_entries : forall i j, (i < 12)%nat -> (j < 12)%nat ->
  vnth (map (cval env) cgq_code) (12 * i + j) = gq12_BDB E mu t xi eta xl i j.
Proof.
  intros i j Hi Hj. rewrite vnth_cval by (cbn [length cgq_code]; lia).
  destruct i as [|[|[|[|[|[|[|[|[|[|[|[|i]]]]]]]]]]]]; try (exfalso; lia); destruct j as [|[|[|[|[|[|[|[|[|[|[|[|j]]]]]]]]]]]]; try (exfalso; lia);
    cbn [nth cgq_code Nat.mul Nat.add].

  - exact cgq_at_0_0.
  - exact cgq_at_0_1.
  - exact cgq_at_0_2.
  - exact cgq_at_0_3.
  - exact cgq_at_0_4.
  - exact cgq_at_0_5.
  - exact cgq_at_0_6.
  - exact cgq_at_0_7.
  - exact cgq_at_0_8.
  - exact cgq_at_0_9.
  - exact cgq_at_0_10.
  - exact cgq_at_0_11.
  - exact cgq_at_1_0.
  - exact cgq_at_1_1.
  - exact cgq_at_1_2.
  - exact cgq_at_1_3.
  - exact cgq_at_1_4.
  - exact cgq_at_1_5.
  - exact cgq_at_1_6.
  - exact cgq_at_1_7.
  - exact cgq_at_1_8.
  - exact cgq_at_1_9.
  - exact cgq_at_1_10.
  - exact cgq_at_1_11.
  - exact cgq_at_2_0.
  - exact cgq_at_2_1.
  - exact cgq_at_2_2.
  - exact cgq_at_2_3.
  - exact cgq_at_2_4.
  - exact cgq_at_2_5.
  - exact cgq_at_2_6.
  - exact cgq_at_2_7.
  - exact cgq_at_2_8.
  - exact cgq_at_2_9.
  - exact cgq_at_2_10.
  - exact cgq_at_2_11.
  - exact cgq_at_3_0.
  - exact cgq_at_3_1.
  - exact cgq_at_3_2.
  - exact cgq_at_3_3.
  - exact cgq_at_3_4.
  - exact cgq_at_3_5.
  - exact cgq_at_3_6.
  - exact cgq_at_3_7.
  - exact cgq_at_3_8.
  - exact cgq_at_3_9.
  - exact cgq_at_3_10.
  - exact cgq_at_3_11.
  - exact cgq_at_4_0.
  - exact cgq_at_4_1.
  - exact cgq_at_4_2.
  - exact cgq_at_4_3.
  - exact cgq_at_4_4.
  - exact cgq_at_4_5.
  - exact cgq_at_4_6.
  - exact cgq_at_4_7.
  - exact cgq_at_4_8.
  - exact cgq_at_4_9.
  - exact cgq_at_4_10.
  - exact cgq_at_4_11.
  - exact cgq_at_5_0.
  - exact cgq_at_5_1.
  - exact cgq_at_5_2.
  - exact cgq_at_5_3.
  - exact cgq_at_5_4.
  - exact cgq_at_5_5.
  - exact cgq_at_5_6.
  - exact cgq_at_5_7.
  - exact cgq_at_5_8.
  - exact cgq_at_5_9.
  - exact cgq_at_5_10.
  - exact cgq_at_5_11.
  - exact cgq_at_6_0.
  - exact cgq_at_6_1.
  - exact cgq_at_6_2.
  - exact cgq_at_6_3.
  - exact cgq_at_6_4.
  - exact cgq_at_6_5.
  - exact cgq_at_6_6.
  - exact cgq_at_6_7.
  - exact cgq_at_6_8.
  - exact cgq_at_6_9.
  - exact cgq_at_6_10.
  - exact cgq_at_6_11.
  - exact cgq_at_7_0.
  - exact cgq_at_7_1.
  - exact cgq_at_7_2.
  - exact cgq_at_7_3.
  - exact cgq_at_7_4.
  - exact cgq_at_7_5.
  - exact cgq_at_7_6.
  - exact cgq_at_7_7.
  - exact cgq_at_7_8.
  - exact cgq_at_7_9.
  - exact cgq_at_7_10.
  - exact cgq_at_7_11.
  - exact cgq_at_8_0.
  - exact cgq_at_8_1.
  - exact cgq_at_8_2.
  - exact cgq_at_8_3.
  - exact cgq_at_8_4.
  - exact cgq_at_8_5.
  - exact cgq_at_8_6.
  - exact cgq_at_8_7.
  - exact cgq_at_8_8.
  - exact cgq_at_8_9.
  - exact cgq_at_8_10.
  - exact cgq_at_8_11.
  - exact cgq_at_9_0.
  - exact cgq_at_9_1.
  - exact cgq_at_9_2.
  - exact cgq_at_9_3.
  - exact cgq_at_9_4.
  - exact cgq_at_9_5.
  - exact cgq_at_9_6.
  - exact cgq_at_9_7.
  - exact cgq_at_9_8.
  - exact cgq_at_9_9.
  - exact cgq_at_9_10.
  - exact cgq_at_9_11.
  - exact cgq_at_10_0.
  - exact cgq_at_10_1.
  - exact cgq_at_10_2.
  - exact cgq_at_10_3.
  - exact cgq_at_10_4.
  - exact cgq_at_10_5.
  - exact cgq_at_10_6.
  - exact cgq_at_10_7.
  - exact cgq_at_10_8.
  - exact cgq_at_10_9.
  - exact cgq_at_10_10.
  - exact cgq_at_10_11.
  - exact cgq_at_11_0.
  - exact cgq_at_11_1.
  - exact cgq_at_11_2.
  - exact cgq_at_11_3.
  - exact cgq_at_11_4.
  - exact cgq_at_11_5.
  - exact cgq_at_11_6.
  - exact cgq_at_11_7.
  - exact cgq_at_11_8.
  - exact cgq_at_11_9.
  - exact cgq_at_11_10.
  - exact cgq_at_11_11.
Qed.
End Entries.
