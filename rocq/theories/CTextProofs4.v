(** The C code of the plate of quadrilaterals. *)
From Coq Require Import Reals List Arith ZArith Bool Lra Lia.
From Verif Require Import Base Csys Sections Element Kernels CText CTextFacts CTextDKQ.
Import ListNotations.
Local Open Scope R_scope.

Lemma cdkq_divs : divs_among [CInt 12; CInt 2; CInt 8; cdkq_35; cdkq_59; cdkq_20; cdkq_141; cdkq_192; cdkq_12] cdkq_code = true.
Proof. vm_compute. reflexivity. Qed.
Lemma dkq_form : forall E mu t xi eta xl i j, dkq_BDB E mu t xi eta xl i j
  = E * t^3 / 12 / (1 - mu^2) * (dkq_B xl xi eta 0%nat i * dkq_B xl xi eta 0%nat j
      + mu * (dkq_B xl xi eta 0%nat i * dkq_B xl xi eta 1%nat j + dkq_B xl xi eta 1%nat i * dkq_B xl xi eta 0%nat j)
      + dkq_B xl xi eta 1%nat i * dkq_B xl xi eta 1%nat j + (1 - mu) / 2 * (dkq_B xl xi eta 2%nat i * dkq_B xl xi eta 2%nat j))
    * det2 (dkq_J xl xi eta).
Proof. intros. unfold dkq_BDB, plateD. rewrite plane_form. reflexivity. Qed.

Section Entries.
Variables E mu t xi eta : R.
Variable xl : list R.
Hypothesis Hm : 1 - mu^2 <> 0.
Hypothesis HJ : dkq_detJ xl xi eta <> 0.
Hypothesis HL : forall k, (k < 4)%nat -> dkq_l2 xl k <> 0.
Let env := call_with E mu t xi eta xl.
Local Ltac model := unfold dkq_x, dkq_y, cx, cy; cbn [Nat.mul Nat.add Nat.sub].

Lemma cdkq_den : cval env cdkq_35 = dkq_detJ xl xi eta.
Proof. unfold cdkq_35, cdkq_34, cdkq_33, cdkq_32, cdkq_31, cdkq_30, cdkq_15, cdkq_10, cdkq_8, env. cbn [cval call_with]. unfold dkq_detJ. model. field. Qed.
Lemma cdkq_fac : cval env cdkq_77 = det2 (dkq_J xl xi eta).
Proof. unfold cdkq_77, cdkq_76, cdkq_75, cdkq_74, cdkq_73, cdkq_72, cdkq_71, cdkq_70, cdkq_69, cdkq_68, cdkq_67, cdkq_66, cdkq_65, env. cbn [cval call_with]. unfold det2, dkq_J. model. field. Qed.
Lemma cdkq_mu : cval env cdkq_59 = 1 - mu^2.
Proof. reflexivity. Qed.
Lemma cdkq_side_0 : cval env cdkq_20 = dkq_l2 xl 0.
Proof. unfold cdkq_20, cdkq_19, cdkq_18, cdkq_17, cdkq_16, env. cbn [cval call_with]. unfold dkq_l2. model. ring. Qed.
Lemma cdkq_side_1 : cval env cdkq_141 = dkq_l2 xl 1.
Proof. unfold cdkq_141, cdkq_140, cdkq_139, cdkq_138, env. cbn [cval call_with]. unfold dkq_l2. model. ring. Qed.
Lemma cdkq_side_2 : cval env cdkq_192 = dkq_l2 xl 2.
Proof. unfold cdkq_192, cdkq_191, cdkq_190, cdkq_33, cdkq_32, env. cbn [cval call_with]. unfold dkq_l2. model. ring. Qed.
Lemma cdkq_side_3 : cval env cdkq_12 = dkq_l2 xl 3.
Proof. unfold cdkq_12, cdkq_11, cdkq_10, cdkq_9, cdkq_8, env. cbn [cval call_with]. unfold dkq_l2. model. ring. Qed.
Local Ltac atom :=
  cbn [cval]; rewrite ?cdkq_den, ?cdkq_side_0, ?cdkq_side_1, ?cdkq_side_2, ?cdkq_side_3; unfold env; cbn [call_with];
  unfold dkq_B, dkq_j, dkq_J; cbv zeta; unfold dkq_Hx, dkq_Hy;
  cbn [Nat.div Nat.modulo Nat.divmod fst snd Nat.sub dkq_before ev dxi deta dkq_N dkq_M one];
  unfold dkq_a, dkq_b, dkq_c, dkq_d, dkq_e;
  pose proof (HL 0%nat ltac:(lia)); pose proof (HL 1%nat ltac:(lia)); pose proof (HL 2%nat ltac:(lia)); pose proof (HL 3%nat ltac:(lia));
  set (l0 := dkq_l2 xl 0) in *; set (l1 := dkq_l2 xl 1) in *; set (l2 := dkq_l2 xl 2) in *; set (l3 := dkq_l2 xl 3) in *;
  set (D := dkq_detJ xl xi eta) in *; model; field; auto.

Lemma cdkq_B_2_0 : cval env cdkq_58 = dkq_B xl xi eta 2%nat 0%nat.
Proof. unfold cdkq_58, cdkq_57, cdkq_56, cdkq_55, cdkq_54, cdkq_53, cdkq_52, cdkq_51, cdkq_50, cdkq_49, cdkq_48, cdkq_47, cdkq_46, cdkq_45, cdkq_44, cdkq_43, cdkq_42, cdkq_41, cdkq_40, cdkq_39, cdkq_38, cdkq_37, cdkq_36, cdkq_34, cdkq_29, cdkq_28, cdkq_27, cdkq_26, cdkq_25, cdkq_24, cdkq_23, cdkq_22, cdkq_21, cdkq_18, cdkq_16, cdkq_15, cdkq_14, cdkq_13, cdkq_7, cdkq_6, cdkq_5, cdkq_4. atom. Qed.
Lemma cdkq_B_0_0 : cval env cdkq_60 = dkq_B xl xi eta 0%nat 0%nat.
Proof. unfold cdkq_60, cdkq_57, cdkq_56, cdkq_52, cdkq_51, cdkq_50, cdkq_49, cdkq_48, cdkq_47, cdkq_46, cdkq_45, cdkq_44, cdkq_43, cdkq_42, cdkq_41, cdkq_40, cdkq_39, cdkq_28, cdkq_27, cdkq_26, cdkq_25, cdkq_24, cdkq_22, cdkq_21, cdkq_18, cdkq_16, cdkq_15, cdkq_14, cdkq_13, cdkq_7, cdkq_6, cdkq_5, cdkq_4. atom. Qed.
Lemma cdkq_B_1_0 : cval env cdkq_62 = dkq_B xl xi eta 1%nat 0%nat.
Proof. unfold cdkq_62, cdkq_55, cdkq_54, cdkq_53, cdkq_52, cdkq_51, cdkq_50, cdkq_49, cdkq_48, cdkq_45, cdkq_44, cdkq_43, cdkq_42, cdkq_41, cdkq_38, cdkq_37, cdkq_36, cdkq_34, cdkq_29, cdkq_28, cdkq_27, cdkq_26, cdkq_25, cdkq_24, cdkq_23, cdkq_18, cdkq_16, cdkq_14, cdkq_13, cdkq_6, cdkq_5, cdkq_4. atom. Qed.
Lemma cdkq_B_2_1 : cval env cdkq_107 = dkq_B xl xi eta 2%nat 1%nat.
Proof. unfold cdkq_107, cdkq_106, cdkq_105, cdkq_104, cdkq_103, cdkq_102, cdkq_101, cdkq_100, cdkq_99, cdkq_98, cdkq_97, cdkq_96, cdkq_95, cdkq_94, cdkq_93, cdkq_92, cdkq_91, cdkq_90, cdkq_89, cdkq_88, cdkq_87, cdkq_86, cdkq_85, cdkq_84, cdkq_83, cdkq_82, cdkq_81, cdkq_80, cdkq_57, cdkq_56, cdkq_53, cdkq_52, cdkq_51, cdkq_50, cdkq_49, cdkq_48, cdkq_44, cdkq_42, cdkq_40, cdkq_39, cdkq_29, cdkq_28, cdkq_27, cdkq_26, cdkq_25, cdkq_24, cdkq_23, cdkq_19, cdkq_18, cdkq_17, cdkq_16, cdkq_13, cdkq_11, cdkq_10, cdkq_9, cdkq_8, cdkq_5. atom. Qed.
Lemma cdkq_B_0_1 : cval env cdkq_109 = dkq_B xl xi eta 0%nat 1%nat.
Proof. unfold cdkq_109, cdkq_93, cdkq_92, cdkq_91, cdkq_90, cdkq_89, cdkq_88, cdkq_87, cdkq_86, cdkq_85, cdkq_84, cdkq_83, cdkq_82, cdkq_81, cdkq_80, cdkq_57, cdkq_56, cdkq_52, cdkq_51, cdkq_50, cdkq_49, cdkq_48, cdkq_44, cdkq_42, cdkq_40, cdkq_39, cdkq_28, cdkq_27, cdkq_26, cdkq_25, cdkq_24, cdkq_18, cdkq_16, cdkq_13, cdkq_10, cdkq_5. atom. Qed.
Lemma cdkq_B_1_1 : cval env cdkq_110 = dkq_B xl xi eta 1%nat 1%nat.
Proof. unfold cdkq_110, cdkq_106, cdkq_105, cdkq_104, cdkq_103, cdkq_102, cdkq_101, cdkq_100, cdkq_99, cdkq_98, cdkq_97, cdkq_96, cdkq_95, cdkq_94, cdkq_90, cdkq_89, cdkq_81, cdkq_80, cdkq_56, cdkq_53, cdkq_52, cdkq_51, cdkq_50, cdkq_49, cdkq_48, cdkq_44, cdkq_42, cdkq_29, cdkq_28, cdkq_27, cdkq_26, cdkq_25, cdkq_24, cdkq_23, cdkq_19, cdkq_18, cdkq_17, cdkq_16, cdkq_13, cdkq_11, cdkq_10, cdkq_9, cdkq_8, cdkq_5. atom. Qed.
Lemma cdkq_B_2_2 : cval env cdkq_131 = dkq_B xl xi eta 2%nat 2%nat.
Proof. unfold cdkq_131, cdkq_130, cdkq_129, cdkq_128, cdkq_127, cdkq_126, cdkq_125, cdkq_124, cdkq_123, cdkq_122, cdkq_121, cdkq_120, cdkq_119, cdkq_118, cdkq_117, cdkq_116, cdkq_115, cdkq_114, cdkq_113, cdkq_112, cdkq_101, cdkq_99, cdkq_92, cdkq_87, cdkq_86, cdkq_85, cdkq_83, cdkq_82, cdkq_57, cdkq_56, cdkq_53, cdkq_52, cdkq_51, cdkq_50, cdkq_49, cdkq_48, cdkq_44, cdkq_42, cdkq_40, cdkq_39, cdkq_29, cdkq_28, cdkq_27, cdkq_26, cdkq_25, cdkq_24, cdkq_23, cdkq_19, cdkq_18, cdkq_17, cdkq_16, cdkq_13, cdkq_11, cdkq_10, cdkq_9, cdkq_8, cdkq_5. atom. Qed.
Lemma cdkq_B_1_2 : cval env cdkq_133 = dkq_B xl xi eta 1%nat 2%nat.
Proof. unfold cdkq_133, cdkq_119, cdkq_118, cdkq_117, cdkq_116, cdkq_115, cdkq_114, cdkq_113, cdkq_112, cdkq_92, cdkq_87, cdkq_86, cdkq_85, cdkq_83, cdkq_82, cdkq_53, cdkq_52, cdkq_51, cdkq_50, cdkq_49, cdkq_48, cdkq_44, cdkq_42, cdkq_29, cdkq_28, cdkq_27, cdkq_26, cdkq_25, cdkq_24, cdkq_23, cdkq_18, cdkq_16, cdkq_13, cdkq_10, cdkq_5. atom. Qed.
Lemma cdkq_B_0_2 : cval env cdkq_134 = dkq_B xl xi eta 0%nat 2%nat.
Proof. unfold cdkq_134, cdkq_130, cdkq_129, cdkq_128, cdkq_127, cdkq_126, cdkq_125, cdkq_124, cdkq_123, cdkq_122, cdkq_121, cdkq_120, cdkq_117, cdkq_116, cdkq_113, cdkq_112, cdkq_101, cdkq_99, cdkq_57, cdkq_56, cdkq_52, cdkq_51, cdkq_50, cdkq_49, cdkq_48, cdkq_44, cdkq_42, cdkq_40, cdkq_39, cdkq_28, cdkq_27, cdkq_26, cdkq_25, cdkq_24, cdkq_23, cdkq_19, cdkq_18, cdkq_17, cdkq_16, cdkq_13, cdkq_11, cdkq_10, cdkq_9, cdkq_8, cdkq_5. atom. Qed.
Lemma cdkq_B_2_3 : cval env cdkq_150 = dkq_B xl xi eta 2%nat 3%nat.
Proof. unfold cdkq_150, cdkq_149, cdkq_148, cdkq_147, cdkq_146, cdkq_145, cdkq_144, cdkq_143, cdkq_142, cdkq_137, cdkq_136, cdkq_57, cdkq_56, cdkq_53, cdkq_52, cdkq_51, cdkq_50, cdkq_49, cdkq_48, cdkq_45, cdkq_44, cdkq_42, cdkq_40, cdkq_39, cdkq_37, cdkq_34, cdkq_31, cdkq_30, cdkq_29, cdkq_28, cdkq_27, cdkq_26, cdkq_25, cdkq_24, cdkq_23, cdkq_21, cdkq_18, cdkq_16, cdkq_15, cdkq_14, cdkq_13. atom. Qed.
Lemma cdkq_B_0_3 : cval env cdkq_152 = dkq_B xl xi eta 0%nat 3%nat.
Proof. unfold cdkq_152, cdkq_147, cdkq_146, cdkq_145, cdkq_144, cdkq_142, cdkq_137, cdkq_136, cdkq_57, cdkq_56, cdkq_52, cdkq_51, cdkq_50, cdkq_49, cdkq_48, cdkq_45, cdkq_44, cdkq_42, cdkq_40, cdkq_39, cdkq_31, cdkq_28, cdkq_27, cdkq_26, cdkq_25, cdkq_24, cdkq_21, cdkq_18, cdkq_16, cdkq_15, cdkq_14, cdkq_13. atom. Qed.
Lemma cdkq_B_1_3 : cval env cdkq_153 = dkq_B xl xi eta 1%nat 3%nat.
Proof. unfold cdkq_153, cdkq_149, cdkq_148, cdkq_145, cdkq_144, cdkq_143, cdkq_137, cdkq_136, cdkq_53, cdkq_52, cdkq_51, cdkq_50, cdkq_49, cdkq_48, cdkq_45, cdkq_44, cdkq_42, cdkq_37, cdkq_34, cdkq_30, cdkq_29, cdkq_28, cdkq_27, cdkq_26, cdkq_25, cdkq_24, cdkq_23, cdkq_18, cdkq_16, cdkq_14, cdkq_13. atom. Qed.
Lemma cdkq_B_2_4 : cval env cdkq_169 = dkq_B xl xi eta 2%nat 4%nat.
Proof. unfold cdkq_169, cdkq_168, cdkq_167, cdkq_166, cdkq_165, cdkq_164, cdkq_163, cdkq_162, cdkq_161, cdkq_160, cdkq_159, cdkq_158, cdkq_157, cdkq_156, cdkq_155, cdkq_140, cdkq_139, cdkq_138, cdkq_137, cdkq_128, cdkq_103, cdkq_98, cdkq_97, cdkq_96, cdkq_91, cdkq_90, cdkq_89, cdkq_87, cdkq_86, cdkq_85, cdkq_80, cdkq_57, cdkq_56, cdkq_53, cdkq_52, cdkq_51, cdkq_50, cdkq_49, cdkq_48, cdkq_44, cdkq_42, cdkq_40, cdkq_39, cdkq_29, cdkq_28, cdkq_27, cdkq_26, cdkq_25, cdkq_24, cdkq_23, cdkq_19, cdkq_18, cdkq_17, cdkq_16, cdkq_13. atom. Qed.
Lemma cdkq_B_0_4 : cval env cdkq_171 = dkq_B xl xi eta 0%nat 4%nat.
Proof. unfold cdkq_171, cdkq_160, cdkq_159, cdkq_158, cdkq_157, cdkq_156, cdkq_155, cdkq_139, cdkq_137, cdkq_91, cdkq_90, cdkq_89, cdkq_87, cdkq_86, cdkq_85, cdkq_80, cdkq_57, cdkq_56, cdkq_52, cdkq_51, cdkq_50, cdkq_49, cdkq_48, cdkq_44, cdkq_42, cdkq_40, cdkq_39, cdkq_28, cdkq_27, cdkq_26, cdkq_25, cdkq_24, cdkq_18, cdkq_16, cdkq_13. atom. Qed.
Lemma cdkq_B_1_4 : cval env cdkq_172 = dkq_B xl xi eta 1%nat 4%nat.
Proof. unfold cdkq_172, cdkq_168, cdkq_167, cdkq_166, cdkq_165, cdkq_164, cdkq_163, cdkq_162, cdkq_161, cdkq_140, cdkq_139, cdkq_138, cdkq_137, cdkq_128, cdkq_103, cdkq_98, cdkq_97, cdkq_96, cdkq_90, cdkq_89, cdkq_80, cdkq_56, cdkq_53, cdkq_52, cdkq_51, cdkq_50, cdkq_49, cdkq_48, cdkq_44, cdkq_42, cdkq_29, cdkq_28, cdkq_27, cdkq_26, cdkq_25, cdkq_24, cdkq_23, cdkq_19, cdkq_18, cdkq_17, cdkq_16, cdkq_13. atom. Qed.
Lemma cdkq_B_2_5 : cval env cdkq_184 = dkq_B xl xi eta 2%nat 5%nat.
Proof. unfold cdkq_184, cdkq_183, cdkq_182, cdkq_181, cdkq_180, cdkq_179, cdkq_178, cdkq_177, cdkq_176, cdkq_175, cdkq_174, cdkq_165, cdkq_163, cdkq_159, cdkq_156, cdkq_155, cdkq_140, cdkq_139, cdkq_138, cdkq_137, cdkq_127, cdkq_124, cdkq_123, cdkq_118, cdkq_117, cdkq_116, cdkq_112, cdkq_105, cdkq_87, cdkq_86, cdkq_85, cdkq_57, cdkq_56, cdkq_53, cdkq_52, cdkq_51, cdkq_50, cdkq_49, cdkq_48, cdkq_44, cdkq_42, cdkq_40, cdkq_39, cdkq_29, cdkq_28, cdkq_27, cdkq_26, cdkq_25, cdkq_24, cdkq_23, cdkq_19, cdkq_18, cdkq_17, cdkq_16, cdkq_13. atom. Qed.
Lemma cdkq_B_1_5 : cval env cdkq_186 = dkq_B xl xi eta 1%nat 5%nat.
Proof. unfold cdkq_186, cdkq_176, cdkq_175, cdkq_174, cdkq_159, cdkq_156, cdkq_155, cdkq_139, cdkq_137, cdkq_118, cdkq_117, cdkq_116, cdkq_112, cdkq_87, cdkq_86, cdkq_85, cdkq_53, cdkq_52, cdkq_51, cdkq_50, cdkq_49, cdkq_48, cdkq_44, cdkq_42, cdkq_29, cdkq_28, cdkq_27, cdkq_26, cdkq_25, cdkq_24, cdkq_23, cdkq_18, cdkq_16, cdkq_13. atom. Qed.
Lemma cdkq_B_0_5 : cval env cdkq_187 = dkq_B xl xi eta 0%nat 5%nat.
Proof. unfold cdkq_187, cdkq_183, cdkq_182, cdkq_181, cdkq_180, cdkq_179, cdkq_178, cdkq_177, cdkq_165, cdkq_163, cdkq_140, cdkq_139, cdkq_138, cdkq_137, cdkq_127, cdkq_124, cdkq_123, cdkq_117, cdkq_116, cdkq_112, cdkq_105, cdkq_57, cdkq_56, cdkq_52, cdkq_51, cdkq_50, cdkq_49, cdkq_48, cdkq_44, cdkq_42, cdkq_40, cdkq_39, cdkq_28, cdkq_27, cdkq_26, cdkq_25, cdkq_24, cdkq_23, cdkq_19, cdkq_18, cdkq_17, cdkq_16, cdkq_13. atom. Qed.
Lemma cdkq_B_2_6 : cval env cdkq_202 = dkq_B xl xi eta 2%nat 6%nat.
Proof. unfold cdkq_202, cdkq_201, cdkq_200, cdkq_199, cdkq_198, cdkq_197, cdkq_196, cdkq_195, cdkq_194, cdkq_193, cdkq_189, cdkq_148, cdkq_146, cdkq_137, cdkq_57, cdkq_56, cdkq_53, cdkq_52, cdkq_51, cdkq_50, cdkq_49, cdkq_48, cdkq_45, cdkq_44, cdkq_41, cdkq_40, cdkq_39, cdkq_31, cdkq_30, cdkq_29, cdkq_28, cdkq_27, cdkq_26, cdkq_25, cdkq_24, cdkq_23, cdkq_18, cdkq_16, cdkq_14, cdkq_13, cdkq_4. atom. Qed.
Lemma cdkq_B_0_6 : cval env cdkq_204 = dkq_B xl xi eta 0%nat 6%nat.
Proof. unfold cdkq_204, cdkq_200, cdkq_199, cdkq_198, cdkq_194, cdkq_193, cdkq_189, cdkq_146, cdkq_137, cdkq_57, cdkq_56, cdkq_52, cdkq_51, cdkq_50, cdkq_49, cdkq_48, cdkq_45, cdkq_44, cdkq_41, cdkq_40, cdkq_39, cdkq_31, cdkq_28, cdkq_27, cdkq_26, cdkq_25, cdkq_24, cdkq_18, cdkq_16, cdkq_14, cdkq_13, cdkq_4. atom. Qed.
Lemma cdkq_B_1_6 : cval env cdkq_205 = dkq_B xl xi eta 1%nat 6%nat.
Proof. unfold cdkq_205, cdkq_201, cdkq_199, cdkq_198, cdkq_197, cdkq_196, cdkq_195, cdkq_148, cdkq_137, cdkq_53, cdkq_52, cdkq_51, cdkq_50, cdkq_49, cdkq_48, cdkq_45, cdkq_44, cdkq_41, cdkq_30, cdkq_29, cdkq_28, cdkq_27, cdkq_26, cdkq_25, cdkq_24, cdkq_23, cdkq_18, cdkq_16, cdkq_14, cdkq_13, cdkq_4. atom. Qed.
Lemma cdkq_B_2_7 : cval env cdkq_222 = dkq_B xl xi eta 2%nat 7%nat.
Proof. unfold cdkq_222, cdkq_221, cdkq_220, cdkq_219, cdkq_218, cdkq_217, cdkq_216, cdkq_215, cdkq_214, cdkq_213, cdkq_212, cdkq_211, cdkq_210, cdkq_209, cdkq_208, cdkq_207, cdkq_198, cdkq_191, cdkq_190, cdkq_180, cdkq_167, cdkq_163, cdkq_162, cdkq_161, cdkq_159, cdkq_157, cdkq_156, cdkq_155, cdkq_140, cdkq_139, cdkq_138, cdkq_137, cdkq_89, cdkq_85, cdkq_82, cdkq_80, cdkq_57, cdkq_56, cdkq_53, cdkq_52, cdkq_51, cdkq_50, cdkq_49, cdkq_48, cdkq_44, cdkq_40, cdkq_39, cdkq_33, cdkq_32, cdkq_29, cdkq_28, cdkq_27, cdkq_26, cdkq_25, cdkq_24, cdkq_23, cdkq_18, cdkq_16, cdkq_13. atom. Qed.
Lemma cdkq_B_0_7 : cval env cdkq_224 = dkq_B xl xi eta 0%nat 7%nat.
Proof. unfold cdkq_224, cdkq_212, cdkq_211, cdkq_210, cdkq_209, cdkq_208, cdkq_207, cdkq_198, cdkq_159, cdkq_157, cdkq_156, cdkq_155, cdkq_139, cdkq_137, cdkq_89, cdkq_85, cdkq_82, cdkq_80, cdkq_57, cdkq_56, cdkq_52, cdkq_51, cdkq_50, cdkq_49, cdkq_48, cdkq_44, cdkq_40, cdkq_39, cdkq_32, cdkq_28, cdkq_27, cdkq_26, cdkq_25, cdkq_24, cdkq_18, cdkq_16, cdkq_13. atom. Qed.
Lemma cdkq_B_1_7 : cval env cdkq_225 = dkq_B xl xi eta 1%nat 7%nat.
Proof. unfold cdkq_225, cdkq_221, cdkq_220, cdkq_219, cdkq_218, cdkq_217, cdkq_216, cdkq_215, cdkq_214, cdkq_213, cdkq_210, cdkq_198, cdkq_191, cdkq_190, cdkq_180, cdkq_167, cdkq_163, cdkq_162, cdkq_161, cdkq_140, cdkq_139, cdkq_138, cdkq_137, cdkq_89, cdkq_80, cdkq_56, cdkq_53, cdkq_52, cdkq_51, cdkq_50, cdkq_49, cdkq_48, cdkq_44, cdkq_33, cdkq_32, cdkq_29, cdkq_28, cdkq_27, cdkq_26, cdkq_25, cdkq_24, cdkq_23, cdkq_18, cdkq_16, cdkq_13. atom. Qed.
Lemma cdkq_B_2_8 : cval env cdkq_238 = dkq_B xl xi eta 2%nat 8%nat.
Proof. unfold cdkq_238, cdkq_237, cdkq_236, cdkq_235, cdkq_234, cdkq_233, cdkq_232, cdkq_231, cdkq_230, cdkq_229, cdkq_228, cdkq_227, cdkq_217, cdkq_208, cdkq_207, cdkq_198, cdkq_191, cdkq_190, cdkq_182, cdkq_178, cdkq_177, cdkq_174, cdkq_163, cdkq_159, cdkq_156, cdkq_155, cdkq_140, cdkq_139, cdkq_138, cdkq_137, cdkq_116, cdkq_112, cdkq_85, cdkq_82, cdkq_57, cdkq_56, cdkq_53, cdkq_52, cdkq_51, cdkq_50, cdkq_49, cdkq_48, cdkq_44, cdkq_40, cdkq_39, cdkq_33, cdkq_32, cdkq_29, cdkq_28, cdkq_27, cdkq_26, cdkq_25, cdkq_24, cdkq_23, cdkq_18, cdkq_16, cdkq_13. atom. Qed.
Lemma cdkq_B_1_8 : cval env cdkq_240 = dkq_B xl xi eta 1%nat 8%nat.
Proof. unfold cdkq_240, cdkq_230, cdkq_229, cdkq_228, cdkq_227, cdkq_208, cdkq_207, cdkq_198, cdkq_174, cdkq_159, cdkq_156, cdkq_155, cdkq_139, cdkq_137, cdkq_116, cdkq_112, cdkq_85, cdkq_82, cdkq_53, cdkq_52, cdkq_51, cdkq_50, cdkq_49, cdkq_48, cdkq_44, cdkq_32, cdkq_29, cdkq_28, cdkq_27, cdkq_26, cdkq_25, cdkq_24, cdkq_23, cdkq_18, cdkq_16, cdkq_13. atom. Qed.
Lemma cdkq_B_0_8 : cval env cdkq_241 = dkq_B xl xi eta 0%nat 8%nat.
Proof. unfold cdkq_241, cdkq_237, cdkq_236, cdkq_235, cdkq_234, cdkq_233, cdkq_232, cdkq_231, cdkq_228, cdkq_217, cdkq_198, cdkq_191, cdkq_190, cdkq_182, cdkq_178, cdkq_177, cdkq_163, cdkq_140, cdkq_139, cdkq_138, cdkq_137, cdkq_116, cdkq_112, cdkq_57, cdkq_56, cdkq_52, cdkq_51, cdkq_50, cdkq_49, cdkq_48, cdkq_44, cdkq_40, cdkq_39, cdkq_33, cdkq_32, cdkq_28, cdkq_27, cdkq_26, cdkq_25, cdkq_24, cdkq_18, cdkq_16, cdkq_13. atom. Qed.
Lemma cdkq_B_2_9 : cval env cdkq_249 = dkq_B xl xi eta 2%nat 9%nat.
Proof. unfold cdkq_249, cdkq_248, cdkq_247, cdkq_246, cdkq_245, cdkq_244, cdkq_243, cdkq_198, cdkq_196, cdkq_195, cdkq_193, cdkq_189, cdkq_144, cdkq_136, cdkq_57, cdkq_56, cdkq_54, cdkq_53, cdkq_52, cdkq_51, cdkq_50, cdkq_49, cdkq_48, cdkq_46, cdkq_45, cdkq_44, cdkq_40, cdkq_39, cdkq_36, cdkq_29, cdkq_28, cdkq_27, cdkq_26, cdkq_25, cdkq_24, cdkq_23, cdkq_18, cdkq_16, cdkq_14, cdkq_13, cdkq_7, cdkq_5. atom. Qed.
Lemma cdkq_B_0_9 : cval env cdkq_252 = dkq_B xl xi eta 0%nat 9%nat.
Proof. unfold cdkq_252, cdkq_247, cdkq_246, cdkq_244, cdkq_243, cdkq_198, cdkq_193, cdkq_189, cdkq_144, cdkq_136, cdkq_57, cdkq_56, cdkq_52, cdkq_51, cdkq_50, cdkq_49, cdkq_48, cdkq_46, cdkq_45, cdkq_44, cdkq_40, cdkq_39, cdkq_28, cdkq_27, cdkq_26, cdkq_25, cdkq_24, cdkq_18, cdkq_16, cdkq_14, cdkq_13, cdkq_7, cdkq_5. atom. Qed.
Lemma cdkq_B_1_9 : cval env cdkq_253 = dkq_B xl xi eta 1%nat 9%nat.
Proof. unfold cdkq_253, cdkq_248, cdkq_246, cdkq_245, cdkq_243, cdkq_198, cdkq_196, cdkq_195, cdkq_144, cdkq_136, cdkq_54, cdkq_53, cdkq_52, cdkq_51, cdkq_50, cdkq_49, cdkq_48, cdkq_45, cdkq_44, cdkq_36, cdkq_29, cdkq_28, cdkq_27, cdkq_26, cdkq_25, cdkq_24, cdkq_23, cdkq_18, cdkq_16, cdkq_14, cdkq_13, cdkq_5. atom. Qed.
Lemma cdkq_B_2_10 : cval env cdkq_261 = dkq_B xl xi eta 2%nat 10%nat.
Proof. unfold cdkq_261, cdkq_260, cdkq_259, cdkq_258, cdkq_257, cdkq_256, cdkq_255, cdkq_236, cdkq_219, cdkq_215, cdkq_214, cdkq_213, cdkq_211, cdkq_210, cdkq_208, cdkq_207, cdkq_198, cdkq_191, cdkq_190, cdkq_155, cdkq_122, cdkq_104, cdkq_99, cdkq_95, cdkq_94, cdkq_92, cdkq_89, cdkq_84, cdkq_83, cdkq_82, cdkq_81, cdkq_80, cdkq_57, cdkq_56, cdkq_53, cdkq_52, cdkq_51, cdkq_50, cdkq_49, cdkq_48, cdkq_44, cdkq_40, cdkq_39, cdkq_33, cdkq_32, cdkq_29, cdkq_28, cdkq_27, cdkq_26, cdkq_25, cdkq_24, cdkq_23, cdkq_18, cdkq_16, cdkq_13, cdkq_11, cdkq_10, cdkq_9, cdkq_8, cdkq_5. atom. Qed.
Lemma cdkq_B_0_10 : cval env cdkq_263 = dkq_B xl xi eta 0%nat 10%nat.
Proof. unfold cdkq_263, cdkq_256, cdkq_255, cdkq_211, cdkq_210, cdkq_208, cdkq_207, cdkq_198, cdkq_155, cdkq_92, cdkq_89, cdkq_84, cdkq_83, cdkq_82, cdkq_81, cdkq_80, cdkq_57, cdkq_56, cdkq_52, cdkq_51, cdkq_50, cdkq_49, cdkq_48, cdkq_44, cdkq_40, cdkq_39, cdkq_32, cdkq_28, cdkq_27, cdkq_26, cdkq_25, cdkq_24, cdkq_18, cdkq_16, cdkq_13, cdkq_10, cdkq_5. atom. Qed.
Lemma cdkq_B_1_10 : cval env cdkq_264 = dkq_B xl xi eta 1%nat 10%nat.
Proof. unfold cdkq_264, cdkq_260, cdkq_259, cdkq_258, cdkq_257, cdkq_236, cdkq_219, cdkq_215, cdkq_214, cdkq_213, cdkq_210, cdkq_198, cdkq_191, cdkq_190, cdkq_122, cdkq_104, cdkq_99, cdkq_95, cdkq_94, cdkq_89, cdkq_81, cdkq_80, cdkq_53, cdkq_52, cdkq_51, cdkq_50, cdkq_49, cdkq_48, cdkq_44, cdkq_39, cdkq_33, cdkq_32, cdkq_29, cdkq_28, cdkq_27, cdkq_26, cdkq_25, cdkq_24, cdkq_23, cdkq_18, cdkq_16, cdkq_13, cdkq_11, cdkq_10, cdkq_9, cdkq_8, cdkq_5. atom. Qed.
Lemma cdkq_B_2_11 : cval env cdkq_271 = dkq_B xl xi eta 2%nat 11%nat.
Proof. unfold cdkq_271, cdkq_270, cdkq_269, cdkq_268, cdkq_267, cdkq_266, cdkq_257, cdkq_235, cdkq_232, cdkq_231, cdkq_229, cdkq_228, cdkq_220, cdkq_208, cdkq_207, cdkq_198, cdkq_191, cdkq_190, cdkq_155, cdkq_129, cdkq_121, cdkq_120, cdkq_116, cdkq_114, cdkq_113, cdkq_112, cdkq_99, cdkq_92, cdkq_83, cdkq_82, cdkq_57, cdkq_56, cdkq_53, cdkq_52, cdkq_51, cdkq_50, cdkq_49, cdkq_48, cdkq_44, cdkq_40, cdkq_39, cdkq_33, cdkq_32, cdkq_29, cdkq_28, cdkq_27, cdkq_26, cdkq_25, cdkq_24, cdkq_23, cdkq_18, cdkq_16, cdkq_13, cdkq_11, cdkq_10, cdkq_9, cdkq_8, cdkq_5. atom. Qed.
Lemma cdkq_B_1_11 : cval env cdkq_273 = dkq_B xl xi eta 1%nat 11%nat.
Proof. unfold cdkq_273, cdkq_267, cdkq_266, cdkq_229, cdkq_228, cdkq_208, cdkq_207, cdkq_198, cdkq_155, cdkq_116, cdkq_114, cdkq_113, cdkq_112, cdkq_92, cdkq_83, cdkq_82, cdkq_53, cdkq_52, cdkq_51, cdkq_50, cdkq_49, cdkq_48, cdkq_44, cdkq_32, cdkq_29, cdkq_28, cdkq_27, cdkq_26, cdkq_25, cdkq_24, cdkq_23, cdkq_18, cdkq_16, cdkq_13, cdkq_10, cdkq_5. atom. Qed.
Lemma cdkq_B_0_11 : cval env cdkq_274 = dkq_B xl xi eta 0%nat 11%nat.
Proof. unfold cdkq_274, cdkq_270, cdkq_269, cdkq_268, cdkq_257, cdkq_235, cdkq_232, cdkq_231, cdkq_228, cdkq_220, cdkq_198, cdkq_191, cdkq_190, cdkq_129, cdkq_121, cdkq_120, cdkq_116, cdkq_113, cdkq_112, cdkq_99, cdkq_57, cdkq_56, cdkq_52, cdkq_51, cdkq_50, cdkq_49, cdkq_48, cdkq_44, cdkq_40, cdkq_39, cdkq_33, cdkq_32, cdkq_28, cdkq_27, cdkq_26, cdkq_25, cdkq_24, cdkq_23, cdkq_18, cdkq_16, cdkq_13, cdkq_11, cdkq_10, cdkq_9, cdkq_8, cdkq_5. atom. Qed.
Local Ltac entry := rewrite ?cdkq_mu, ?cdkq_fac; set (D := det2 (dkq_J xl xi eta)) in *;
  unfold env; cbn [call_with]; fold env; field; auto.

Lemma cdkq_at_0_0 : cval env cdkq_78 = dkq_BDB E mu t xi eta xl 0%nat 0%nat.
Proof. unfold cdkq_78, cdkq_64, cdkq_63, cdkq_61, cdkq_3, cdkq_2, cdkq_1, cdkq_0. cbn [cval]. rewrite dkq_form, <- cdkq_B_0_0, <- cdkq_B_1_0, <- cdkq_B_2_0. entry. Qed.
Lemma cdkq_at_0_1 : cval env cdkq_111 = dkq_BDB E mu t xi eta xl 0%nat 1%nat.
Proof. unfold cdkq_111, cdkq_108, cdkq_79, cdkq_64, cdkq_63, cdkq_61, cdkq_3, cdkq_2, cdkq_1, cdkq_0. cbn [cval]. rewrite dkq_form, <- cdkq_B_0_0, <- cdkq_B_0_1, <- cdkq_B_1_0, <- cdkq_B_1_1, <- cdkq_B_2_0, <- cdkq_B_2_1. entry. Qed.
Lemma cdkq_at_0_2 : cval env cdkq_135 = dkq_BDB E mu t xi eta xl 0%nat 2%nat.
Proof. unfold cdkq_135, cdkq_132, cdkq_79, cdkq_64, cdkq_63, cdkq_61, cdkq_3, cdkq_2, cdkq_1, cdkq_0. cbn [cval]. rewrite dkq_form, <- cdkq_B_0_0, <- cdkq_B_0_2, <- cdkq_B_1_0, <- cdkq_B_1_2, <- cdkq_B_2_0, <- cdkq_B_2_2. entry. Qed.
Lemma cdkq_at_0_3 : cval env cdkq_154 = dkq_BDB E mu t xi eta xl 0%nat 3%nat.
Proof. unfold cdkq_154, cdkq_151, cdkq_79, cdkq_64, cdkq_63, cdkq_61, cdkq_3, cdkq_2, cdkq_1, cdkq_0. cbn [cval]. rewrite dkq_form, <- cdkq_B_0_0, <- cdkq_B_0_3, <- cdkq_B_1_0, <- cdkq_B_1_3, <- cdkq_B_2_0, <- cdkq_B_2_3. entry. Qed.
Lemma cdkq_at_0_4 : cval env cdkq_173 = dkq_BDB E mu t xi eta xl 0%nat 4%nat.
Proof. unfold cdkq_173, cdkq_170, cdkq_79, cdkq_64, cdkq_63, cdkq_61, cdkq_3, cdkq_2, cdkq_1, cdkq_0. cbn [cval]. rewrite dkq_form, <- cdkq_B_0_0, <- cdkq_B_0_4, <- cdkq_B_1_0, <- cdkq_B_1_4, <- cdkq_B_2_0, <- cdkq_B_2_4. entry. Qed.
Lemma cdkq_at_0_5 : cval env cdkq_188 = dkq_BDB E mu t xi eta xl 0%nat 5%nat.
Proof. unfold cdkq_188, cdkq_185, cdkq_79, cdkq_64, cdkq_63, cdkq_61, cdkq_3, cdkq_2, cdkq_1, cdkq_0. cbn [cval]. rewrite dkq_form, <- cdkq_B_0_0, <- cdkq_B_0_5, <- cdkq_B_1_0, <- cdkq_B_1_5, <- cdkq_B_2_0, <- cdkq_B_2_5. entry. Qed.
Lemma cdkq_at_0_6 : cval env cdkq_206 = dkq_BDB E mu t xi eta xl 0%nat 6%nat.
Proof. unfold cdkq_206, cdkq_203, cdkq_79, cdkq_64, cdkq_63, cdkq_61, cdkq_3, cdkq_2, cdkq_1, cdkq_0. cbn [cval]. rewrite dkq_form, <- cdkq_B_0_0, <- cdkq_B_0_6, <- cdkq_B_1_0, <- cdkq_B_1_6, <- cdkq_B_2_0, <- cdkq_B_2_6. entry. Qed.
Lemma cdkq_at_0_7 : cval env cdkq_226 = dkq_BDB E mu t xi eta xl 0%nat 7%nat.
Proof. unfold cdkq_226, cdkq_223, cdkq_79, cdkq_64, cdkq_63, cdkq_61, cdkq_3, cdkq_2, cdkq_1, cdkq_0. cbn [cval]. rewrite dkq_form, <- cdkq_B_0_0, <- cdkq_B_0_7, <- cdkq_B_1_0, <- cdkq_B_1_7, <- cdkq_B_2_0, <- cdkq_B_2_7. entry. Qed.
Lemma cdkq_at_0_8 : cval env cdkq_242 = dkq_BDB E mu t xi eta xl 0%nat 8%nat.
Proof. unfold cdkq_242, cdkq_239, cdkq_79, cdkq_64, cdkq_63, cdkq_61, cdkq_3, cdkq_2, cdkq_1, cdkq_0. cbn [cval]. rewrite dkq_form, <- cdkq_B_0_0, <- cdkq_B_0_8, <- cdkq_B_1_0, <- cdkq_B_1_8, <- cdkq_B_2_0, <- cdkq_B_2_8. entry. Qed.
Lemma cdkq_at_0_9 : cval env cdkq_254 = dkq_BDB E mu t xi eta xl 0%nat 9%nat.
Proof. unfold cdkq_254, cdkq_251, cdkq_250, cdkq_64, cdkq_63, cdkq_61, cdkq_3, cdkq_2, cdkq_1, cdkq_0. cbn [cval]. rewrite dkq_form, <- cdkq_B_0_0, <- cdkq_B_0_9, <- cdkq_B_1_0, <- cdkq_B_1_9, <- cdkq_B_2_0, <- cdkq_B_2_9. entry. Qed.
Lemma cdkq_at_0_10 : cval env cdkq_265 = dkq_BDB E mu t xi eta xl 0%nat 10%nat.
Proof. unfold cdkq_265, cdkq_262, cdkq_79, cdkq_64, cdkq_63, cdkq_61, cdkq_3, cdkq_2, cdkq_1, cdkq_0. cbn [cval]. rewrite dkq_form, <- cdkq_B_0_0, <- cdkq_B_0_10, <- cdkq_B_1_0, <- cdkq_B_1_10, <- cdkq_B_2_0, <- cdkq_B_2_10. entry. Qed.
Lemma cdkq_at_0_11 : cval env cdkq_275 = dkq_BDB E mu t xi eta xl 0%nat 11%nat.
Proof. unfold cdkq_275, cdkq_272, cdkq_79, cdkq_64, cdkq_63, cdkq_61, cdkq_3, cdkq_2, cdkq_1, cdkq_0. cbn [cval]. rewrite dkq_form, <- cdkq_B_0_0, <- cdkq_B_0_11, <- cdkq_B_1_0, <- cdkq_B_1_11, <- cdkq_B_2_0, <- cdkq_B_2_11. entry. Qed.
Lemma cdkq_at_1_0 : cval env cdkq_278 = dkq_BDB E mu t xi eta xl 1%nat 0%nat.
Proof. unfold cdkq_278, cdkq_277, cdkq_276, cdkq_108, cdkq_79, cdkq_61, cdkq_3, cdkq_2, cdkq_1, cdkq_0. cbn [cval]. rewrite dkq_form, <- cdkq_B_0_0, <- cdkq_B_0_1, <- cdkq_B_1_0, <- cdkq_B_1_1, <- cdkq_B_2_0, <- cdkq_B_2_1. entry. Qed.
Lemma cdkq_at_1_1 : cval env cdkq_279 = dkq_BDB E mu t xi eta xl 1%nat 1%nat.
Proof. unfold cdkq_279, cdkq_277, cdkq_276, cdkq_61, cdkq_3, cdkq_2, cdkq_1, cdkq_0. cbn [cval]. rewrite dkq_form, <- cdkq_B_0_1, <- cdkq_B_1_1, <- cdkq_B_2_1. entry. Qed.
Lemma cdkq_at_1_2 : cval env cdkq_282 = dkq_BDB E mu t xi eta xl 1%nat 2%nat.
Proof. unfold cdkq_282, cdkq_281, cdkq_280, cdkq_277, cdkq_276, cdkq_61, cdkq_3, cdkq_2, cdkq_1, cdkq_0. cbn [cval]. rewrite dkq_form, <- cdkq_B_0_1, <- cdkq_B_0_2, <- cdkq_B_1_1, <- cdkq_B_1_2, <- cdkq_B_2_1, <- cdkq_B_2_2. entry. Qed.
Lemma cdkq_at_1_3 : cval env cdkq_285 = dkq_BDB E mu t xi eta xl 1%nat 3%nat.
Proof. unfold cdkq_285, cdkq_284, cdkq_283, cdkq_277, cdkq_276, cdkq_61, cdkq_3, cdkq_2, cdkq_1, cdkq_0. cbn [cval]. rewrite dkq_form, <- cdkq_B_0_1, <- cdkq_B_0_3, <- cdkq_B_1_1, <- cdkq_B_1_3, <- cdkq_B_2_1, <- cdkq_B_2_3. entry. Qed.
Lemma cdkq_at_1_4 : cval env cdkq_287 = dkq_BDB E mu t xi eta xl 1%nat 4%nat.
Proof. unfold cdkq_287, cdkq_286, cdkq_280, cdkq_277, cdkq_276, cdkq_61, cdkq_3, cdkq_2, cdkq_1, cdkq_0. cbn [cval]. rewrite dkq_form, <- cdkq_B_0_1, <- cdkq_B_0_4, <- cdkq_B_1_1, <- cdkq_B_1_4, <- cdkq_B_2_1, <- cdkq_B_2_4. entry. Qed.
Lemma cdkq_at_1_5 : cval env cdkq_289 = dkq_BDB E mu t xi eta xl 1%nat 5%nat.
Proof. unfold cdkq_289, cdkq_288, cdkq_280, cdkq_277, cdkq_276, cdkq_61, cdkq_3, cdkq_2, cdkq_1, cdkq_0. cbn [cval]. rewrite dkq_form, <- cdkq_B_0_1, <- cdkq_B_0_5, <- cdkq_B_1_1, <- cdkq_B_1_5, <- cdkq_B_2_1, <- cdkq_B_2_5. entry. Qed.
Lemma cdkq_at_1_6 : cval env cdkq_292 = dkq_BDB E mu t xi eta xl 1%nat 6%nat.
Proof. unfold cdkq_292, cdkq_291, cdkq_290, cdkq_277, cdkq_276, cdkq_61, cdkq_3, cdkq_2, cdkq_1, cdkq_0. cbn [cval]. rewrite dkq_form, <- cdkq_B_0_1, <- cdkq_B_0_6, <- cdkq_B_1_1, <- cdkq_B_1_6, <- cdkq_B_2_1, <- cdkq_B_2_6. entry. Qed.
Lemma cdkq_at_1_7 : cval env cdkq_294 = dkq_BDB E mu t xi eta xl 1%nat 7%nat.
Proof. unfold cdkq_294, cdkq_293, cdkq_280, cdkq_277, cdkq_276, cdkq_61, cdkq_3, cdkq_2, cdkq_1, cdkq_0. cbn [cval]. rewrite dkq_form, <- cdkq_B_0_1, <- cdkq_B_0_7, <- cdkq_B_1_1, <- cdkq_B_1_7, <- cdkq_B_2_1, <- cdkq_B_2_7. entry. Qed.
Lemma cdkq_at_1_8 : cval env cdkq_296 = dkq_BDB E mu t xi eta xl 1%nat 8%nat.
Proof. unfold cdkq_296, cdkq_295, cdkq_280, cdkq_277, cdkq_276, cdkq_61, cdkq_3, cdkq_2, cdkq_1, cdkq_0. cbn [cval]. rewrite dkq_form, <- cdkq_B_0_1, <- cdkq_B_0_8, <- cdkq_B_1_1, <- cdkq_B_1_8, <- cdkq_B_2_1, <- cdkq_B_2_8. entry. Qed.
Lemma cdkq_at_1_9 : cval env cdkq_298 = dkq_BDB E mu t xi eta xl 1%nat 9%nat.
Proof. unfold cdkq_298, cdkq_297, cdkq_277, cdkq_276, cdkq_250, cdkq_61, cdkq_3, cdkq_2, cdkq_1, cdkq_0. cbn [cval]. rewrite dkq_form, <- cdkq_B_0_1, <- cdkq_B_0_9, <- cdkq_B_1_1, <- cdkq_B_1_9, <- cdkq_B_2_1, <- cdkq_B_2_9. entry. Qed.
Lemma cdkq_at_1_10 : cval env cdkq_300 = dkq_BDB E mu t xi eta xl 1%nat 10%nat.
Proof. unfold cdkq_300, cdkq_299, cdkq_280, cdkq_277, cdkq_276, cdkq_61, cdkq_3, cdkq_2, cdkq_1, cdkq_0. cbn [cval]. rewrite dkq_form, <- cdkq_B_0_1, <- cdkq_B_0_10, <- cdkq_B_1_1, <- cdkq_B_1_10, <- cdkq_B_2_1, <- cdkq_B_2_10. entry. Qed.
Lemma cdkq_at_1_11 : cval env cdkq_302 = dkq_BDB E mu t xi eta xl 1%nat 11%nat.
Proof. unfold cdkq_302, cdkq_301, cdkq_280, cdkq_277, cdkq_276, cdkq_61, cdkq_3, cdkq_2, cdkq_1, cdkq_0. cbn [cval]. rewrite dkq_form, <- cdkq_B_0_1, <- cdkq_B_0_11, <- cdkq_B_1_1, <- cdkq_B_1_11, <- cdkq_B_2_1, <- cdkq_B_2_11. entry. Qed.
Lemma cdkq_at_2_0 : cval env cdkq_305 = dkq_BDB E mu t xi eta xl 2%nat 0%nat.
Proof. unfold cdkq_305, cdkq_304, cdkq_303, cdkq_132, cdkq_79, cdkq_61, cdkq_3, cdkq_2, cdkq_1, cdkq_0. cbn [cval]. rewrite dkq_form, <- cdkq_B_0_0, <- cdkq_B_0_2, <- cdkq_B_1_0, <- cdkq_B_1_2, <- cdkq_B_2_0, <- cdkq_B_2_2. entry. Qed.
Lemma cdkq_at_2_1 : cval env cdkq_306 = dkq_BDB E mu t xi eta xl 2%nat 1%nat.
Proof. unfold cdkq_306, cdkq_304, cdkq_303, cdkq_281, cdkq_280, cdkq_61, cdkq_3, cdkq_2, cdkq_1, cdkq_0. cbn [cval]. rewrite dkq_form, <- cdkq_B_0_1, <- cdkq_B_0_2, <- cdkq_B_1_1, <- cdkq_B_1_2, <- cdkq_B_2_1, <- cdkq_B_2_2. entry. Qed.
Lemma cdkq_at_2_2 : cval env cdkq_307 = dkq_BDB E mu t xi eta xl 2%nat 2%nat.
Proof. unfold cdkq_307, cdkq_304, cdkq_303, cdkq_61, cdkq_3, cdkq_2, cdkq_1, cdkq_0. cbn [cval]. rewrite dkq_form, <- cdkq_B_0_2, <- cdkq_B_1_2, <- cdkq_B_2_2. entry. Qed.
Lemma cdkq_at_2_3 : cval env cdkq_309 = dkq_BDB E mu t xi eta xl 2%nat 3%nat.
Proof. unfold cdkq_309, cdkq_308, cdkq_304, cdkq_303, cdkq_283, cdkq_61, cdkq_3, cdkq_2, cdkq_1, cdkq_0. cbn [cval]. rewrite dkq_form, <- cdkq_B_0_2, <- cdkq_B_0_3, <- cdkq_B_1_2, <- cdkq_B_1_3, <- cdkq_B_2_2, <- cdkq_B_2_3. entry. Qed.
Lemma cdkq_at_2_4 : cval env cdkq_312 = dkq_BDB E mu t xi eta xl 2%nat 4%nat.
Proof. unfold cdkq_312, cdkq_311, cdkq_310, cdkq_304, cdkq_303, cdkq_61, cdkq_3, cdkq_2, cdkq_1, cdkq_0. cbn [cval]. rewrite dkq_form, <- cdkq_B_0_2, <- cdkq_B_0_4, <- cdkq_B_1_2, <- cdkq_B_1_4, <- cdkq_B_2_2, <- cdkq_B_2_4. entry. Qed.
Lemma cdkq_at_2_5 : cval env cdkq_314 = dkq_BDB E mu t xi eta xl 2%nat 5%nat.
Proof. unfold cdkq_314, cdkq_313, cdkq_310, cdkq_304, cdkq_303, cdkq_61, cdkq_3, cdkq_2, cdkq_1, cdkq_0. cbn [cval]. rewrite dkq_form, <- cdkq_B_0_2, <- cdkq_B_0_5, <- cdkq_B_1_2, <- cdkq_B_1_5, <- cdkq_B_2_2, <- cdkq_B_2_5. entry. Qed.
Lemma cdkq_at_2_6 : cval env cdkq_316 = dkq_BDB E mu t xi eta xl 2%nat 6%nat.
Proof. unfold cdkq_316, cdkq_315, cdkq_304, cdkq_303, cdkq_290, cdkq_61, cdkq_3, cdkq_2, cdkq_1, cdkq_0. cbn [cval]. rewrite dkq_form, <- cdkq_B_0_2, <- cdkq_B_0_6, <- cdkq_B_1_2, <- cdkq_B_1_6, <- cdkq_B_2_2, <- cdkq_B_2_6. entry. Qed.
Lemma cdkq_at_2_7 : cval env cdkq_318 = dkq_BDB E mu t xi eta xl 2%nat 7%nat.
Proof. unfold cdkq_318, cdkq_317, cdkq_310, cdkq_304, cdkq_303, cdkq_61, cdkq_3, cdkq_2, cdkq_1, cdkq_0. cbn [cval]. rewrite dkq_form, <- cdkq_B_0_2, <- cdkq_B_0_7, <- cdkq_B_1_2, <- cdkq_B_1_7, <- cdkq_B_2_2, <- cdkq_B_2_7. entry. Qed.
Lemma cdkq_at_2_8 : cval env cdkq_320 = dkq_BDB E mu t xi eta xl 2%nat 8%nat.
Proof. unfold cdkq_320, cdkq_319, cdkq_310, cdkq_304, cdkq_303, cdkq_61, cdkq_3, cdkq_2, cdkq_1, cdkq_0. cbn [cval]. rewrite dkq_form, <- cdkq_B_0_2, <- cdkq_B_0_8, <- cdkq_B_1_2, <- cdkq_B_1_8, <- cdkq_B_2_2, <- cdkq_B_2_8. entry. Qed.
Lemma cdkq_at_2_9 : cval env cdkq_322 = dkq_BDB E mu t xi eta xl 2%nat 9%nat.
Proof. unfold cdkq_322, cdkq_321, cdkq_304, cdkq_303, cdkq_250, cdkq_61, cdkq_3, cdkq_2, cdkq_1, cdkq_0. cbn [cval]. rewrite dkq_form, <- cdkq_B_0_2, <- cdkq_B_0_9, <- cdkq_B_1_2, <- cdkq_B_1_9, <- cdkq_B_2_2, <- cdkq_B_2_9. entry. Qed.
Lemma cdkq_at_2_10 : cval env cdkq_325 = dkq_BDB E mu t xi eta xl 2%nat 10%nat.
Proof. unfold cdkq_325, cdkq_324, cdkq_323, cdkq_304, cdkq_303, cdkq_61, cdkq_3, cdkq_2, cdkq_1, cdkq_0. cbn [cval]. rewrite dkq_form, <- cdkq_B_0_2, <- cdkq_B_0_10, <- cdkq_B_1_2, <- cdkq_B_1_10, <- cdkq_B_2_2, <- cdkq_B_2_10. entry. Qed.
Lemma cdkq_at_2_11 : cval env cdkq_327 = dkq_BDB E mu t xi eta xl 2%nat 11%nat.
Proof. unfold cdkq_327, cdkq_326, cdkq_310, cdkq_304, cdkq_303, cdkq_61, cdkq_3, cdkq_2, cdkq_1, cdkq_0. cbn [cval]. rewrite dkq_form, <- cdkq_B_0_2, <- cdkq_B_0_11, <- cdkq_B_1_2, <- cdkq_B_1_11, <- cdkq_B_2_2, <- cdkq_B_2_11. entry. Qed.
Lemma cdkq_at_3_0 : cval env cdkq_330 = dkq_BDB E mu t xi eta xl 3%nat 0%nat.
Proof. unfold cdkq_330, cdkq_329, cdkq_328, cdkq_151, cdkq_79, cdkq_61, cdkq_3, cdkq_2, cdkq_1, cdkq_0. cbn [cval]. rewrite dkq_form, <- cdkq_B_0_0, <- cdkq_B_0_3, <- cdkq_B_1_0, <- cdkq_B_1_3, <- cdkq_B_2_0, <- cdkq_B_2_3. entry. Qed.
Lemma cdkq_at_3_1 : cval env cdkq_331 = dkq_BDB E mu t xi eta xl 3%nat 1%nat.
Proof. unfold cdkq_331, cdkq_329, cdkq_328, cdkq_284, cdkq_283, cdkq_61, cdkq_3, cdkq_2, cdkq_1, cdkq_0. cbn [cval]. rewrite dkq_form, <- cdkq_B_0_1, <- cdkq_B_0_3, <- cdkq_B_1_1, <- cdkq_B_1_3, <- cdkq_B_2_1, <- cdkq_B_2_3. entry. Qed.
Lemma cdkq_at_3_2 : cval env cdkq_332 = dkq_BDB E mu t xi eta xl 3%nat 2%nat.
Proof. unfold cdkq_332, cdkq_329, cdkq_328, cdkq_308, cdkq_283, cdkq_61, cdkq_3, cdkq_2, cdkq_1, cdkq_0. cbn [cval]. rewrite dkq_form, <- cdkq_B_0_2, <- cdkq_B_0_3, <- cdkq_B_1_2, <- cdkq_B_1_3, <- cdkq_B_2_2, <- cdkq_B_2_3. entry. Qed.
Lemma cdkq_at_3_3 : cval env cdkq_333 = dkq_BDB E mu t xi eta xl 3%nat 3%nat.
Proof. unfold cdkq_333, cdkq_329, cdkq_328, cdkq_61, cdkq_3, cdkq_2, cdkq_1, cdkq_0. cbn [cval]. rewrite dkq_form, <- cdkq_B_0_3, <- cdkq_B_1_3, <- cdkq_B_2_3. entry. Qed.
Lemma cdkq_at_3_4 : cval env cdkq_335 = dkq_BDB E mu t xi eta xl 3%nat 4%nat.
Proof. unfold cdkq_335, cdkq_334, cdkq_329, cdkq_328, cdkq_283, cdkq_61, cdkq_3, cdkq_2, cdkq_1, cdkq_0. cbn [cval]. rewrite dkq_form, <- cdkq_B_0_3, <- cdkq_B_0_4, <- cdkq_B_1_3, <- cdkq_B_1_4, <- cdkq_B_2_3, <- cdkq_B_2_4. entry. Qed.
Lemma cdkq_at_3_5 : cval env cdkq_337 = dkq_BDB E mu t xi eta xl 3%nat 5%nat.
Proof. unfold cdkq_337, cdkq_336, cdkq_329, cdkq_328, cdkq_283, cdkq_61, cdkq_3, cdkq_2, cdkq_1, cdkq_0. cbn [cval]. rewrite dkq_form, <- cdkq_B_0_3, <- cdkq_B_0_5, <- cdkq_B_1_3, <- cdkq_B_1_5, <- cdkq_B_2_3, <- cdkq_B_2_5. entry. Qed.
Lemma cdkq_at_3_6 : cval env cdkq_339 = dkq_BDB E mu t xi eta xl 3%nat 6%nat.
Proof. unfold cdkq_339, cdkq_338, cdkq_329, cdkq_328, cdkq_283, cdkq_61, cdkq_3, cdkq_2, cdkq_1, cdkq_0. cbn [cval]. rewrite dkq_form, <- cdkq_B_0_3, <- cdkq_B_0_6, <- cdkq_B_1_3, <- cdkq_B_1_6, <- cdkq_B_2_3, <- cdkq_B_2_6. entry. Qed.
Lemma cdkq_at_3_7 : cval env cdkq_341 = dkq_BDB E mu t xi eta xl 3%nat 7%nat.
Proof. unfold cdkq_341, cdkq_340, cdkq_329, cdkq_328, cdkq_283, cdkq_61, cdkq_3, cdkq_2, cdkq_1, cdkq_0. cbn [cval]. rewrite dkq_form, <- cdkq_B_0_3, <- cdkq_B_0_7, <- cdkq_B_1_3, <- cdkq_B_1_7, <- cdkq_B_2_3, <- cdkq_B_2_7. entry. Qed.
Lemma cdkq_at_3_8 : cval env cdkq_343 = dkq_BDB E mu t xi eta xl 3%nat 8%nat.
Proof. unfold cdkq_343, cdkq_342, cdkq_329, cdkq_328, cdkq_283, cdkq_61, cdkq_3, cdkq_2, cdkq_1, cdkq_0. cbn [cval]. rewrite dkq_form, <- cdkq_B_0_3, <- cdkq_B_0_8, <- cdkq_B_1_3, <- cdkq_B_1_8, <- cdkq_B_2_3, <- cdkq_B_2_8. entry. Qed.
Lemma cdkq_at_3_9 : cval env cdkq_345 = dkq_BDB E mu t xi eta xl 3%nat 9%nat.
Proof. unfold cdkq_345, cdkq_344, cdkq_329, cdkq_328, cdkq_250, cdkq_61, cdkq_3, cdkq_2, cdkq_1, cdkq_0. cbn [cval]. rewrite dkq_form, <- cdkq_B_0_3, <- cdkq_B_0_9, <- cdkq_B_1_3, <- cdkq_B_1_9, <- cdkq_B_2_3, <- cdkq_B_2_9. entry. Qed.
Lemma cdkq_at_3_10 : cval env cdkq_347 = dkq_BDB E mu t xi eta xl 3%nat 10%nat.
Proof. unfold cdkq_347, cdkq_346, cdkq_329, cdkq_328, cdkq_283, cdkq_61, cdkq_3, cdkq_2, cdkq_1, cdkq_0. cbn [cval]. rewrite dkq_form, <- cdkq_B_0_3, <- cdkq_B_0_10, <- cdkq_B_1_3, <- cdkq_B_1_10, <- cdkq_B_2_3, <- cdkq_B_2_10. entry. Qed.
Lemma cdkq_at_3_11 : cval env cdkq_349 = dkq_BDB E mu t xi eta xl 3%nat 11%nat.
Proof. unfold cdkq_349, cdkq_348, cdkq_329, cdkq_328, cdkq_283, cdkq_61, cdkq_3, cdkq_2, cdkq_1, cdkq_0. cbn [cval]. rewrite dkq_form, <- cdkq_B_0_3, <- cdkq_B_0_11, <- cdkq_B_1_3, <- cdkq_B_1_11, <- cdkq_B_2_3, <- cdkq_B_2_11. entry. Qed.
Lemma cdkq_at_4_0 : cval env cdkq_352 = dkq_BDB E mu t xi eta xl 4%nat 0%nat.
Proof. unfold cdkq_352, cdkq_351, cdkq_350, cdkq_170, cdkq_79, cdkq_61, cdkq_3, cdkq_2, cdkq_1, cdkq_0. cbn [cval]. rewrite dkq_form, <- cdkq_B_0_0, <- cdkq_B_0_4, <- cdkq_B_1_0, <- cdkq_B_1_4, <- cdkq_B_2_0, <- cdkq_B_2_4. entry. Qed.
Lemma cdkq_at_4_1 : cval env cdkq_353 = dkq_BDB E mu t xi eta xl 4%nat 1%nat.
Proof. unfold cdkq_353, cdkq_351, cdkq_350, cdkq_286, cdkq_280, cdkq_61, cdkq_3, cdkq_2, cdkq_1, cdkq_0. cbn [cval]. rewrite dkq_form, <- cdkq_B_0_1, <- cdkq_B_0_4, <- cdkq_B_1_1, <- cdkq_B_1_4, <- cdkq_B_2_1, <- cdkq_B_2_4. entry. Qed.
Lemma cdkq_at_4_2 : cval env cdkq_354 = dkq_BDB E mu t xi eta xl 4%nat 2%nat.
Proof. unfold cdkq_354, cdkq_351, cdkq_350, cdkq_311, cdkq_310, cdkq_61, cdkq_3, cdkq_2, cdkq_1, cdkq_0. cbn [cval]. rewrite dkq_form, <- cdkq_B_0_2, <- cdkq_B_0_4, <- cdkq_B_1_2, <- cdkq_B_1_4, <- cdkq_B_2_2, <- cdkq_B_2_4. entry. Qed.
Lemma cdkq_at_4_3 : cval env cdkq_355 = dkq_BDB E mu t xi eta xl 4%nat 3%nat.
Proof. unfold cdkq_355, cdkq_351, cdkq_350, cdkq_334, cdkq_283, cdkq_61, cdkq_3, cdkq_2, cdkq_1, cdkq_0. cbn [cval]. rewrite dkq_form, <- cdkq_B_0_3, <- cdkq_B_0_4, <- cdkq_B_1_3, <- cdkq_B_1_4, <- cdkq_B_2_3, <- cdkq_B_2_4. entry. Qed.
Lemma cdkq_at_4_4 : cval env cdkq_356 = dkq_BDB E mu t xi eta xl 4%nat 4%nat.
Proof. unfold cdkq_356, cdkq_351, cdkq_350, cdkq_61, cdkq_3, cdkq_2, cdkq_1, cdkq_0. cbn [cval]. rewrite dkq_form, <- cdkq_B_0_4, <- cdkq_B_1_4, <- cdkq_B_2_4. entry. Qed.
Lemma cdkq_at_4_5 : cval env cdkq_359 = dkq_BDB E mu t xi eta xl 4%nat 5%nat.
Proof. unfold cdkq_359, cdkq_358, cdkq_357, cdkq_351, cdkq_350, cdkq_61, cdkq_3, cdkq_2, cdkq_1, cdkq_0. cbn [cval]. rewrite dkq_form, <- cdkq_B_0_4, <- cdkq_B_0_5, <- cdkq_B_1_4, <- cdkq_B_1_5, <- cdkq_B_2_4, <- cdkq_B_2_5. entry. Qed.
Lemma cdkq_at_4_6 : cval env cdkq_361 = dkq_BDB E mu t xi eta xl 4%nat 6%nat.
Proof. unfold cdkq_361, cdkq_360, cdkq_351, cdkq_350, cdkq_290, cdkq_61, cdkq_3, cdkq_2, cdkq_1, cdkq_0. cbn [cval]. rewrite dkq_form, <- cdkq_B_0_4, <- cdkq_B_0_6, <- cdkq_B_1_4, <- cdkq_B_1_6, <- cdkq_B_2_4, <- cdkq_B_2_6. entry. Qed.
Lemma cdkq_at_4_7 : cval env cdkq_363 = dkq_BDB E mu t xi eta xl 4%nat 7%nat.
Proof. unfold cdkq_363, cdkq_362, cdkq_357, cdkq_351, cdkq_350, cdkq_61, cdkq_3, cdkq_2, cdkq_1, cdkq_0. cbn [cval]. rewrite dkq_form, <- cdkq_B_0_4, <- cdkq_B_0_7, <- cdkq_B_1_4, <- cdkq_B_1_7, <- cdkq_B_2_4, <- cdkq_B_2_7. entry. Qed.
Lemma cdkq_at_4_8 : cval env cdkq_365 = dkq_BDB E mu t xi eta xl 4%nat 8%nat.
Proof. unfold cdkq_365, cdkq_364, cdkq_357, cdkq_351, cdkq_350, cdkq_61, cdkq_3, cdkq_2, cdkq_1, cdkq_0. cbn [cval]. rewrite dkq_form, <- cdkq_B_0_4, <- cdkq_B_0_8, <- cdkq_B_1_4, <- cdkq_B_1_8, <- cdkq_B_2_4, <- cdkq_B_2_8. entry. Qed.
Lemma cdkq_at_4_9 : cval env cdkq_367 = dkq_BDB E mu t xi eta xl 4%nat 9%nat.
Proof. unfold cdkq_367, cdkq_366, cdkq_351, cdkq_350, cdkq_250, cdkq_61, cdkq_3, cdkq_2, cdkq_1, cdkq_0. cbn [cval]. rewrite dkq_form, <- cdkq_B_0_4, <- cdkq_B_0_9, <- cdkq_B_1_4, <- cdkq_B_1_9, <- cdkq_B_2_4, <- cdkq_B_2_9. entry. Qed.
Lemma cdkq_at_4_10 : cval env cdkq_369 = dkq_BDB E mu t xi eta xl 4%nat 10%nat.
Proof. unfold cdkq_369, cdkq_368, cdkq_351, cdkq_350, cdkq_323, cdkq_61, cdkq_3, cdkq_2, cdkq_1, cdkq_0. cbn [cval]. rewrite dkq_form, <- cdkq_B_0_4, <- cdkq_B_0_10, <- cdkq_B_1_4, <- cdkq_B_1_10, <- cdkq_B_2_4, <- cdkq_B_2_10. entry. Qed.
Lemma cdkq_at_4_11 : cval env cdkq_372 = dkq_BDB E mu t xi eta xl 4%nat 11%nat.
Proof. unfold cdkq_372, cdkq_371, cdkq_370, cdkq_351, cdkq_350, cdkq_61, cdkq_3, cdkq_2, cdkq_1, cdkq_0. cbn [cval]. rewrite dkq_form, <- cdkq_B_0_4, <- cdkq_B_0_11, <- cdkq_B_1_4, <- cdkq_B_1_11, <- cdkq_B_2_4, <- cdkq_B_2_11. entry. Qed.
Lemma cdkq_at_5_0 : cval env cdkq_375 = dkq_BDB E mu t xi eta xl 5%nat 0%nat.
Proof. unfold cdkq_375, cdkq_374, cdkq_373, cdkq_185, cdkq_79, cdkq_61, cdkq_3, cdkq_2, cdkq_1, cdkq_0. cbn [cval]. rewrite dkq_form, <- cdkq_B_0_0, <- cdkq_B_0_5, <- cdkq_B_1_0, <- cdkq_B_1_5, <- cdkq_B_2_0, <- cdkq_B_2_5. entry. Qed.
Lemma cdkq_at_5_1 : cval env cdkq_376 = dkq_BDB E mu t xi eta xl 5%nat 1%nat.
Proof. unfold cdkq_376, cdkq_374, cdkq_373, cdkq_288, cdkq_280, cdkq_61, cdkq_3, cdkq_2, cdkq_1, cdkq_0. cbn [cval]. rewrite dkq_form, <- cdkq_B_0_1, <- cdkq_B_0_5, <- cdkq_B_1_1, <- cdkq_B_1_5, <- cdkq_B_2_1, <- cdkq_B_2_5. entry. Qed.
Lemma cdkq_at_5_2 : cval env cdkq_377 = dkq_BDB E mu t xi eta xl 5%nat 2%nat.
Proof. unfold cdkq_377, cdkq_374, cdkq_373, cdkq_313, cdkq_310, cdkq_61, cdkq_3, cdkq_2, cdkq_1, cdkq_0. cbn [cval]. rewrite dkq_form, <- cdkq_B_0_2, <- cdkq_B_0_5, <- cdkq_B_1_2, <- cdkq_B_1_5, <- cdkq_B_2_2, <- cdkq_B_2_5. entry. Qed.
Lemma cdkq_at_5_3 : cval env cdkq_378 = dkq_BDB E mu t xi eta xl 5%nat 3%nat.
Proof. unfold cdkq_378, cdkq_374, cdkq_373, cdkq_336, cdkq_283, cdkq_61, cdkq_3, cdkq_2, cdkq_1, cdkq_0. cbn [cval]. rewrite dkq_form, <- cdkq_B_0_3, <- cdkq_B_0_5, <- cdkq_B_1_3, <- cdkq_B_1_5, <- cdkq_B_2_3, <- cdkq_B_2_5. entry. Qed.
Lemma cdkq_at_5_4 : cval env cdkq_379 = dkq_BDB E mu t xi eta xl 5%nat 4%nat.
Proof. unfold cdkq_379, cdkq_374, cdkq_373, cdkq_358, cdkq_357, cdkq_61, cdkq_3, cdkq_2, cdkq_1, cdkq_0. cbn [cval]. rewrite dkq_form, <- cdkq_B_0_4, <- cdkq_B_0_5, <- cdkq_B_1_4, <- cdkq_B_1_5, <- cdkq_B_2_4, <- cdkq_B_2_5. entry. Qed.
Lemma cdkq_at_5_5 : cval env cdkq_380 = dkq_BDB E mu t xi eta xl 5%nat 5%nat.
Proof. unfold cdkq_380, cdkq_374, cdkq_373, cdkq_61, cdkq_3, cdkq_2, cdkq_1, cdkq_0. cbn [cval]. rewrite dkq_form, <- cdkq_B_0_5, <- cdkq_B_1_5, <- cdkq_B_2_5. entry. Qed.
Lemma cdkq_at_5_6 : cval env cdkq_382 = dkq_BDB E mu t xi eta xl 5%nat 6%nat.
Proof. unfold cdkq_382, cdkq_381, cdkq_374, cdkq_373, cdkq_290, cdkq_61, cdkq_3, cdkq_2, cdkq_1, cdkq_0. cbn [cval]. rewrite dkq_form, <- cdkq_B_0_5, <- cdkq_B_0_6, <- cdkq_B_1_5, <- cdkq_B_1_6, <- cdkq_B_2_5, <- cdkq_B_2_6. entry. Qed.
Lemma cdkq_at_5_7 : cval env cdkq_385 = dkq_BDB E mu t xi eta xl 5%nat 7%nat.
Proof. unfold cdkq_385, cdkq_384, cdkq_383, cdkq_374, cdkq_373, cdkq_61, cdkq_3, cdkq_2, cdkq_1, cdkq_0. cbn [cval]. rewrite dkq_form, <- cdkq_B_0_5, <- cdkq_B_0_7, <- cdkq_B_1_5, <- cdkq_B_1_7, <- cdkq_B_2_5, <- cdkq_B_2_7. entry. Qed.
Lemma cdkq_at_5_8 : cval env cdkq_387 = dkq_BDB E mu t xi eta xl 5%nat 8%nat.
Proof. unfold cdkq_387, cdkq_386, cdkq_374, cdkq_373, cdkq_61, cdkq_3, cdkq_2, cdkq_1, cdkq_0. cbn [cval]. rewrite dkq_form, <- cdkq_B_0_5, <- cdkq_B_0_8, <- cdkq_B_1_5, <- cdkq_B_1_8, <- cdkq_B_2_5, <- cdkq_B_2_8. entry. Qed.
Lemma cdkq_at_5_9 : cval env cdkq_389 = dkq_BDB E mu t xi eta xl 5%nat 9%nat.
Proof. unfold cdkq_389, cdkq_388, cdkq_374, cdkq_373, cdkq_250, cdkq_61, cdkq_3, cdkq_2, cdkq_1, cdkq_0. cbn [cval]. rewrite dkq_form, <- cdkq_B_0_5, <- cdkq_B_0_9, <- cdkq_B_1_5, <- cdkq_B_1_9, <- cdkq_B_2_5, <- cdkq_B_2_9. entry. Qed.
Lemma cdkq_at_5_10 : cval env cdkq_391 = dkq_BDB E mu t xi eta xl 5%nat 10%nat.
Proof. unfold cdkq_391, cdkq_390, cdkq_374, cdkq_373, cdkq_323, cdkq_61, cdkq_3, cdkq_2, cdkq_1, cdkq_0. cbn [cval]. rewrite dkq_form, <- cdkq_B_0_5, <- cdkq_B_0_10, <- cdkq_B_1_5, <- cdkq_B_1_10, <- cdkq_B_2_5, <- cdkq_B_2_10. entry. Qed.
Lemma cdkq_at_5_11 : cval env cdkq_393 = dkq_BDB E mu t xi eta xl 5%nat 11%nat.
Proof. unfold cdkq_393, cdkq_392, cdkq_374, cdkq_373, cdkq_370, cdkq_61, cdkq_3, cdkq_2, cdkq_1, cdkq_0. cbn [cval]. rewrite dkq_form, <- cdkq_B_0_5, <- cdkq_B_0_11, <- cdkq_B_1_5, <- cdkq_B_1_11, <- cdkq_B_2_5, <- cdkq_B_2_11. entry. Qed.
Lemma cdkq_at_6_0 : cval env cdkq_396 = dkq_BDB E mu t xi eta xl 6%nat 0%nat.
Proof. unfold cdkq_396, cdkq_395, cdkq_394, cdkq_203, cdkq_79, cdkq_61, cdkq_3, cdkq_2, cdkq_1, cdkq_0. cbn [cval]. rewrite dkq_form, <- cdkq_B_0_0, <- cdkq_B_0_6, <- cdkq_B_1_0, <- cdkq_B_1_6, <- cdkq_B_2_0, <- cdkq_B_2_6. entry. Qed.
Lemma cdkq_at_6_1 : cval env cdkq_397 = dkq_BDB E mu t xi eta xl 6%nat 1%nat.
Proof. unfold cdkq_397, cdkq_395, cdkq_394, cdkq_291, cdkq_290, cdkq_61, cdkq_3, cdkq_2, cdkq_1, cdkq_0. cbn [cval]. rewrite dkq_form, <- cdkq_B_0_1, <- cdkq_B_0_6, <- cdkq_B_1_1, <- cdkq_B_1_6, <- cdkq_B_2_1, <- cdkq_B_2_6. entry. Qed.
Lemma cdkq_at_6_2 : cval env cdkq_398 = dkq_BDB E mu t xi eta xl 6%nat 2%nat.
Proof. unfold cdkq_398, cdkq_395, cdkq_394, cdkq_315, cdkq_290, cdkq_61, cdkq_3, cdkq_2, cdkq_1, cdkq_0. cbn [cval]. rewrite dkq_form, <- cdkq_B_0_2, <- cdkq_B_0_6, <- cdkq_B_1_2, <- cdkq_B_1_6, <- cdkq_B_2_2, <- cdkq_B_2_6. entry. Qed.
Lemma cdkq_at_6_3 : cval env cdkq_399 = dkq_BDB E mu t xi eta xl 6%nat 3%nat.
Proof. unfold cdkq_399, cdkq_395, cdkq_394, cdkq_338, cdkq_283, cdkq_61, cdkq_3, cdkq_2, cdkq_1, cdkq_0. cbn [cval]. rewrite dkq_form, <- cdkq_B_0_3, <- cdkq_B_0_6, <- cdkq_B_1_3, <- cdkq_B_1_6, <- cdkq_B_2_3, <- cdkq_B_2_6. entry. Qed.
Lemma cdkq_at_6_4 : cval env cdkq_400 = dkq_BDB E mu t xi eta xl 6%nat 4%nat.
Proof. unfold cdkq_400, cdkq_395, cdkq_394, cdkq_360, cdkq_290, cdkq_61, cdkq_3, cdkq_2, cdkq_1, cdkq_0. cbn [cval]. rewrite dkq_form, <- cdkq_B_0_4, <- cdkq_B_0_6, <- cdkq_B_1_4, <- cdkq_B_1_6, <- cdkq_B_2_4, <- cdkq_B_2_6. entry. Qed.
Lemma cdkq_at_6_5 : cval env cdkq_401 = dkq_BDB E mu t xi eta xl 6%nat 5%nat.
Proof. unfold cdkq_401, cdkq_395, cdkq_394, cdkq_381, cdkq_290, cdkq_61, cdkq_3, cdkq_2, cdkq_1, cdkq_0. cbn [cval]. rewrite dkq_form, <- cdkq_B_0_5, <- cdkq_B_0_6, <- cdkq_B_1_5, <- cdkq_B_1_6, <- cdkq_B_2_5, <- cdkq_B_2_6. entry. Qed.
Lemma cdkq_at_6_6 : cval env cdkq_402 = dkq_BDB E mu t xi eta xl 6%nat 6%nat.
Proof. unfold cdkq_402, cdkq_395, cdkq_394, cdkq_61, cdkq_3, cdkq_2, cdkq_1, cdkq_0. cbn [cval]. rewrite dkq_form, <- cdkq_B_0_6, <- cdkq_B_1_6, <- cdkq_B_2_6. entry. Qed.
Lemma cdkq_at_6_7 : cval env cdkq_404 = dkq_BDB E mu t xi eta xl 6%nat 7%nat.
Proof. unfold cdkq_404, cdkq_403, cdkq_395, cdkq_394, cdkq_290, cdkq_61, cdkq_3, cdkq_2, cdkq_1, cdkq_0. cbn [cval]. rewrite dkq_form, <- cdkq_B_0_6, <- cdkq_B_0_7, <- cdkq_B_1_6, <- cdkq_B_1_7, <- cdkq_B_2_6, <- cdkq_B_2_7. entry. Qed.
Lemma cdkq_at_6_8 : cval env cdkq_406 = dkq_BDB E mu t xi eta xl 6%nat 8%nat.
Proof. unfold cdkq_406, cdkq_405, cdkq_395, cdkq_394, cdkq_290, cdkq_61, cdkq_3, cdkq_2, cdkq_1, cdkq_0. cbn [cval]. rewrite dkq_form, <- cdkq_B_0_6, <- cdkq_B_0_8, <- cdkq_B_1_6, <- cdkq_B_1_8, <- cdkq_B_2_6, <- cdkq_B_2_8. entry. Qed.
Lemma cdkq_at_6_9 : cval env cdkq_408 = dkq_BDB E mu t xi eta xl 6%nat 9%nat.
Proof. unfold cdkq_408, cdkq_407, cdkq_395, cdkq_394, cdkq_250, cdkq_61, cdkq_3, cdkq_2, cdkq_1, cdkq_0. cbn [cval]. rewrite dkq_form, <- cdkq_B_0_6, <- cdkq_B_0_9, <- cdkq_B_1_6, <- cdkq_B_1_9, <- cdkq_B_2_6, <- cdkq_B_2_9. entry. Qed.
Lemma cdkq_at_6_10 : cval env cdkq_410 = dkq_BDB E mu t xi eta xl 6%nat 10%nat.
Proof. unfold cdkq_410, cdkq_409, cdkq_395, cdkq_394, cdkq_290, cdkq_61, cdkq_3, cdkq_2, cdkq_1, cdkq_0. cbn [cval]. rewrite dkq_form, <- cdkq_B_0_6, <- cdkq_B_0_10, <- cdkq_B_1_6, <- cdkq_B_1_10, <- cdkq_B_2_6, <- cdkq_B_2_10. entry. Qed.
Lemma cdkq_at_6_11 : cval env cdkq_412 = dkq_BDB E mu t xi eta xl 6%nat 11%nat.
Proof. unfold cdkq_412, cdkq_411, cdkq_395, cdkq_394, cdkq_290, cdkq_61, cdkq_3, cdkq_2, cdkq_1, cdkq_0. cbn [cval]. rewrite dkq_form, <- cdkq_B_0_6, <- cdkq_B_0_11, <- cdkq_B_1_6, <- cdkq_B_1_11, <- cdkq_B_2_6, <- cdkq_B_2_11. entry. Qed.
Lemma cdkq_at_7_0 : cval env cdkq_415 = dkq_BDB E mu t xi eta xl 7%nat 0%nat.
Proof. unfold cdkq_415, cdkq_414, cdkq_413, cdkq_223, cdkq_79, cdkq_61, cdkq_3, cdkq_2, cdkq_1, cdkq_0. cbn [cval]. rewrite dkq_form, <- cdkq_B_0_0, <- cdkq_B_0_7, <- cdkq_B_1_0, <- cdkq_B_1_7, <- cdkq_B_2_0, <- cdkq_B_2_7. entry. Qed.
Lemma cdkq_at_7_1 : cval env cdkq_416 = dkq_BDB E mu t xi eta xl 7%nat 1%nat.
Proof. unfold cdkq_416, cdkq_414, cdkq_413, cdkq_293, cdkq_280, cdkq_61, cdkq_3, cdkq_2, cdkq_1, cdkq_0. cbn [cval]. rewrite dkq_form, <- cdkq_B_0_1, <- cdkq_B_0_7, <- cdkq_B_1_1, <- cdkq_B_1_7, <- cdkq_B_2_1, <- cdkq_B_2_7. entry. Qed.
Lemma cdkq_at_7_2 : cval env cdkq_417 = dkq_BDB E mu t xi eta xl 7%nat 2%nat.
Proof. unfold cdkq_417, cdkq_414, cdkq_413, cdkq_317, cdkq_310, cdkq_61, cdkq_3, cdkq_2, cdkq_1, cdkq_0. cbn [cval]. rewrite dkq_form, <- cdkq_B_0_2, <- cdkq_B_0_7, <- cdkq_B_1_2, <- cdkq_B_1_7, <- cdkq_B_2_2, <- cdkq_B_2_7. entry. Qed.
Lemma cdkq_at_7_3 : cval env cdkq_418 = dkq_BDB E mu t xi eta xl 7%nat 3%nat.
Proof. unfold cdkq_418, cdkq_414, cdkq_413, cdkq_340, cdkq_283, cdkq_61, cdkq_3, cdkq_2, cdkq_1, cdkq_0. cbn [cval]. rewrite dkq_form, <- cdkq_B_0_3, <- cdkq_B_0_7, <- cdkq_B_1_3, <- cdkq_B_1_7, <- cdkq_B_2_3, <- cdkq_B_2_7. entry. Qed.
Lemma cdkq_at_7_4 : cval env cdkq_419 = dkq_BDB E mu t xi eta xl 7%nat 4%nat.
Proof. unfold cdkq_419, cdkq_414, cdkq_413, cdkq_362, cdkq_357, cdkq_61, cdkq_3, cdkq_2, cdkq_1, cdkq_0. cbn [cval]. rewrite dkq_form, <- cdkq_B_0_4, <- cdkq_B_0_7, <- cdkq_B_1_4, <- cdkq_B_1_7, <- cdkq_B_2_4, <- cdkq_B_2_7. entry. Qed.
Lemma cdkq_at_7_5 : cval env cdkq_420 = dkq_BDB E mu t xi eta xl 7%nat 5%nat.
Proof. unfold cdkq_420, cdkq_414, cdkq_413, cdkq_384, cdkq_383, cdkq_61, cdkq_3, cdkq_2, cdkq_1, cdkq_0. cbn [cval]. rewrite dkq_form, <- cdkq_B_0_5, <- cdkq_B_0_7, <- cdkq_B_1_5, <- cdkq_B_1_7, <- cdkq_B_2_5, <- cdkq_B_2_7. entry. Qed.
Lemma cdkq_at_7_6 : cval env cdkq_421 = dkq_BDB E mu t xi eta xl 7%nat 6%nat.
Proof. unfold cdkq_421, cdkq_414, cdkq_413, cdkq_403, cdkq_290, cdkq_61, cdkq_3, cdkq_2, cdkq_1, cdkq_0. cbn [cval]. rewrite dkq_form, <- cdkq_B_0_6, <- cdkq_B_0_7, <- cdkq_B_1_6, <- cdkq_B_1_7, <- cdkq_B_2_6, <- cdkq_B_2_7. entry. Qed.
Lemma cdkq_at_7_7 : cval env cdkq_422 = dkq_BDB E mu t xi eta xl 7%nat 7%nat.
Proof. unfold cdkq_422, cdkq_414, cdkq_413, cdkq_61, cdkq_3, cdkq_2, cdkq_1, cdkq_0. cbn [cval]. rewrite dkq_form, <- cdkq_B_0_7, <- cdkq_B_1_7, <- cdkq_B_2_7. entry. Qed.
Lemma cdkq_at_7_8 : cval env cdkq_424 = dkq_BDB E mu t xi eta xl 7%nat 8%nat.
Proof. unfold cdkq_424, cdkq_423, cdkq_414, cdkq_413, cdkq_383, cdkq_61, cdkq_3, cdkq_2, cdkq_1, cdkq_0. cbn [cval]. rewrite dkq_form, <- cdkq_B_0_7, <- cdkq_B_0_8, <- cdkq_B_1_7, <- cdkq_B_1_8, <- cdkq_B_2_7, <- cdkq_B_2_8. entry. Qed.
Lemma cdkq_at_7_9 : cval env cdkq_426 = dkq_BDB E mu t xi eta xl 7%nat 9%nat.
Proof. unfold cdkq_426, cdkq_425, cdkq_414, cdkq_413, cdkq_250, cdkq_61, cdkq_3, cdkq_2, cdkq_1, cdkq_0. cbn [cval]. rewrite dkq_form, <- cdkq_B_0_7, <- cdkq_B_0_9, <- cdkq_B_1_7, <- cdkq_B_1_9, <- cdkq_B_2_7, <- cdkq_B_2_9. entry. Qed.
Lemma cdkq_at_7_10 : cval env cdkq_428 = dkq_BDB E mu t xi eta xl 7%nat 10%nat.
Proof. unfold cdkq_428, cdkq_427, cdkq_414, cdkq_413, cdkq_323, cdkq_61, cdkq_3, cdkq_2, cdkq_1, cdkq_0. cbn [cval]. rewrite dkq_form, <- cdkq_B_0_7, <- cdkq_B_0_10, <- cdkq_B_1_7, <- cdkq_B_1_10, <- cdkq_B_2_7, <- cdkq_B_2_10. entry. Qed.
Lemma cdkq_at_7_11 : cval env cdkq_430 = dkq_BDB E mu t xi eta xl 7%nat 11%nat.
Proof. unfold cdkq_430, cdkq_429, cdkq_414, cdkq_413, cdkq_370, cdkq_61, cdkq_3, cdkq_2, cdkq_1, cdkq_0. cbn [cval]. rewrite dkq_form, <- cdkq_B_0_7, <- cdkq_B_0_11, <- cdkq_B_1_7, <- cdkq_B_1_11, <- cdkq_B_2_7, <- cdkq_B_2_11. entry. Qed.
Lemma cdkq_at_8_0 : cval env cdkq_433 = dkq_BDB E mu t xi eta xl 8%nat 0%nat.
Proof. unfold cdkq_433, cdkq_432, cdkq_431, cdkq_239, cdkq_79, cdkq_61, cdkq_3, cdkq_2, cdkq_1, cdkq_0. cbn [cval]. rewrite dkq_form, <- cdkq_B_0_0, <- cdkq_B_0_8, <- cdkq_B_1_0, <- cdkq_B_1_8, <- cdkq_B_2_0, <- cdkq_B_2_8. entry. Qed.
Lemma cdkq_at_8_1 : cval env cdkq_434 = dkq_BDB E mu t xi eta xl 8%nat 1%nat.
Proof. unfold cdkq_434, cdkq_432, cdkq_431, cdkq_295, cdkq_280, cdkq_61, cdkq_3, cdkq_2, cdkq_1, cdkq_0. cbn [cval]. rewrite dkq_form, <- cdkq_B_0_1, <- cdkq_B_0_8, <- cdkq_B_1_1, <- cdkq_B_1_8, <- cdkq_B_2_1, <- cdkq_B_2_8. entry. Qed.
Lemma cdkq_at_8_2 : cval env cdkq_435 = dkq_BDB E mu t xi eta xl 8%nat 2%nat.
Proof. unfold cdkq_435, cdkq_432, cdkq_431, cdkq_319, cdkq_310, cdkq_61, cdkq_3, cdkq_2, cdkq_1, cdkq_0. cbn [cval]. rewrite dkq_form, <- cdkq_B_0_2, <- cdkq_B_0_8, <- cdkq_B_1_2, <- cdkq_B_1_8, <- cdkq_B_2_2, <- cdkq_B_2_8. entry. Qed.
Lemma cdkq_at_8_3 : cval env cdkq_436 = dkq_BDB E mu t xi eta xl 8%nat 3%nat.
Proof. unfold cdkq_436, cdkq_432, cdkq_431, cdkq_342, cdkq_283, cdkq_61, cdkq_3, cdkq_2, cdkq_1, cdkq_0. cbn [cval]. rewrite dkq_form, <- cdkq_B_0_3, <- cdkq_B_0_8, <- cdkq_B_1_3, <- cdkq_B_1_8, <- cdkq_B_2_3, <- cdkq_B_2_8. entry. Qed.
Lemma cdkq_at_8_4 : cval env cdkq_437 = dkq_BDB E mu t xi eta xl 8%nat 4%nat.
Proof. unfold cdkq_437, cdkq_432, cdkq_431, cdkq_364, cdkq_357, cdkq_61, cdkq_3, cdkq_2, cdkq_1, cdkq_0. cbn [cval]. rewrite dkq_form, <- cdkq_B_0_4, <- cdkq_B_0_8, <- cdkq_B_1_4, <- cdkq_B_1_8, <- cdkq_B_2_4, <- cdkq_B_2_8. entry. Qed.
Lemma cdkq_at_8_5 : cval env cdkq_438 = dkq_BDB E mu t xi eta xl 8%nat 5%nat.
Proof. unfold cdkq_438, cdkq_432, cdkq_431, cdkq_386, cdkq_61, cdkq_3, cdkq_2, cdkq_1, cdkq_0. cbn [cval]. rewrite dkq_form, <- cdkq_B_0_5, <- cdkq_B_0_8, <- cdkq_B_1_5, <- cdkq_B_1_8, <- cdkq_B_2_5, <- cdkq_B_2_8. entry. Qed.
Lemma cdkq_at_8_6 : cval env cdkq_439 = dkq_BDB E mu t xi eta xl 8%nat 6%nat.
Proof. unfold cdkq_439, cdkq_432, cdkq_431, cdkq_405, cdkq_290, cdkq_61, cdkq_3, cdkq_2, cdkq_1, cdkq_0. cbn [cval]. rewrite dkq_form, <- cdkq_B_0_6, <- cdkq_B_0_8, <- cdkq_B_1_6, <- cdkq_B_1_8, <- cdkq_B_2_6, <- cdkq_B_2_8. entry. Qed.
Lemma cdkq_at_8_7 : cval env cdkq_440 = dkq_BDB E mu t xi eta xl 8%nat 7%nat.
Proof. unfold cdkq_440, cdkq_432, cdkq_431, cdkq_423, cdkq_383, cdkq_61, cdkq_3, cdkq_2, cdkq_1, cdkq_0. cbn [cval]. rewrite dkq_form, <- cdkq_B_0_7, <- cdkq_B_0_8, <- cdkq_B_1_7, <- cdkq_B_1_8, <- cdkq_B_2_7, <- cdkq_B_2_8. entry. Qed.
Lemma cdkq_at_8_8 : cval env cdkq_441 = dkq_BDB E mu t xi eta xl 8%nat 8%nat.
Proof. unfold cdkq_441, cdkq_432, cdkq_431, cdkq_61, cdkq_3, cdkq_2, cdkq_1, cdkq_0. cbn [cval]. rewrite dkq_form, <- cdkq_B_0_8, <- cdkq_B_1_8, <- cdkq_B_2_8. entry. Qed.
Lemma cdkq_at_8_9 : cval env cdkq_443 = dkq_BDB E mu t xi eta xl 8%nat 9%nat.
Proof. unfold cdkq_443, cdkq_442, cdkq_432, cdkq_431, cdkq_250, cdkq_61, cdkq_3, cdkq_2, cdkq_1, cdkq_0. cbn [cval]. rewrite dkq_form, <- cdkq_B_0_8, <- cdkq_B_0_9, <- cdkq_B_1_8, <- cdkq_B_1_9, <- cdkq_B_2_8, <- cdkq_B_2_9. entry. Qed.
Lemma cdkq_at_8_10 : cval env cdkq_445 = dkq_BDB E mu t xi eta xl 8%nat 10%nat.
Proof. unfold cdkq_445, cdkq_444, cdkq_432, cdkq_431, cdkq_323, cdkq_61, cdkq_3, cdkq_2, cdkq_1, cdkq_0. cbn [cval]. rewrite dkq_form, <- cdkq_B_0_8, <- cdkq_B_0_10, <- cdkq_B_1_8, <- cdkq_B_1_10, <- cdkq_B_2_8, <- cdkq_B_2_10. entry. Qed.
Lemma cdkq_at_8_11 : cval env cdkq_447 = dkq_BDB E mu t xi eta xl 8%nat 11%nat.
Proof. unfold cdkq_447, cdkq_446, cdkq_432, cdkq_431, cdkq_370, cdkq_61, cdkq_3, cdkq_2, cdkq_1, cdkq_0. cbn [cval]. rewrite dkq_form, <- cdkq_B_0_8, <- cdkq_B_0_11, <- cdkq_B_1_8, <- cdkq_B_1_11, <- cdkq_B_2_8, <- cdkq_B_2_11. entry. Qed.
Lemma cdkq_at_9_0 : cval env cdkq_450 = dkq_BDB E mu t xi eta xl 9%nat 0%nat.
Proof. unfold cdkq_450, cdkq_449, cdkq_448, cdkq_251, cdkq_250, cdkq_61, cdkq_3, cdkq_2, cdkq_1, cdkq_0. cbn [cval]. rewrite dkq_form, <- cdkq_B_0_0, <- cdkq_B_0_9, <- cdkq_B_1_0, <- cdkq_B_1_9, <- cdkq_B_2_0, <- cdkq_B_2_9. entry. Qed.
Lemma cdkq_at_9_1 : cval env cdkq_451 = dkq_BDB E mu t xi eta xl 9%nat 1%nat.
Proof. unfold cdkq_451, cdkq_449, cdkq_448, cdkq_297, cdkq_250, cdkq_61, cdkq_3, cdkq_2, cdkq_1, cdkq_0. cbn [cval]. rewrite dkq_form, <- cdkq_B_0_1, <- cdkq_B_0_9, <- cdkq_B_1_1, <- cdkq_B_1_9, <- cdkq_B_2_1, <- cdkq_B_2_9. entry. Qed.
Lemma cdkq_at_9_2 : cval env cdkq_452 = dkq_BDB E mu t xi eta xl 9%nat 2%nat.
Proof. unfold cdkq_452, cdkq_449, cdkq_448, cdkq_321, cdkq_250, cdkq_61, cdkq_3, cdkq_2, cdkq_1, cdkq_0. cbn [cval]. rewrite dkq_form, <- cdkq_B_0_2, <- cdkq_B_0_9, <- cdkq_B_1_2, <- cdkq_B_1_9, <- cdkq_B_2_2, <- cdkq_B_2_9. entry. Qed.
Lemma cdkq_at_9_3 : cval env cdkq_453 = dkq_BDB E mu t xi eta xl 9%nat 3%nat.
Proof. unfold cdkq_453, cdkq_449, cdkq_448, cdkq_344, cdkq_250, cdkq_61, cdkq_3, cdkq_2, cdkq_1, cdkq_0. cbn [cval]. rewrite dkq_form, <- cdkq_B_0_3, <- cdkq_B_0_9, <- cdkq_B_1_3, <- cdkq_B_1_9, <- cdkq_B_2_3, <- cdkq_B_2_9. entry. Qed.
Lemma cdkq_at_9_4 : cval env cdkq_454 = dkq_BDB E mu t xi eta xl 9%nat 4%nat.
Proof. unfold cdkq_454, cdkq_449, cdkq_448, cdkq_366, cdkq_250, cdkq_61, cdkq_3, cdkq_2, cdkq_1, cdkq_0. cbn [cval]. rewrite dkq_form, <- cdkq_B_0_4, <- cdkq_B_0_9, <- cdkq_B_1_4, <- cdkq_B_1_9, <- cdkq_B_2_4, <- cdkq_B_2_9. entry. Qed.
Lemma cdkq_at_9_5 : cval env cdkq_455 = dkq_BDB E mu t xi eta xl 9%nat 5%nat.
Proof. unfold cdkq_455, cdkq_449, cdkq_448, cdkq_388, cdkq_250, cdkq_61, cdkq_3, cdkq_2, cdkq_1, cdkq_0. cbn [cval]. rewrite dkq_form, <- cdkq_B_0_5, <- cdkq_B_0_9, <- cdkq_B_1_5, <- cdkq_B_1_9, <- cdkq_B_2_5, <- cdkq_B_2_9. entry. Qed.
Lemma cdkq_at_9_6 : cval env cdkq_456 = dkq_BDB E mu t xi eta xl 9%nat 6%nat.
Proof. unfold cdkq_456, cdkq_449, cdkq_448, cdkq_407, cdkq_250, cdkq_61, cdkq_3, cdkq_2, cdkq_1, cdkq_0. cbn [cval]. rewrite dkq_form, <- cdkq_B_0_6, <- cdkq_B_0_9, <- cdkq_B_1_6, <- cdkq_B_1_9, <- cdkq_B_2_6, <- cdkq_B_2_9. entry. Qed.
Lemma cdkq_at_9_7 : cval env cdkq_457 = dkq_BDB E mu t xi eta xl 9%nat 7%nat.
Proof. unfold cdkq_457, cdkq_449, cdkq_448, cdkq_425, cdkq_250, cdkq_61, cdkq_3, cdkq_2, cdkq_1, cdkq_0. cbn [cval]. rewrite dkq_form, <- cdkq_B_0_7, <- cdkq_B_0_9, <- cdkq_B_1_7, <- cdkq_B_1_9, <- cdkq_B_2_7, <- cdkq_B_2_9. entry. Qed.
Lemma cdkq_at_9_8 : cval env cdkq_458 = dkq_BDB E mu t xi eta xl 9%nat 8%nat.
Proof. unfold cdkq_458, cdkq_449, cdkq_448, cdkq_442, cdkq_250, cdkq_61, cdkq_3, cdkq_2, cdkq_1, cdkq_0. cbn [cval]. rewrite dkq_form, <- cdkq_B_0_8, <- cdkq_B_0_9, <- cdkq_B_1_8, <- cdkq_B_1_9, <- cdkq_B_2_8, <- cdkq_B_2_9. entry. Qed.
Lemma cdkq_at_9_9 : cval env cdkq_459 = dkq_BDB E mu t xi eta xl 9%nat 9%nat.
Proof. unfold cdkq_459, cdkq_449, cdkq_448, cdkq_61, cdkq_3, cdkq_2, cdkq_1, cdkq_0. cbn [cval]. rewrite dkq_form, <- cdkq_B_0_9, <- cdkq_B_1_9, <- cdkq_B_2_9. entry. Qed.
Lemma cdkq_at_9_10 : cval env cdkq_461 = dkq_BDB E mu t xi eta xl 9%nat 10%nat.
Proof. unfold cdkq_461, cdkq_460, cdkq_449, cdkq_448, cdkq_250, cdkq_61, cdkq_3, cdkq_2, cdkq_1, cdkq_0. cbn [cval]. rewrite dkq_form, <- cdkq_B_0_9, <- cdkq_B_0_10, <- cdkq_B_1_9, <- cdkq_B_1_10, <- cdkq_B_2_9, <- cdkq_B_2_10. entry. Qed.
Lemma cdkq_at_9_11 : cval env cdkq_463 = dkq_BDB E mu t xi eta xl 9%nat 11%nat.
Proof. unfold cdkq_463, cdkq_462, cdkq_449, cdkq_448, cdkq_250, cdkq_61, cdkq_3, cdkq_2, cdkq_1, cdkq_0. cbn [cval]. rewrite dkq_form, <- cdkq_B_0_9, <- cdkq_B_0_11, <- cdkq_B_1_9, <- cdkq_B_1_11, <- cdkq_B_2_9, <- cdkq_B_2_11. entry. Qed.
Lemma cdkq_at_10_0 : cval env cdkq_466 = dkq_BDB E mu t xi eta xl 10%nat 0%nat.
Proof. unfold cdkq_466, cdkq_465, cdkq_464, cdkq_262, cdkq_79, cdkq_61, cdkq_3, cdkq_2, cdkq_1, cdkq_0. cbn [cval]. rewrite dkq_form, <- cdkq_B_0_0, <- cdkq_B_0_10, <- cdkq_B_1_0, <- cdkq_B_1_10, <- cdkq_B_2_0, <- cdkq_B_2_10. entry. Qed.
Lemma cdkq_at_10_1 : cval env cdkq_467 = dkq_BDB E mu t xi eta xl 10%nat 1%nat.
Proof. unfold cdkq_467, cdkq_465, cdkq_464, cdkq_299, cdkq_280, cdkq_61, cdkq_3, cdkq_2, cdkq_1, cdkq_0. cbn [cval]. rewrite dkq_form, <- cdkq_B_0_1, <- cdkq_B_0_10, <- cdkq_B_1_1, <- cdkq_B_1_10, <- cdkq_B_2_1, <- cdkq_B_2_10. entry. Qed.
Lemma cdkq_at_10_2 : cval env cdkq_468 = dkq_BDB E mu t xi eta xl 10%nat 2%nat.
Proof. unfold cdkq_468, cdkq_465, cdkq_464, cdkq_324, cdkq_323, cdkq_61, cdkq_3, cdkq_2, cdkq_1, cdkq_0. cbn [cval]. rewrite dkq_form, <- cdkq_B_0_2, <- cdkq_B_0_10, <- cdkq_B_1_2, <- cdkq_B_1_10, <- cdkq_B_2_2, <- cdkq_B_2_10. entry. Qed.
Lemma cdkq_at_10_3 : cval env cdkq_469 = dkq_BDB E mu t xi eta xl 10%nat 3%nat.
Proof. unfold cdkq_469, cdkq_465, cdkq_464, cdkq_346, cdkq_283, cdkq_61, cdkq_3, cdkq_2, cdkq_1, cdkq_0. cbn [cval]. rewrite dkq_form, <- cdkq_B_0_3, <- cdkq_B_0_10, <- cdkq_B_1_3, <- cdkq_B_1_10, <- cdkq_B_2_3, <- cdkq_B_2_10. entry. Qed.
Lemma cdkq_at_10_4 : cval env cdkq_470 = dkq_BDB E mu t xi eta xl 10%nat 4%nat.
Proof. unfold cdkq_470, cdkq_465, cdkq_464, cdkq_368, cdkq_323, cdkq_61, cdkq_3, cdkq_2, cdkq_1, cdkq_0. cbn [cval]. rewrite dkq_form, <- cdkq_B_0_4, <- cdkq_B_0_10, <- cdkq_B_1_4, <- cdkq_B_1_10, <- cdkq_B_2_4, <- cdkq_B_2_10. entry. Qed.
Lemma cdkq_at_10_5 : cval env cdkq_471 = dkq_BDB E mu t xi eta xl 10%nat 5%nat.
Proof. unfold cdkq_471, cdkq_465, cdkq_464, cdkq_390, cdkq_323, cdkq_61, cdkq_3, cdkq_2, cdkq_1, cdkq_0. cbn [cval]. rewrite dkq_form, <- cdkq_B_0_5, <- cdkq_B_0_10, <- cdkq_B_1_5, <- cdkq_B_1_10, <- cdkq_B_2_5, <- cdkq_B_2_10. entry. Qed.
Lemma cdkq_at_10_6 : cval env cdkq_472 = dkq_BDB E mu t xi eta xl 10%nat 6%nat.
Proof. unfold cdkq_472, cdkq_465, cdkq_464, cdkq_409, cdkq_290, cdkq_61, cdkq_3, cdkq_2, cdkq_1, cdkq_0. cbn [cval]. rewrite dkq_form, <- cdkq_B_0_6, <- cdkq_B_0_10, <- cdkq_B_1_6, <- cdkq_B_1_10, <- cdkq_B_2_6, <- cdkq_B_2_10. entry. Qed.
Lemma cdkq_at_10_7 : cval env cdkq_473 = dkq_BDB E mu t xi eta xl 10%nat 7%nat.
Proof. unfold cdkq_473, cdkq_465, cdkq_464, cdkq_427, cdkq_323, cdkq_61, cdkq_3, cdkq_2, cdkq_1, cdkq_0. cbn [cval]. rewrite dkq_form, <- cdkq_B_0_7, <- cdkq_B_0_10, <- cdkq_B_1_7, <- cdkq_B_1_10, <- cdkq_B_2_7, <- cdkq_B_2_10. entry. Qed.
Lemma cdkq_at_10_8 : cval env cdkq_474 = dkq_BDB E mu t xi eta xl 10%nat 8%nat.
Proof. unfold cdkq_474, cdkq_465, cdkq_464, cdkq_444, cdkq_323, cdkq_61, cdkq_3, cdkq_2, cdkq_1, cdkq_0. cbn [cval]. rewrite dkq_form, <- cdkq_B_0_8, <- cdkq_B_0_10, <- cdkq_B_1_8, <- cdkq_B_1_10, <- cdkq_B_2_8, <- cdkq_B_2_10. entry. Qed.
Lemma cdkq_at_10_9 : cval env cdkq_475 = dkq_BDB E mu t xi eta xl 10%nat 9%nat.
Proof. unfold cdkq_475, cdkq_465, cdkq_464, cdkq_460, cdkq_250, cdkq_61, cdkq_3, cdkq_2, cdkq_1, cdkq_0. cbn [cval]. rewrite dkq_form, <- cdkq_B_0_9, <- cdkq_B_0_10, <- cdkq_B_1_9, <- cdkq_B_1_10, <- cdkq_B_2_9, <- cdkq_B_2_10. entry. Qed.
Lemma cdkq_at_10_10 : cval env cdkq_476 = dkq_BDB E mu t xi eta xl 10%nat 10%nat.
Proof. unfold cdkq_476, cdkq_465, cdkq_464, cdkq_61, cdkq_3, cdkq_2, cdkq_1, cdkq_0. cbn [cval]. rewrite dkq_form, <- cdkq_B_0_10, <- cdkq_B_1_10, <- cdkq_B_2_10. entry. Qed.
Lemma cdkq_at_10_11 : cval env cdkq_478 = dkq_BDB E mu t xi eta xl 10%nat 11%nat.
Proof. unfold cdkq_478, cdkq_477, cdkq_465, cdkq_464, cdkq_323, cdkq_61, cdkq_3, cdkq_2, cdkq_1, cdkq_0. cbn [cval]. rewrite dkq_form, <- cdkq_B_0_10, <- cdkq_B_0_11, <- cdkq_B_1_10, <- cdkq_B_1_11, <- cdkq_B_2_10, <- cdkq_B_2_11. entry. Qed.
Lemma cdkq_at_11_0 : cval env cdkq_481 = dkq_BDB E mu t xi eta xl 11%nat 0%nat.
Proof. unfold cdkq_481, cdkq_480, cdkq_479, cdkq_272, cdkq_79, cdkq_61, cdkq_3, cdkq_2, cdkq_1, cdkq_0. cbn [cval]. rewrite dkq_form, <- cdkq_B_0_0, <- cdkq_B_0_11, <- cdkq_B_1_0, <- cdkq_B_1_11, <- cdkq_B_2_0, <- cdkq_B_2_11. entry. Qed.
Lemma cdkq_at_11_1 : cval env cdkq_482 = dkq_BDB E mu t xi eta xl 11%nat 1%nat.
Proof. unfold cdkq_482, cdkq_480, cdkq_479, cdkq_301, cdkq_280, cdkq_61, cdkq_3, cdkq_2, cdkq_1, cdkq_0. cbn [cval]. rewrite dkq_form, <- cdkq_B_0_1, <- cdkq_B_0_11, <- cdkq_B_1_1, <- cdkq_B_1_11, <- cdkq_B_2_1, <- cdkq_B_2_11. entry. Qed.
Lemma cdkq_at_11_2 : cval env cdkq_483 = dkq_BDB E mu t xi eta xl 11%nat 2%nat.
Proof. unfold cdkq_483, cdkq_480, cdkq_479, cdkq_326, cdkq_310, cdkq_61, cdkq_3, cdkq_2, cdkq_1, cdkq_0. cbn [cval]. rewrite dkq_form, <- cdkq_B_0_2, <- cdkq_B_0_11, <- cdkq_B_1_2, <- cdkq_B_1_11, <- cdkq_B_2_2, <- cdkq_B_2_11. entry. Qed.
Lemma cdkq_at_11_3 : cval env cdkq_484 = dkq_BDB E mu t xi eta xl 11%nat 3%nat.
Proof. unfold cdkq_484, cdkq_480, cdkq_479, cdkq_348, cdkq_283, cdkq_61, cdkq_3, cdkq_2, cdkq_1, cdkq_0. cbn [cval]. rewrite dkq_form, <- cdkq_B_0_3, <- cdkq_B_0_11, <- cdkq_B_1_3, <- cdkq_B_1_11, <- cdkq_B_2_3, <- cdkq_B_2_11. entry. Qed.
Lemma cdkq_at_11_4 : cval env cdkq_485 = dkq_BDB E mu t xi eta xl 11%nat 4%nat.
Proof. unfold cdkq_485, cdkq_480, cdkq_479, cdkq_371, cdkq_370, cdkq_61, cdkq_3, cdkq_2, cdkq_1, cdkq_0. cbn [cval]. rewrite dkq_form, <- cdkq_B_0_4, <- cdkq_B_0_11, <- cdkq_B_1_4, <- cdkq_B_1_11, <- cdkq_B_2_4, <- cdkq_B_2_11. entry. Qed.
Lemma cdkq_at_11_5 : cval env cdkq_486 = dkq_BDB E mu t xi eta xl 11%nat 5%nat.
Proof. unfold cdkq_486, cdkq_480, cdkq_479, cdkq_392, cdkq_370, cdkq_61, cdkq_3, cdkq_2, cdkq_1, cdkq_0. cbn [cval]. rewrite dkq_form, <- cdkq_B_0_5, <- cdkq_B_0_11, <- cdkq_B_1_5, <- cdkq_B_1_11, <- cdkq_B_2_5, <- cdkq_B_2_11. entry. Qed.
Lemma cdkq_at_11_6 : cval env cdkq_487 = dkq_BDB E mu t xi eta xl 11%nat 6%nat.
Proof. unfold cdkq_487, cdkq_480, cdkq_479, cdkq_411, cdkq_290, cdkq_61, cdkq_3, cdkq_2, cdkq_1, cdkq_0. cbn [cval]. rewrite dkq_form, <- cdkq_B_0_6, <- cdkq_B_0_11, <- cdkq_B_1_6, <- cdkq_B_1_11, <- cdkq_B_2_6, <- cdkq_B_2_11. entry. Qed.
Lemma cdkq_at_11_7 : cval env cdkq_488 = dkq_BDB E mu t xi eta xl 11%nat 7%nat.
Proof. unfold cdkq_488, cdkq_480, cdkq_479, cdkq_429, cdkq_370, cdkq_61, cdkq_3, cdkq_2, cdkq_1, cdkq_0. cbn [cval]. rewrite dkq_form, <- cdkq_B_0_7, <- cdkq_B_0_11, <- cdkq_B_1_7, <- cdkq_B_1_11, <- cdkq_B_2_7, <- cdkq_B_2_11. entry. Qed.
Lemma cdkq_at_11_8 : cval env cdkq_489 = dkq_BDB E mu t xi eta xl 11%nat 8%nat.
Proof. unfold cdkq_489, cdkq_480, cdkq_479, cdkq_446, cdkq_370, cdkq_61, cdkq_3, cdkq_2, cdkq_1, cdkq_0. cbn [cval]. rewrite dkq_form, <- cdkq_B_0_8, <- cdkq_B_0_11, <- cdkq_B_1_8, <- cdkq_B_1_11, <- cdkq_B_2_8, <- cdkq_B_2_11. entry. Qed.
Lemma cdkq_at_11_9 : cval env cdkq_490 = dkq_BDB E mu t xi eta xl 11%nat 9%nat.
Proof. unfold cdkq_490, cdkq_480, cdkq_479, cdkq_462, cdkq_250, cdkq_61, cdkq_3, cdkq_2, cdkq_1, cdkq_0. cbn [cval]. rewrite dkq_form, <- cdkq_B_0_9, <- cdkq_B_0_11, <- cdkq_B_1_9, <- cdkq_B_1_11, <- cdkq_B_2_9, <- cdkq_B_2_11. entry. Qed.
Lemma cdkq_at_11_10 : cval env cdkq_491 = dkq_BDB E mu t xi eta xl 11%nat 10%nat.
Proof. unfold cdkq_491, cdkq_480, cdkq_479, cdkq_477, cdkq_323, cdkq_61, cdkq_3, cdkq_2, cdkq_1, cdkq_0. cbn [cval]. rewrite dkq_form, <- cdkq_B_0_10, <- cdkq_B_0_11, <- cdkq_B_1_10, <- cdkq_B_1_11, <- cdkq_B_2_10, <- cdkq_B_2_11. entry. Qed.
Lemma cdkq_at_11_11 : cval env cdkq_492 = dkq_BDB E mu t xi eta xl 11%nat 11%nat.
Proof. unfold cdkq_492, cdkq_480, cdkq_479, cdkq_61, cdkq_3, cdkq_2, cdkq_1, cdkq_0. cbn [cval]. rewrite dkq_form, <- cdkq_B_0_11, <- cdkq_B_1_11, <- cdkq_B_2_11. entry. Qed.

Lemma cdkq_entries : forall i j, (i < 12)%nat -> (j < 12)%nat ->
  vnth (map (cval env) cdkq_code) (12 * i + j) = dkq_BDB E mu t xi eta xl i j.
Proof.
  intros i j Hi Hj. rewrite vnth_cval by (cbn [length cdkq_code]; lia).
  destruct i as [|[|[|[|[|[|[|[|[|[|[|[|i]]]]]]]]]]]]; try (exfalso; lia); destruct j as [|[|[|[|[|[|[|[|[|[|[|[|j]]]]]]]]]]]]; try (exfalso; lia);
    cbn [nth cdkq_code Nat.mul Nat.add].

  - exact cdkq_at_0_0.
  - exact cdkq_at_0_1.
  - exact cdkq_at_0_2.
  - exact cdkq_at_0_3.
  - exact cdkq_at_0_4.
  - exact cdkq_at_0_5.
  - exact cdkq_at_0_6.
  - exact cdkq_at_0_7.
  - exact cdkq_at_0_8.
  - exact cdkq_at_0_9.
  - exact cdkq_at_0_10.
  - exact cdkq_at_0_11.
  - exact cdkq_at_1_0.
  - exact cdkq_at_1_1.
  - exact cdkq_at_1_2.
  - exact cdkq_at_1_3.
  - exact cdkq_at_1_4.
  - exact cdkq_at_1_5.
  - exact cdkq_at_1_6.
  - exact cdkq_at_1_7.
  - exact cdkq_at_1_8.
  - exact cdkq_at_1_9.
  - exact cdkq_at_1_10.
  - exact cdkq_at_1_11.
  - exact cdkq_at_2_0.
  - exact cdkq_at_2_1.
  - exact cdkq_at_2_2.
  - exact cdkq_at_2_3.
  - exact cdkq_at_2_4.
  - exact cdkq_at_2_5.
  - exact cdkq_at_2_6.
  - exact cdkq_at_2_7.
  - exact cdkq_at_2_8.
  - exact cdkq_at_2_9.
  - exact cdkq_at_2_10.
  - exact cdkq_at_2_11.
  - exact cdkq_at_3_0.
  - exact cdkq_at_3_1.
  - exact cdkq_at_3_2.
  - exact cdkq_at_3_3.
  - exact cdkq_at_3_4.
  - exact cdkq_at_3_5.
  - exact cdkq_at_3_6.
  - exact cdkq_at_3_7.
  - exact cdkq_at_3_8.
  - exact cdkq_at_3_9.
  - exact cdkq_at_3_10.
  - exact cdkq_at_3_11.
  - exact cdkq_at_4_0.
  - exact cdkq_at_4_1.
  - exact cdkq_at_4_2.
  - exact cdkq_at_4_3.
  - exact cdkq_at_4_4.
  - exact cdkq_at_4_5.
  - exact cdkq_at_4_6.
  - exact cdkq_at_4_7.
  - exact cdkq_at_4_8.
  - exact cdkq_at_4_9.
  - exact cdkq_at_4_10.
  - exact cdkq_at_4_11.
  - exact cdkq_at_5_0.
  - exact cdkq_at_5_1.
  - exact cdkq_at_5_2.
  - exact cdkq_at_5_3.
  - exact cdkq_at_5_4.
  - exact cdkq_at_5_5.
  - exact cdkq_at_5_6.
  - exact cdkq_at_5_7.
  - exact cdkq_at_5_8.
  - exact cdkq_at_5_9.
  - exact cdkq_at_5_10.
  - exact cdkq_at_5_11.
  - exact cdkq_at_6_0.
  - exact cdkq_at_6_1.
  - exact cdkq_at_6_2.
  - exact cdkq_at_6_3.
  - exact cdkq_at_6_4.
  - exact cdkq_at_6_5.
  - exact cdkq_at_6_6.
  - exact cdkq_at_6_7.
  - exact cdkq_at_6_8.
  - exact cdkq_at_6_9.
  - exact cdkq_at_6_10.
  - exact cdkq_at_6_11.
  - exact cdkq_at_7_0.
  - exact cdkq_at_7_1.
  - exact cdkq_at_7_2.
  - exact cdkq_at_7_3.
  - exact cdkq_at_7_4.
  - exact cdkq_at_7_5.
  - exact cdkq_at_7_6.
  - exact cdkq_at_7_7.
  - exact cdkq_at_7_8.
  - exact cdkq_at_7_9.
  - exact cdkq_at_7_10.
  - exact cdkq_at_7_11.
  - exact cdkq_at_8_0.
  - exact cdkq_at_8_1.
  - exact cdkq_at_8_2.
  - exact cdkq_at_8_3.
  - exact cdkq_at_8_4.
  - exact cdkq_at_8_5.
  - exact cdkq_at_8_6.
  - exact cdkq_at_8_7.
  - exact cdkq_at_8_8.
  - exact cdkq_at_8_9.
  - exact cdkq_at_8_10.
  - exact cdkq_at_8_11.
  - exact cdkq_at_9_0.
  - exact cdkq_at_9_1.
  - exact cdkq_at_9_2.
  - exact cdkq_at_9_3.
  - exact cdkq_at_9_4.
  - exact cdkq_at_9_5.
  - exact cdkq_at_9_6.
  - exact cdkq_at_9_7.
  - exact cdkq_at_9_8.
  - exact cdkq_at_9_9.
  - exact cdkq_at_9_10.
  - exact cdkq_at_9_11.
  - exact cdkq_at_10_0.
  - exact cdkq_at_10_1.
  - exact cdkq_at_10_2.
  - exact cdkq_at_10_3.
  - exact cdkq_at_10_4.
  - exact cdkq_at_10_5.
  - exact cdkq_at_10_6.
  - exact cdkq_at_10_7.
  - exact cdkq_at_10_8.
  - exact cdkq_at_10_9.
  - exact cdkq_at_10_10.
  - exact cdkq_at_10_11.
  - exact cdkq_at_11_0.
  - exact cdkq_at_11_1.
  - exact cdkq_at_11_2.
  - exact cdkq_at_11_3.
  - exact cdkq_at_11_4.
  - exact cdkq_at_11_5.
  - exact cdkq_at_11_6.
  - exact cdkq_at_11_7.
  - exact cdkq_at_11_8.
  - exact cdkq_at_11_9.
  - exact cdkq_at_11_10.
  - exact cdkq_at_11_11.
Qed.
End Entries.
