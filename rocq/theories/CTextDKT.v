(** The plate of triangles.
    meta/plates/metaDKT/wrapped_code_0.c:13-93, translated expression by expression: sums and products associate to the left as in C.
    The file writes expressions that occur more than once out each time; here such an expression has
    a name, and the comment gives the line where it occurs first. *)
From Coq Require Import List ZArith.
From Verif Require Import CText.
Import ListNotations.
Local Open Scope Z_scope.

(** wrapped_code_0.c:13 *)
Definition cdkt_0 : cexp := CMul (CDiv (CInt 1) (CInt 12)) (CVar VE).
(** wrapped_code_0.c:13 *)
Definition cdkt_1 : cexp := CPow (CVar Vt) 3%nat.
(** wrapped_code_0.c:13 *)
Definition cdkt_2 : cexp := CMul cdkt_0 cdkt_1.
(** wrapped_code_0.c:13 *)
Definition cdkt_3 : cexp := CMul cdkt_2 (CSub (CDiv (CInt 1) (CInt 2)) (CMul (CDiv (CInt 1) (CInt 2)) (CVar Vmu))).
(** wrapped_code_0.c:13 *)
Definition cdkt_4 : cexp := CSub (CVar (Vx 1%nat)) (CVar (Vx 2%nat)).
(** wrapped_code_0.c:13 *)
Definition cdkt_5 : cexp := CAdd (CMul (CNeg (CInt 6)) (CVar (Vx 1%nat))) (CMul (CInt 6) (CVar (Vx 2%nat))).
(** wrapped_code_0.c:13 *)
Definition cdkt_6 : cexp := CSub (CVar (Vy 1%nat)) (CVar (Vy 2%nat)).
(** wrapped_code_0.c:13 *)
Definition cdkt_7 : cexp := CPow cdkt_6 2%nat.
(** wrapped_code_0.c:13 *)
Definition cdkt_8 : cexp := CAdd (CPow cdkt_4 2%nat) cdkt_7.
(** wrapped_code_0.c:13 *)
Definition cdkt_9 : cexp := CDiv cdkt_5 cdkt_8.
(** wrapped_code_0.c:13 *)
Definition cdkt_10 : cexp := CMul (CInt 6) (CVar (Vx 3%nat)).
(** wrapped_code_0.c:13 *)
Definition cdkt_11 : cexp := CSub (CMul (CInt 6) (CVar (Vx 1%nat))) cdkt_10.
(** wrapped_code_0.c:13 *)
Definition cdkt_12 : cexp := CAdd (CNeg (CVar (Vx 1%nat))) (CVar (Vx 3%nat)).
(** wrapped_code_0.c:13 *)
Definition cdkt_13 : cexp := CAdd (CNeg (CVar (Vy 1%nat))) (CVar (Vy 3%nat)).
(** wrapped_code_0.c:13 *)
Definition cdkt_14 : cexp := CPow cdkt_13 2%nat.
(** wrapped_code_0.c:13 *)
Definition cdkt_15 : cexp := CAdd (CPow cdkt_12 2%nat) cdkt_14.
(** wrapped_code_0.c:13 *)
Definition cdkt_16 : cexp := CDiv cdkt_11 cdkt_15.
(** wrapped_code_0.c:13 *)
Definition cdkt_17 : cexp := CSub (CInt 1) (CMul (CInt 2) (CVar Veta)).
(** wrapped_code_0.c:13 *)
Definition cdkt_18 : cexp := CDiv (CMul cdkt_17 cdkt_11) cdkt_15.
(** wrapped_code_0.c:13 *)
Definition cdkt_19 : cexp := CSub (CMul (CNeg (CVar Vxi)) (CSub cdkt_9 cdkt_16)) cdkt_18.
(** wrapped_code_0.c:13 *)
Definition cdkt_20 : cexp := CSub (CVar (Vx 1%nat)) (CVar (Vx 3%nat)).
(** wrapped_code_0.c:13 *)
Definition cdkt_21 : cexp := CSub (CInt 1) (CMul (CInt 2) (CVar Vxi)).
(** wrapped_code_0.c:13 *)
Definition cdkt_22 : cexp := CDiv (CMul cdkt_21 cdkt_5) cdkt_8.
(** wrapped_code_0.c:13 *)
Definition cdkt_23 : cexp := CAdd (CMul (CVar Veta) (CAdd (CDiv (CNeg cdkt_5) cdkt_8) cdkt_16)) cdkt_22.
(** wrapped_code_0.c:13 *)
Definition cdkt_24 : cexp := CAdd (CMul (CNeg (CInt 6)) (CVar (Vy 1%nat))) (CMul (CInt 6) (CVar (Vy 2%nat))).
(** wrapped_code_0.c:13 *)
Definition cdkt_25 : cexp := CMul (CInt 6) (CVar (Vy 3%nat)).
(** wrapped_code_0.c:13 *)
Definition cdkt_26 : cexp := CSub (CMul (CInt 6) (CVar (Vy 1%nat))) cdkt_25.
(** wrapped_code_0.c:13 *)
Definition cdkt_27 : cexp := CDiv cdkt_26 cdkt_15.
(** wrapped_code_0.c:13 *)
Definition cdkt_28 : cexp := CDiv (CMul cdkt_21 cdkt_24) cdkt_8.
(** wrapped_code_0.c:13 *)
Definition cdkt_29 : cexp := CAdd (CMul (CVar Veta) (CAdd (CDiv (CNeg cdkt_24) cdkt_8) cdkt_27)) cdkt_28.
(** wrapped_code_0.c:13 *)
Definition cdkt_30 : cexp := CDiv cdkt_24 cdkt_8.
(** wrapped_code_0.c:13 *)
Definition cdkt_31 : cexp := CDiv (CMul cdkt_17 cdkt_26) cdkt_15.
(** wrapped_code_0.c:13 *)
Definition cdkt_32 : cexp := CSub (CMul (CNeg (CVar Vxi)) (CSub cdkt_30 cdkt_27)) cdkt_31.
(** wrapped_code_0.c:13 *)
Definition cdkt_33 : cexp := CAdd (CAdd (CAdd (CMul (CNeg cdkt_4) cdkt_19) (CMul cdkt_20 cdkt_23)) (CMul cdkt_13 cdkt_29)) (CMul cdkt_6 cdkt_32).
(** wrapped_code_0.c:13 *)
Definition cdkt_34 : cexp := CSub (CInt 1) (CPow (CVar Vmu) 2%nat).
(** wrapped_code_0.c:13 *)
Definition cdkt_35 : cexp := CSub (CMul cdkt_12 cdkt_6) (CMul cdkt_4 cdkt_13).
(** wrapped_code_0.c:13 *)
Definition cdkt_36 : cexp := CMul cdkt_34 (CPow cdkt_35 2%nat).
(** wrapped_code_0.c:13 *)
Definition cdkt_37 : cexp := CAdd (CMul (CNeg cdkt_4) cdkt_32) (CMul cdkt_20 cdkt_29).
(** wrapped_code_0.c:13 *)
Definition cdkt_38 : cexp := CMul (CMul cdkt_0 (CVar Vmu)) cdkt_1.
(** wrapped_code_0.c:13 *)
Definition cdkt_39 : cexp := CAdd (CMul cdkt_13 cdkt_23) (CMul cdkt_6 cdkt_19).
(** wrapped_code_0.c:13 *)
Definition cdkt_40 : cexp := CMul cdkt_34 cdkt_35.
(** wrapped_code_0.c:13 *)
Definition cdkt_41 : cexp := CAdd (CDiv (CMul cdkt_38 cdkt_39) cdkt_40) (CDiv (CMul cdkt_2 cdkt_37) cdkt_40).
(** wrapped_code_0.c:13 *)
Definition cdkt_42 : cexp := CAdd (CDiv (CMul cdkt_38 cdkt_37) cdkt_40) (CDiv (CMul cdkt_2 cdkt_39) cdkt_40).
(** wrapped_code_0.c:13 *)
Definition cdkt_43 : cexp := CAdd (CAdd (CDiv (CMul cdkt_3 (CPow cdkt_33 2%nat)) cdkt_36) (CDiv (CMul cdkt_37 cdkt_41) cdkt_35)) (CDiv (CMul cdkt_39 cdkt_42) cdkt_35).
(** wrapped_code_0.c:14 *)
Definition cdkt_44 : cexp := CMul cdkt_3 cdkt_33.
(** wrapped_code_0.c:14 *)
Definition cdkt_45 : cexp := CMul (CInt 3) (CVar (Vx 3%nat)).
(** wrapped_code_0.c:14 *)
Definition cdkt_46 : cexp := CAdd (CMul (CNeg (CInt 3)) (CVar (Vx 1%nat))) cdkt_45.
(** wrapped_code_0.c:14 *)
Definition cdkt_47 : cexp := CMul (CInt 3) (CVar (Vx 2%nat)).
(** wrapped_code_0.c:14 *)
Definition cdkt_48 : cexp := CSub (CMul (CInt 3) (CVar (Vx 1%nat))) cdkt_47.
(** wrapped_code_0.c:14 *)
Definition cdkt_49 : cexp := CDiv (CMul cdkt_48 cdkt_6) cdkt_8.
(** wrapped_code_0.c:14 *)
Definition cdkt_50 : cexp := CAdd (CDiv (CMul cdkt_46 cdkt_13) cdkt_15) cdkt_49.
(** wrapped_code_0.c:14 *)
Definition cdkt_51 : cexp := CDiv (CMul (CMul cdkt_17 cdkt_46) cdkt_13) cdkt_15.
(** wrapped_code_0.c:14 *)
Definition cdkt_52 : cexp := CAdd (CMul (CNeg (CVar Vxi)) cdkt_50) cdkt_51.
(** wrapped_code_0.c:14 *)
Definition cdkt_53 : cexp := CDiv (CMul (CMul cdkt_21 cdkt_48) cdkt_6) cdkt_8.
(** wrapped_code_0.c:14 *)
Definition cdkt_54 : cexp := CAdd (CMul (CNeg (CVar Veta)) cdkt_50) cdkt_53.
(** wrapped_code_0.c:14 *)
Definition cdkt_55 : cexp := CDiv (CMul (CInt 3) cdkt_14) cdkt_15.
(** wrapped_code_0.c:14 *)
Definition cdkt_56 : cexp := CDiv (CMul (CInt 3) cdkt_7) cdkt_8.
(** wrapped_code_0.c:14 *)
Definition cdkt_57 : cexp := CAdd cdkt_55 cdkt_56.
(** wrapped_code_0.c:14 *)
Definition cdkt_58 : cexp := CMul (CNeg (CVar Veta)) cdkt_57.
(** wrapped_code_0.c:14 *)
Definition cdkt_59 : cexp := CDiv (CMul (CMul (CInt 3) cdkt_21) cdkt_7) cdkt_8.
(** wrapped_code_0.c:14 *)
Definition cdkt_60 : cexp := CAdd (CAdd cdkt_58 cdkt_59) (CInt 1).
(** wrapped_code_0.c:14 *)
Definition cdkt_61 : cexp := CDiv (CMul (CMul (CInt 3) cdkt_17) cdkt_14) cdkt_15.
(** wrapped_code_0.c:14 *)
Definition cdkt_62 : cexp := CAdd (CAdd (CMul (CNeg (CVar Vxi)) cdkt_57) cdkt_61) (CInt 1).
(** wrapped_code_0.c:14 *)
Definition cdkt_63 : cexp := CAdd (CAdd (CAdd (CMul (CNeg cdkt_4) cdkt_52) (CMul cdkt_20 cdkt_54)) (CMul cdkt_13 cdkt_60)) (CMul cdkt_6 cdkt_62).
(** wrapped_code_0.c:14 *)
Definition cdkt_64 : cexp := CDiv (CMul cdkt_44 cdkt_63) cdkt_36.
(** wrapped_code_0.c:14 *)
Definition cdkt_65 : cexp := CAdd (CMul (CNeg cdkt_4) cdkt_62) (CMul cdkt_20 cdkt_60).
(** wrapped_code_0.c:14 *)
Definition cdkt_66 : cexp := CAdd (CMul cdkt_13 cdkt_54) (CMul cdkt_6 cdkt_52).
(** wrapped_code_0.c:14 *)
Definition cdkt_67 : cexp := CAdd (CAdd cdkt_64 (CDiv (CMul cdkt_65 cdkt_41) cdkt_35)) (CDiv (CMul cdkt_66 cdkt_42) cdkt_35).
(** wrapped_code_0.c:15 *)
Definition cdkt_68 : cexp := CMul (CInt 6) (CVar Veta).
(** wrapped_code_0.c:15 *)
Definition cdkt_69 : cexp := CMul (CInt 6) (CVar Vxi).
(** wrapped_code_0.c:15 *)
Definition cdkt_70 : cexp := CSub (CAdd (CAdd (CSub cdkt_68 (CMul (CVar Vxi) cdkt_57)) cdkt_69) cdkt_61) (CInt 4).
(** wrapped_code_0.c:15 *)
Definition cdkt_71 : cexp := CSub (CAdd (CAdd (CAdd cdkt_58 cdkt_68) cdkt_69) cdkt_59) (CInt 4).
(** wrapped_code_0.c:15 *)
Definition cdkt_72 : cexp := CSub (CMul (CVar Veta) cdkt_50) cdkt_53.
(** wrapped_code_0.c:15 *)
Definition cdkt_73 : cexp := CSub (CMul (CVar Vxi) cdkt_50) cdkt_51.
(** wrapped_code_0.c:15 *)
Definition cdkt_74 : cexp := CAdd (CAdd (CAdd (CMul (CNeg cdkt_4) cdkt_70) (CMul cdkt_20 cdkt_71)) (CMul cdkt_13 cdkt_72)) (CMul cdkt_6 cdkt_73).
(** wrapped_code_0.c:15 *)
Definition cdkt_75 : cexp := CDiv (CMul cdkt_44 cdkt_74) cdkt_36.
(** wrapped_code_0.c:15 *)
Definition cdkt_76 : cexp := CAdd (CMul (CNeg cdkt_4) cdkt_73) (CMul cdkt_20 cdkt_72).
(** wrapped_code_0.c:15 *)
Definition cdkt_77 : cexp := CAdd (CMul cdkt_13 cdkt_71) (CMul cdkt_6 cdkt_70).
(** wrapped_code_0.c:15 *)
Definition cdkt_78 : cexp := CAdd (CAdd cdkt_75 (CDiv (CMul cdkt_76 cdkt_41) cdkt_35)) (CDiv (CMul cdkt_77 cdkt_42) cdkt_35).
(** wrapped_code_0.c:16 *)
Definition cdkt_79 : cexp := CMul (CNeg (CVar Vxi)) cdkt_4.
(** wrapped_code_0.c:16 *)
Definition cdkt_80 : cexp := CSub (CVar (Vy 2%nat)) (CVar (Vy 3%nat)).
(** wrapped_code_0.c:16 *)
Definition cdkt_81 : cexp := CPow cdkt_80 2%nat.
(** wrapped_code_0.c:16 *)
Definition cdkt_82 : cexp := CAdd (CPow (CSub (CVar (Vx 2%nat)) (CVar (Vx 3%nat))) 2%nat) cdkt_81.
(** wrapped_code_0.c:16 *)
Definition cdkt_83 : cexp := CDiv (CAdd (CMul (CNeg (CInt 6)) (CVar (Vx 2%nat))) cdkt_10) cdkt_82.
(** wrapped_code_0.c:16 *)
Definition cdkt_84 : cexp := CAdd cdkt_9 cdkt_83.
(** wrapped_code_0.c:16 *)
Definition cdkt_85 : cexp := CMul (CVar Vxi) cdkt_6.
(** wrapped_code_0.c:16 *)
Definition cdkt_86 : cexp := CDiv (CAdd (CMul (CNeg (CInt 6)) (CVar (Vy 2%nat))) cdkt_25) cdkt_82.
(** wrapped_code_0.c:16 *)
Definition cdkt_87 : cexp := CAdd cdkt_30 cdkt_86.
(** wrapped_code_0.c:16 *)
Definition cdkt_88 : cexp := CSub (CMul (CVar Veta) cdkt_84) cdkt_22.
(** wrapped_code_0.c:16 *)
Definition cdkt_89 : cexp := CSub (CMul (CVar Veta) cdkt_87) cdkt_28.
(** wrapped_code_0.c:16 *)
Definition cdkt_90 : cexp := CAdd (CAdd (CAdd (CMul cdkt_79 cdkt_84) (CMul cdkt_85 cdkt_87)) (CMul cdkt_20 cdkt_88)) (CMul cdkt_13 cdkt_89).
(** wrapped_code_0.c:16 *)
Definition cdkt_91 : cexp := CDiv (CMul cdkt_44 cdkt_90) cdkt_36.
(** wrapped_code_0.c:16 *)
Definition cdkt_92 : cexp := CAdd (CMul cdkt_79 cdkt_87) (CMul cdkt_20 cdkt_89).
(** wrapped_code_0.c:16 *)
Definition cdkt_93 : cexp := CAdd (CMul cdkt_85 cdkt_84) (CMul cdkt_13 cdkt_88).
(** wrapped_code_0.c:16 *)
Definition cdkt_94 : cexp := CAdd (CAdd cdkt_91 (CDiv (CMul cdkt_92 cdkt_41) cdkt_35)) (CDiv (CMul cdkt_93 cdkt_42) cdkt_35).
(** wrapped_code_0.c:17 *)
Definition cdkt_95 : cexp := CDiv (CMul (CSub cdkt_47 cdkt_45) cdkt_80) cdkt_82.
(** wrapped_code_0.c:17 *)
Definition cdkt_96 : cexp := CAdd (CDiv (CMul (CNeg cdkt_48) cdkt_6) cdkt_8) cdkt_95.
(** wrapped_code_0.c:17 *)
Definition cdkt_97 : cexp := CDiv (CMul (CInt 3) cdkt_81) cdkt_82.
(** wrapped_code_0.c:17 *)
Definition cdkt_98 : cexp := CAdd (CDiv (CMul (CNeg (CInt 3)) cdkt_7) cdkt_8) cdkt_97.
(** wrapped_code_0.c:17 *)
Definition cdkt_99 : cexp := CAdd (CMul (CNeg (CVar Veta)) (CSub cdkt_49 cdkt_95)) cdkt_53.
(** wrapped_code_0.c:17 *)
Definition cdkt_100 : cexp := CMul (CVar Veta) cdkt_98.
(** wrapped_code_0.c:17 *)
Definition cdkt_101 : cexp := CSub (CAdd cdkt_100 cdkt_59) (CInt 1).
(** wrapped_code_0.c:17 *)
Definition cdkt_102 : cexp := CAdd (CAdd (CAdd (CMul cdkt_79 cdkt_96) (CMul cdkt_85 cdkt_98)) (CMul cdkt_20 cdkt_99)) (CMul cdkt_13 cdkt_101).
(** wrapped_code_0.c:17 *)
Definition cdkt_103 : cexp := CDiv (CMul cdkt_44 cdkt_102) cdkt_36.
(** wrapped_code_0.c:17 *)
Definition cdkt_104 : cexp := CAdd (CMul cdkt_79 cdkt_98) (CMul cdkt_20 cdkt_101).
(** wrapped_code_0.c:17 *)
Definition cdkt_105 : cexp := CMul cdkt_85 cdkt_96.
(** wrapped_code_0.c:17 *)
Definition cdkt_106 : cexp := CAdd cdkt_105 (CMul cdkt_13 cdkt_99).
(** wrapped_code_0.c:17 *)
Definition cdkt_107 : cexp := CAdd (CAdd cdkt_103 (CDiv (CMul cdkt_104 cdkt_41) cdkt_35)) (CDiv (CMul cdkt_106 cdkt_42) cdkt_35).
(** wrapped_code_0.c:18 *)
Definition cdkt_108 : cexp := CMul (CVar Vxi) cdkt_4.
(** wrapped_code_0.c:18 *)
Definition cdkt_109 : cexp := CSub cdkt_56 cdkt_97.
(** wrapped_code_0.c:18 *)
Definition cdkt_110 : cexp := CSub (CAdd (CAdd cdkt_100 cdkt_69) cdkt_59) (CInt 2).
(** wrapped_code_0.c:18 *)
Definition cdkt_111 : cexp := CSub (CMul (CNeg (CVar Veta)) cdkt_96) cdkt_53.
(** wrapped_code_0.c:18 *)
Definition cdkt_112 : cexp := CAdd (CAdd (CSub (CMul cdkt_108 cdkt_109) cdkt_105) (CMul cdkt_20 cdkt_110)) (CMul cdkt_13 cdkt_111).
(** wrapped_code_0.c:18 *)
Definition cdkt_113 : cexp := CDiv (CMul cdkt_44 cdkt_112) cdkt_36.
(** wrapped_code_0.c:18 *)
Definition cdkt_114 : cexp := CAdd (CMul cdkt_108 cdkt_96) (CMul cdkt_20 cdkt_111).
(** wrapped_code_0.c:18 *)
Definition cdkt_115 : cexp := CAdd (CMul (CMul (CNeg (CVar Vxi)) cdkt_6) cdkt_109) (CMul cdkt_13 cdkt_110).
(** wrapped_code_0.c:18 *)
Definition cdkt_116 : cexp := CAdd (CAdd cdkt_113 (CDiv (CMul cdkt_114 cdkt_41) cdkt_35)) (CDiv (CMul cdkt_115 cdkt_42) cdkt_35).
(** wrapped_code_0.c:19 *)
Definition cdkt_117 : cexp := CMul (CNeg (CVar Veta)) cdkt_20.
(** wrapped_code_0.c:19 *)
Definition cdkt_118 : cexp := CAdd cdkt_16 cdkt_83.
(** wrapped_code_0.c:19 *)
Definition cdkt_119 : cexp := CMul (CVar Veta) cdkt_13.
(** wrapped_code_0.c:19 *)
Definition cdkt_120 : cexp := CAdd cdkt_27 cdkt_86.
(** wrapped_code_0.c:19 *)
Definition cdkt_121 : cexp := CAdd (CMul (CNeg (CVar Vxi)) cdkt_118) cdkt_18.
(** wrapped_code_0.c:19 *)
Definition cdkt_122 : cexp := CAdd (CMul (CNeg (CVar Vxi)) cdkt_120) cdkt_31.
(** wrapped_code_0.c:19 *)
Definition cdkt_123 : cexp := CAdd (CSub (CSub (CMul cdkt_117 cdkt_118) (CMul cdkt_119 cdkt_120)) (CMul cdkt_4 cdkt_121)) (CMul cdkt_6 cdkt_122).
(** wrapped_code_0.c:19 *)
Definition cdkt_124 : cexp := CDiv (CMul cdkt_44 cdkt_123) cdkt_36.
(** wrapped_code_0.c:19 *)
Definition cdkt_125 : cexp := CSub (CMul cdkt_117 cdkt_120) (CMul cdkt_4 cdkt_122).
(** wrapped_code_0.c:19 *)
Definition cdkt_126 : cexp := CMul (CNeg (CVar Veta)) cdkt_13.
(** wrapped_code_0.c:19 *)
Definition cdkt_127 : cexp := CAdd (CMul cdkt_126 cdkt_118) (CMul cdkt_6 cdkt_121).
(** wrapped_code_0.c:19 *)
Definition cdkt_128 : cexp := CAdd (CAdd cdkt_124 (CDiv (CMul cdkt_125 cdkt_41) cdkt_35)) (CDiv (CMul cdkt_127 cdkt_42) cdkt_35).
(** wrapped_code_0.c:20 *)
Definition cdkt_129 : cexp := CMul (CVar Veta) cdkt_20.
(** wrapped_code_0.c:20 *)
Definition cdkt_130 : cexp := CAdd (CDiv (CMul (CNeg cdkt_46) cdkt_13) cdkt_15) cdkt_95.
(** wrapped_code_0.c:20 *)
Definition cdkt_131 : cexp := CAdd (CDiv (CMul (CNeg (CInt 3)) cdkt_14) cdkt_15) cdkt_97.
(** wrapped_code_0.c:20 *)
Definition cdkt_132 : cexp := CAdd (CMul (CVar Vxi) cdkt_130) cdkt_51.
(** wrapped_code_0.c:20 *)
Definition cdkt_133 : cexp := CMul (CVar Vxi) cdkt_131.
(** wrapped_code_0.c:20 *)
Definition cdkt_134 : cexp := CSub (CAdd cdkt_133 cdkt_61) (CInt 1).
(** wrapped_code_0.c:20 *)
Definition cdkt_135 : cexp := CAdd (CSub (CAdd (CMul cdkt_129 cdkt_130) (CMul cdkt_119 cdkt_131)) (CMul cdkt_4 cdkt_132)) (CMul cdkt_6 cdkt_134).
(** wrapped_code_0.c:20 *)
Definition cdkt_136 : cexp := CDiv (CMul cdkt_44 cdkt_135) cdkt_36.
(** wrapped_code_0.c:20 *)
Definition cdkt_137 : cexp := CSub (CMul cdkt_129 cdkt_131) (CMul cdkt_4 cdkt_134).
(** wrapped_code_0.c:20 *)
Definition cdkt_138 : cexp := CMul cdkt_119 cdkt_130.
(** wrapped_code_0.c:20 *)
Definition cdkt_139 : cexp := CAdd cdkt_138 (CMul cdkt_6 cdkt_132).
(** wrapped_code_0.c:20 *)
Definition cdkt_140 : cexp := CAdd (CAdd cdkt_136 (CDiv (CMul cdkt_137 cdkt_41) cdkt_35)) (CDiv (CMul cdkt_139 cdkt_42) cdkt_35).
(** wrapped_code_0.c:21 *)
Definition cdkt_141 : cexp := CSub cdkt_55 cdkt_97.
(** wrapped_code_0.c:21 *)
Definition cdkt_142 : cexp := CSub (CAdd (CAdd cdkt_68 cdkt_133) cdkt_61) (CInt 2).
(** wrapped_code_0.c:21 *)
Definition cdkt_143 : cexp := CSub (CMul (CNeg (CVar Vxi)) cdkt_130) cdkt_51.
(** wrapped_code_0.c:21 *)
Definition cdkt_144 : cexp := CAdd (CSub (CSub (CMul cdkt_117 cdkt_141) cdkt_138) (CMul cdkt_4 cdkt_142)) (CMul cdkt_6 cdkt_143).
(** wrapped_code_0.c:21 *)
Definition cdkt_145 : cexp := CDiv (CMul cdkt_44 cdkt_144) cdkt_36.
(** wrapped_code_0.c:21 *)
Definition cdkt_146 : cexp := CSub (CMul cdkt_117 cdkt_130) (CMul cdkt_4 cdkt_143).
(** wrapped_code_0.c:21 *)
Definition cdkt_147 : cexp := CAdd (CMul cdkt_126 cdkt_141) (CMul cdkt_6 cdkt_142).
(** wrapped_code_0.c:21 *)
Definition cdkt_148 : cexp := CAdd (CAdd cdkt_145 (CDiv (CMul cdkt_146 cdkt_41) cdkt_35)) (CDiv (CMul cdkt_147 cdkt_42) cdkt_35).
(** wrapped_code_0.c:22 *)
Definition cdkt_149 : cexp := CAdd (CDiv (CMul cdkt_38 cdkt_66) cdkt_40) (CDiv (CMul cdkt_2 cdkt_65) cdkt_40).
(** wrapped_code_0.c:22 *)
Definition cdkt_150 : cexp := CAdd (CDiv (CMul cdkt_38 cdkt_65) cdkt_40) (CDiv (CMul cdkt_2 cdkt_66) cdkt_40).
(** wrapped_code_0.c:22 *)
Definition cdkt_151 : cexp := CAdd (CAdd cdkt_64 (CDiv (CMul cdkt_37 cdkt_149) cdkt_35)) (CDiv (CMul cdkt_39 cdkt_150) cdkt_35).
(** wrapped_code_0.c:23 *)
Definition cdkt_152 : cexp := CAdd (CAdd (CDiv (CMul cdkt_3 (CPow cdkt_63 2%nat)) cdkt_36) (CDiv (CMul cdkt_65 cdkt_149) cdkt_35)) (CDiv (CMul cdkt_66 cdkt_150) cdkt_35).
(** wrapped_code_0.c:24 *)
Definition cdkt_153 : cexp := CMul cdkt_3 cdkt_63.
(** wrapped_code_0.c:24 *)
Definition cdkt_154 : cexp := CDiv (CMul cdkt_153 cdkt_74) cdkt_36.
(** wrapped_code_0.c:24 *)
Definition cdkt_155 : cexp := CAdd (CAdd cdkt_154 (CDiv (CMul cdkt_76 cdkt_149) cdkt_35)) (CDiv (CMul cdkt_77 cdkt_150) cdkt_35).
(** wrapped_code_0.c:25 *)
Definition cdkt_156 : cexp := CDiv (CMul cdkt_153 cdkt_90) cdkt_36.
(** wrapped_code_0.c:25 *)
Definition cdkt_157 : cexp := CAdd (CAdd cdkt_156 (CDiv (CMul cdkt_92 cdkt_149) cdkt_35)) (CDiv (CMul cdkt_93 cdkt_150) cdkt_35).
(** wrapped_code_0.c:26 *)
Definition cdkt_158 : cexp := CDiv (CMul cdkt_153 cdkt_102) cdkt_36.
(** wrapped_code_0.c:26 *)
Definition cdkt_159 : cexp := CAdd (CAdd cdkt_158 (CDiv (CMul cdkt_104 cdkt_149) cdkt_35)) (CDiv (CMul cdkt_106 cdkt_150) cdkt_35).
(** wrapped_code_0.c:27 *)
Definition cdkt_160 : cexp := CDiv (CMul cdkt_153 cdkt_112) cdkt_36.
(** wrapped_code_0.c:27 *)
Definition cdkt_161 : cexp := CAdd (CAdd cdkt_160 (CDiv (CMul cdkt_114 cdkt_149) cdkt_35)) (CDiv (CMul cdkt_115 cdkt_150) cdkt_35).
(** wrapped_code_0.c:28 *)
Definition cdkt_162 : cexp := CDiv (CMul cdkt_153 cdkt_123) cdkt_36.
(** wrapped_code_0.c:28 *)
Definition cdkt_163 : cexp := CAdd (CAdd cdkt_162 (CDiv (CMul cdkt_125 cdkt_149) cdkt_35)) (CDiv (CMul cdkt_127 cdkt_150) cdkt_35).
(** wrapped_code_0.c:29 *)
Definition cdkt_164 : cexp := CDiv (CMul cdkt_153 cdkt_135) cdkt_36.
(** wrapped_code_0.c:29 *)
Definition cdkt_165 : cexp := CAdd (CAdd cdkt_164 (CDiv (CMul cdkt_137 cdkt_149) cdkt_35)) (CDiv (CMul cdkt_139 cdkt_150) cdkt_35).
(** wrapped_code_0.c:30 *)
Definition cdkt_166 : cexp := CDiv (CMul cdkt_153 cdkt_144) cdkt_36.
(** wrapped_code_0.c:30 *)
Definition cdkt_167 : cexp := CAdd (CAdd cdkt_166 (CDiv (CMul cdkt_146 cdkt_149) cdkt_35)) (CDiv (CMul cdkt_147 cdkt_150) cdkt_35).
(** wrapped_code_0.c:31 *)
Definition cdkt_168 : cexp := CAdd (CDiv (CMul cdkt_38 cdkt_77) cdkt_40) (CDiv (CMul cdkt_2 cdkt_76) cdkt_40).
(** wrapped_code_0.c:31 *)
Definition cdkt_169 : cexp := CAdd (CDiv (CMul cdkt_38 cdkt_76) cdkt_40) (CDiv (CMul cdkt_2 cdkt_77) cdkt_40).
(** wrapped_code_0.c:31 *)
Definition cdkt_170 : cexp := CAdd (CAdd cdkt_75 (CDiv (CMul cdkt_37 cdkt_168) cdkt_35)) (CDiv (CMul cdkt_39 cdkt_169) cdkt_35).
(** wrapped_code_0.c:32 *)
Definition cdkt_171 : cexp := CAdd (CAdd cdkt_154 (CDiv (CMul cdkt_65 cdkt_168) cdkt_35)) (CDiv (CMul cdkt_66 cdkt_169) cdkt_35).
(** wrapped_code_0.c:33 *)
Definition cdkt_172 : cexp := CAdd (CAdd (CDiv (CMul cdkt_3 (CPow cdkt_74 2%nat)) cdkt_36) (CDiv (CMul cdkt_76 cdkt_168) cdkt_35)) (CDiv (CMul cdkt_77 cdkt_169) cdkt_35).
(** wrapped_code_0.c:34 *)
Definition cdkt_173 : cexp := CMul cdkt_3 cdkt_74.
(** wrapped_code_0.c:34 *)
Definition cdkt_174 : cexp := CDiv (CMul cdkt_173 cdkt_90) cdkt_36.
(** wrapped_code_0.c:34 *)
Definition cdkt_175 : cexp := CAdd (CAdd cdkt_174 (CDiv (CMul cdkt_92 cdkt_168) cdkt_35)) (CDiv (CMul cdkt_93 cdkt_169) cdkt_35).
(** wrapped_code_0.c:35 *)
Definition cdkt_176 : cexp := CDiv (CMul cdkt_173 cdkt_102) cdkt_36.
(** wrapped_code_0.c:35 *)
Definition cdkt_177 : cexp := CAdd (CAdd cdkt_176 (CDiv (CMul cdkt_104 cdkt_168) cdkt_35)) (CDiv (CMul cdkt_106 cdkt_169) cdkt_35).
(** wrapped_code_0.c:36 *)
Definition cdkt_178 : cexp := CDiv (CMul cdkt_173 cdkt_112) cdkt_36.
(** wrapped_code_0.c:36 *)
Definition cdkt_179 : cexp := CAdd (CAdd cdkt_178 (CDiv (CMul cdkt_114 cdkt_168) cdkt_35)) (CDiv (CMul cdkt_115 cdkt_169) cdkt_35).
(** wrapped_code_0.c:37 *)
Definition cdkt_180 : cexp := CDiv (CMul cdkt_173 cdkt_123) cdkt_36.
(** wrapped_code_0.c:37 *)
Definition cdkt_181 : cexp := CAdd (CAdd cdkt_180 (CDiv (CMul cdkt_125 cdkt_168) cdkt_35)) (CDiv (CMul cdkt_127 cdkt_169) cdkt_35).
(** wrapped_code_0.c:38 *)
Definition cdkt_182 : cexp := CDiv (CMul cdkt_173 cdkt_135) cdkt_36.
(** wrapped_code_0.c:38 *)
Definition cdkt_183 : cexp := CAdd (CAdd cdkt_182 (CDiv (CMul cdkt_137 cdkt_168) cdkt_35)) (CDiv (CMul cdkt_139 cdkt_169) cdkt_35).
(** wrapped_code_0.c:39 *)
Definition cdkt_184 : cexp := CDiv (CMul cdkt_173 cdkt_144) cdkt_36.
(** wrapped_code_0.c:39 *)
Definition cdkt_185 : cexp := CAdd (CAdd cdkt_184 (CDiv (CMul cdkt_146 cdkt_168) cdkt_35)) (CDiv (CMul cdkt_147 cdkt_169) cdkt_35).
(** wrapped_code_0.c:40 *)
Definition cdkt_186 : cexp := CAdd (CDiv (CMul cdkt_38 cdkt_93) cdkt_40) (CDiv (CMul cdkt_2 cdkt_92) cdkt_40).
(** wrapped_code_0.c:40 *)
Definition cdkt_187 : cexp := CAdd (CDiv (CMul cdkt_38 cdkt_92) cdkt_40) (CDiv (CMul cdkt_2 cdkt_93) cdkt_40).
(** wrapped_code_0.c:40 *)
Definition cdkt_188 : cexp := CAdd (CAdd cdkt_91 (CDiv (CMul cdkt_37 cdkt_186) cdkt_35)) (CDiv (CMul cdkt_39 cdkt_187) cdkt_35).
(** wrapped_code_0.c:41 *)
Definition cdkt_189 : cexp := CAdd (CAdd cdkt_156 (CDiv (CMul cdkt_65 cdkt_186) cdkt_35)) (CDiv (CMul cdkt_66 cdkt_187) cdkt_35).
(** wrapped_code_0.c:42 *)
Definition cdkt_190 : cexp := CAdd (CAdd cdkt_174 (CDiv (CMul cdkt_76 cdkt_186) cdkt_35)) (CDiv (CMul cdkt_77 cdkt_187) cdkt_35).
(** wrapped_code_0.c:43 *)
Definition cdkt_191 : cexp := CAdd (CAdd (CDiv (CMul cdkt_3 (CPow cdkt_90 2%nat)) cdkt_36) (CDiv (CMul cdkt_92 cdkt_186) cdkt_35)) (CDiv (CMul cdkt_93 cdkt_187) cdkt_35).
(** wrapped_code_0.c:44 *)
Definition cdkt_192 : cexp := CMul cdkt_3 cdkt_90.
(** wrapped_code_0.c:44 *)
Definition cdkt_193 : cexp := CDiv (CMul cdkt_192 cdkt_102) cdkt_36.
(** wrapped_code_0.c:44 *)
Definition cdkt_194 : cexp := CAdd (CAdd cdkt_193 (CDiv (CMul cdkt_104 cdkt_186) cdkt_35)) (CDiv (CMul cdkt_106 cdkt_187) cdkt_35).
(** wrapped_code_0.c:45 *)
Definition cdkt_195 : cexp := CDiv (CMul cdkt_192 cdkt_112) cdkt_36.
(** wrapped_code_0.c:45 *)
Definition cdkt_196 : cexp := CAdd (CAdd cdkt_195 (CDiv (CMul cdkt_114 cdkt_186) cdkt_35)) (CDiv (CMul cdkt_115 cdkt_187) cdkt_35).
(** wrapped_code_0.c:46 *)
Definition cdkt_197 : cexp := CMul cdkt_3 cdkt_123.
(** wrapped_code_0.c:46 *)
Definition cdkt_198 : cexp := CDiv (CMul cdkt_197 cdkt_90) cdkt_36.
(** wrapped_code_0.c:46 *)
Definition cdkt_199 : cexp := CAdd (CAdd cdkt_198 (CDiv (CMul cdkt_125 cdkt_186) cdkt_35)) (CDiv (CMul cdkt_127 cdkt_187) cdkt_35).
(** wrapped_code_0.c:47 *)
Definition cdkt_200 : cexp := CMul cdkt_3 cdkt_135.
(** wrapped_code_0.c:47 *)
Definition cdkt_201 : cexp := CDiv (CMul cdkt_200 cdkt_90) cdkt_36.
(** wrapped_code_0.c:47 *)
Definition cdkt_202 : cexp := CAdd (CAdd cdkt_201 (CDiv (CMul cdkt_137 cdkt_186) cdkt_35)) (CDiv (CMul cdkt_139 cdkt_187) cdkt_35).
(** wrapped_code_0.c:48 *)
Definition cdkt_203 : cexp := CMul cdkt_3 cdkt_144.
(** wrapped_code_0.c:48 *)
Definition cdkt_204 : cexp := CDiv (CMul cdkt_203 cdkt_90) cdkt_36.
(** wrapped_code_0.c:48 *)
Definition cdkt_205 : cexp := CAdd (CAdd cdkt_204 (CDiv (CMul cdkt_146 cdkt_186) cdkt_35)) (CDiv (CMul cdkt_147 cdkt_187) cdkt_35).
(** wrapped_code_0.c:49 *)
Definition cdkt_206 : cexp := CAdd (CDiv (CMul cdkt_38 cdkt_106) cdkt_40) (CDiv (CMul cdkt_2 cdkt_104) cdkt_40).
(** wrapped_code_0.c:49 *)
Definition cdkt_207 : cexp := CAdd (CDiv (CMul cdkt_38 cdkt_104) cdkt_40) (CDiv (CMul cdkt_2 cdkt_106) cdkt_40).
(** wrapped_code_0.c:49 *)
Definition cdkt_208 : cexp := CAdd (CAdd cdkt_103 (CDiv (CMul cdkt_37 cdkt_206) cdkt_35)) (CDiv (CMul cdkt_39 cdkt_207) cdkt_35).
(** wrapped_code_0.c:50 *)
Definition cdkt_209 : cexp := CAdd (CAdd cdkt_158 (CDiv (CMul cdkt_65 cdkt_206) cdkt_35)) (CDiv (CMul cdkt_66 cdkt_207) cdkt_35).
(** wrapped_code_0.c:51 *)
Definition cdkt_210 : cexp := CAdd (CAdd cdkt_176 (CDiv (CMul cdkt_76 cdkt_206) cdkt_35)) (CDiv (CMul cdkt_77 cdkt_207) cdkt_35).
(** wrapped_code_0.c:52 *)
Definition cdkt_211 : cexp := CAdd (CAdd cdkt_193 (CDiv (CMul cdkt_92 cdkt_206) cdkt_35)) (CDiv (CMul cdkt_93 cdkt_207) cdkt_35).
(** wrapped_code_0.c:53 *)
Definition cdkt_212 : cexp := CAdd (CAdd (CDiv (CMul cdkt_3 (CPow cdkt_102 2%nat)) cdkt_36) (CDiv (CMul cdkt_104 cdkt_206) cdkt_35)) (CDiv (CMul cdkt_106 cdkt_207) cdkt_35).
(** wrapped_code_0.c:54 *)
Definition cdkt_213 : cexp := CDiv (CMul (CMul cdkt_3 cdkt_112) cdkt_102) cdkt_36.
(** wrapped_code_0.c:54 *)
Definition cdkt_214 : cexp := CAdd (CAdd cdkt_213 (CDiv (CMul cdkt_114 cdkt_206) cdkt_35)) (CDiv (CMul cdkt_115 cdkt_207) cdkt_35).
(** wrapped_code_0.c:55 *)
Definition cdkt_215 : cexp := CDiv (CMul cdkt_197 cdkt_102) cdkt_36.
(** wrapped_code_0.c:55 *)
Definition cdkt_216 : cexp := CAdd (CAdd cdkt_215 (CDiv (CMul cdkt_125 cdkt_206) cdkt_35)) (CDiv (CMul cdkt_127 cdkt_207) cdkt_35).
(** wrapped_code_0.c:56 *)
Definition cdkt_217 : cexp := CDiv (CMul cdkt_200 cdkt_102) cdkt_36.
(** wrapped_code_0.c:56 *)
Definition cdkt_218 : cexp := CAdd (CAdd cdkt_217 (CDiv (CMul cdkt_137 cdkt_206) cdkt_35)) (CDiv (CMul cdkt_139 cdkt_207) cdkt_35).
(** wrapped_code_0.c:57 *)
Definition cdkt_219 : cexp := CDiv (CMul cdkt_203 cdkt_102) cdkt_36.
(** wrapped_code_0.c:57 *)
Definition cdkt_220 : cexp := CAdd (CAdd cdkt_219 (CDiv (CMul cdkt_146 cdkt_206) cdkt_35)) (CDiv (CMul cdkt_147 cdkt_207) cdkt_35).
(** wrapped_code_0.c:58 *)
Definition cdkt_221 : cexp := CAdd (CDiv (CMul cdkt_38 cdkt_115) cdkt_40) (CDiv (CMul cdkt_2 cdkt_114) cdkt_40).
(** wrapped_code_0.c:58 *)
Definition cdkt_222 : cexp := CAdd (CDiv (CMul cdkt_38 cdkt_114) cdkt_40) (CDiv (CMul cdkt_2 cdkt_115) cdkt_40).
(** wrapped_code_0.c:58 *)
Definition cdkt_223 : cexp := CAdd (CAdd cdkt_113 (CDiv (CMul cdkt_37 cdkt_221) cdkt_35)) (CDiv (CMul cdkt_39 cdkt_222) cdkt_35).
(** wrapped_code_0.c:59 *)
Definition cdkt_224 : cexp := CAdd (CAdd cdkt_160 (CDiv (CMul cdkt_65 cdkt_221) cdkt_35)) (CDiv (CMul cdkt_66 cdkt_222) cdkt_35).
(** wrapped_code_0.c:60 *)
Definition cdkt_225 : cexp := CAdd (CAdd cdkt_178 (CDiv (CMul cdkt_76 cdkt_221) cdkt_35)) (CDiv (CMul cdkt_77 cdkt_222) cdkt_35).
(** wrapped_code_0.c:61 *)
Definition cdkt_226 : cexp := CAdd (CAdd cdkt_195 (CDiv (CMul cdkt_92 cdkt_221) cdkt_35)) (CDiv (CMul cdkt_93 cdkt_222) cdkt_35).
(** wrapped_code_0.c:62 *)
Definition cdkt_227 : cexp := CAdd (CAdd cdkt_213 (CDiv (CMul cdkt_104 cdkt_221) cdkt_35)) (CDiv (CMul cdkt_106 cdkt_222) cdkt_35).
(** wrapped_code_0.c:63 *)
Definition cdkt_228 : cexp := CAdd (CAdd (CDiv (CMul cdkt_3 (CPow cdkt_112 2%nat)) cdkt_36) (CDiv (CMul cdkt_114 cdkt_221) cdkt_35)) (CDiv (CMul cdkt_115 cdkt_222) cdkt_35).
(** wrapped_code_0.c:64 *)
Definition cdkt_229 : cexp := CDiv (CMul cdkt_197 cdkt_112) cdkt_36.
(** wrapped_code_0.c:64 *)
Definition cdkt_230 : cexp := CAdd (CAdd cdkt_229 (CDiv (CMul cdkt_125 cdkt_221) cdkt_35)) (CDiv (CMul cdkt_127 cdkt_222) cdkt_35).
(** wrapped_code_0.c:65 *)
Definition cdkt_231 : cexp := CDiv (CMul cdkt_200 cdkt_112) cdkt_36.
(** wrapped_code_0.c:65 *)
Definition cdkt_232 : cexp := CAdd (CAdd cdkt_231 (CDiv (CMul cdkt_137 cdkt_221) cdkt_35)) (CDiv (CMul cdkt_139 cdkt_222) cdkt_35).
(** wrapped_code_0.c:66 *)
Definition cdkt_233 : cexp := CDiv (CMul cdkt_203 cdkt_112) cdkt_36.
(** wrapped_code_0.c:66 *)
Definition cdkt_234 : cexp := CAdd (CAdd cdkt_233 (CDiv (CMul cdkt_146 cdkt_221) cdkt_35)) (CDiv (CMul cdkt_147 cdkt_222) cdkt_35).
(** wrapped_code_0.c:67 *)
Definition cdkt_235 : cexp := CAdd (CDiv (CMul cdkt_38 cdkt_127) cdkt_40) (CDiv (CMul cdkt_2 cdkt_125) cdkt_40).
(** wrapped_code_0.c:67 *)
Definition cdkt_236 : cexp := CAdd (CDiv (CMul cdkt_38 cdkt_125) cdkt_40) (CDiv (CMul cdkt_2 cdkt_127) cdkt_40).
(** wrapped_code_0.c:67 *)
Definition cdkt_237 : cexp := CAdd (CAdd cdkt_124 (CDiv (CMul cdkt_37 cdkt_235) cdkt_35)) (CDiv (CMul cdkt_39 cdkt_236) cdkt_35).
(** wrapped_code_0.c:68 *)
Definition cdkt_238 : cexp := CAdd (CAdd cdkt_162 (CDiv (CMul cdkt_65 cdkt_235) cdkt_35)) (CDiv (CMul cdkt_66 cdkt_236) cdkt_35).
(** wrapped_code_0.c:69 *)
Definition cdkt_239 : cexp := CAdd (CAdd cdkt_180 (CDiv (CMul cdkt_76 cdkt_235) cdkt_35)) (CDiv (CMul cdkt_77 cdkt_236) cdkt_35).
(** wrapped_code_0.c:70 *)
Definition cdkt_240 : cexp := CAdd (CAdd cdkt_198 (CDiv (CMul cdkt_92 cdkt_235) cdkt_35)) (CDiv (CMul cdkt_93 cdkt_236) cdkt_35).
(** wrapped_code_0.c:71 *)
Definition cdkt_241 : cexp := CAdd (CAdd cdkt_215 (CDiv (CMul cdkt_104 cdkt_235) cdkt_35)) (CDiv (CMul cdkt_106 cdkt_236) cdkt_35).
(** wrapped_code_0.c:72 *)
Definition cdkt_242 : cexp := CAdd (CAdd cdkt_229 (CDiv (CMul cdkt_114 cdkt_235) cdkt_35)) (CDiv (CMul cdkt_115 cdkt_236) cdkt_35).
(** wrapped_code_0.c:73 *)
Definition cdkt_243 : cexp := CAdd (CAdd (CDiv (CMul cdkt_3 (CPow cdkt_123 2%nat)) cdkt_36) (CDiv (CMul cdkt_125 cdkt_235) cdkt_35)) (CDiv (CMul cdkt_127 cdkt_236) cdkt_35).
(** wrapped_code_0.c:74 *)
Definition cdkt_244 : cexp := CDiv (CMul cdkt_197 cdkt_135) cdkt_36.
(** wrapped_code_0.c:74 *)
Definition cdkt_245 : cexp := CAdd (CAdd cdkt_244 (CDiv (CMul cdkt_137 cdkt_235) cdkt_35)) (CDiv (CMul cdkt_139 cdkt_236) cdkt_35).
(** wrapped_code_0.c:75 *)
Definition cdkt_246 : cexp := CDiv (CMul cdkt_197 cdkt_144) cdkt_36.
(** wrapped_code_0.c:75 *)
Definition cdkt_247 : cexp := CAdd (CAdd cdkt_246 (CDiv (CMul cdkt_146 cdkt_235) cdkt_35)) (CDiv (CMul cdkt_147 cdkt_236) cdkt_35).
(** wrapped_code_0.c:76 *)
Definition cdkt_248 : cexp := CAdd (CDiv (CMul cdkt_38 cdkt_139) cdkt_40) (CDiv (CMul cdkt_2 cdkt_137) cdkt_40).
(** wrapped_code_0.c:76 *)
Definition cdkt_249 : cexp := CAdd (CDiv (CMul cdkt_38 cdkt_137) cdkt_40) (CDiv (CMul cdkt_2 cdkt_139) cdkt_40).
(** wrapped_code_0.c:76 *)
Definition cdkt_250 : cexp := CAdd (CAdd cdkt_136 (CDiv (CMul cdkt_37 cdkt_248) cdkt_35)) (CDiv (CMul cdkt_39 cdkt_249) cdkt_35).
(** wrapped_code_0.c:77 *)
Definition cdkt_251 : cexp := CAdd (CAdd cdkt_164 (CDiv (CMul cdkt_65 cdkt_248) cdkt_35)) (CDiv (CMul cdkt_66 cdkt_249) cdkt_35).
(** wrapped_code_0.c:78 *)
Definition cdkt_252 : cexp := CAdd (CAdd cdkt_182 (CDiv (CMul cdkt_76 cdkt_248) cdkt_35)) (CDiv (CMul cdkt_77 cdkt_249) cdkt_35).
(** wrapped_code_0.c:79 *)
Definition cdkt_253 : cexp := CAdd (CAdd cdkt_201 (CDiv (CMul cdkt_92 cdkt_248) cdkt_35)) (CDiv (CMul cdkt_93 cdkt_249) cdkt_35).
(** wrapped_code_0.c:80 *)
Definition cdkt_254 : cexp := CAdd (CAdd cdkt_217 (CDiv (CMul cdkt_104 cdkt_248) cdkt_35)) (CDiv (CMul cdkt_106 cdkt_249) cdkt_35).
(** wrapped_code_0.c:81 *)
Definition cdkt_255 : cexp := CAdd (CAdd cdkt_231 (CDiv (CMul cdkt_114 cdkt_248) cdkt_35)) (CDiv (CMul cdkt_115 cdkt_249) cdkt_35).
(** wrapped_code_0.c:82 *)
Definition cdkt_256 : cexp := CAdd (CAdd cdkt_244 (CDiv (CMul cdkt_125 cdkt_248) cdkt_35)) (CDiv (CMul cdkt_127 cdkt_249) cdkt_35).
(** wrapped_code_0.c:83 *)
Definition cdkt_257 : cexp := CAdd (CAdd (CDiv (CMul cdkt_3 (CPow cdkt_135 2%nat)) cdkt_36) (CDiv (CMul cdkt_137 cdkt_248) cdkt_35)) (CDiv (CMul cdkt_139 cdkt_249) cdkt_35).
(** wrapped_code_0.c:84 *)
Definition cdkt_258 : cexp := CDiv (CMul cdkt_203 cdkt_135) cdkt_36.
(** wrapped_code_0.c:84 *)
Definition cdkt_259 : cexp := CAdd (CAdd cdkt_258 (CDiv (CMul cdkt_146 cdkt_248) cdkt_35)) (CDiv (CMul cdkt_147 cdkt_249) cdkt_35).
(** wrapped_code_0.c:85 *)
Definition cdkt_260 : cexp := CAdd (CDiv (CMul cdkt_38 cdkt_147) cdkt_40) (CDiv (CMul cdkt_2 cdkt_146) cdkt_40).
(** wrapped_code_0.c:85 *)
Definition cdkt_261 : cexp := CAdd (CDiv (CMul cdkt_38 cdkt_146) cdkt_40) (CDiv (CMul cdkt_2 cdkt_147) cdkt_40).
(** wrapped_code_0.c:85 *)
Definition cdkt_262 : cexp := CAdd (CAdd cdkt_145 (CDiv (CMul cdkt_37 cdkt_260) cdkt_35)) (CDiv (CMul cdkt_39 cdkt_261) cdkt_35).
(** wrapped_code_0.c:86 *)
Definition cdkt_263 : cexp := CAdd (CAdd cdkt_166 (CDiv (CMul cdkt_65 cdkt_260) cdkt_35)) (CDiv (CMul cdkt_66 cdkt_261) cdkt_35).
(** wrapped_code_0.c:87 *)
Definition cdkt_264 : cexp := CAdd (CAdd cdkt_184 (CDiv (CMul cdkt_76 cdkt_260) cdkt_35)) (CDiv (CMul cdkt_77 cdkt_261) cdkt_35).
(** wrapped_code_0.c:88 *)
Definition cdkt_265 : cexp := CAdd (CAdd cdkt_204 (CDiv (CMul cdkt_92 cdkt_260) cdkt_35)) (CDiv (CMul cdkt_93 cdkt_261) cdkt_35).
(** wrapped_code_0.c:89 *)
Definition cdkt_266 : cexp := CAdd (CAdd cdkt_219 (CDiv (CMul cdkt_104 cdkt_260) cdkt_35)) (CDiv (CMul cdkt_106 cdkt_261) cdkt_35).
(** wrapped_code_0.c:90 *)
Definition cdkt_267 : cexp := CAdd (CAdd cdkt_233 (CDiv (CMul cdkt_114 cdkt_260) cdkt_35)) (CDiv (CMul cdkt_115 cdkt_261) cdkt_35).
(** wrapped_code_0.c:91 *)
Definition cdkt_268 : cexp := CAdd (CAdd cdkt_246 (CDiv (CMul cdkt_125 cdkt_260) cdkt_35)) (CDiv (CMul cdkt_127 cdkt_261) cdkt_35).
(** wrapped_code_0.c:92 *)
Definition cdkt_269 : cexp := CAdd (CAdd cdkt_258 (CDiv (CMul cdkt_137 cdkt_260) cdkt_35)) (CDiv (CMul cdkt_139 cdkt_261) cdkt_35).
(** wrapped_code_0.c:93 *)
Definition cdkt_270 : cexp := CAdd (CAdd (CDiv (CMul cdkt_3 (CPow cdkt_144 2%nat)) cdkt_36) (CDiv (CMul cdkt_146 cdkt_260) cdkt_35)) (CDiv (CMul cdkt_147 cdkt_261) cdkt_35).
(** wrapped_code_0.c:13-93: out[0], out[1], ... *)
Definition cdkt_code : list cexp :=
  [
    cdkt_43; cdkt_67; cdkt_78; cdkt_94; cdkt_107; cdkt_116; cdkt_128; cdkt_140; cdkt_148;
    cdkt_151; cdkt_152; cdkt_155; cdkt_157; cdkt_159; cdkt_161; cdkt_163; cdkt_165; cdkt_167;
    cdkt_170; cdkt_171; cdkt_172; cdkt_175; cdkt_177; cdkt_179; cdkt_181; cdkt_183; cdkt_185;
    cdkt_188; cdkt_189; cdkt_190; cdkt_191; cdkt_194; cdkt_196; cdkt_199; cdkt_202; cdkt_205;
    cdkt_208; cdkt_209; cdkt_210; cdkt_211; cdkt_212; cdkt_214; cdkt_216; cdkt_218; cdkt_220;
    cdkt_223; cdkt_224; cdkt_225; cdkt_226; cdkt_227; cdkt_228; cdkt_230; cdkt_232; cdkt_234;
    cdkt_237; cdkt_238; cdkt_239; cdkt_240; cdkt_241; cdkt_242; cdkt_243; cdkt_245; cdkt_247;
    cdkt_250; cdkt_251; cdkt_252; cdkt_253; cdkt_254; cdkt_255; cdkt_256; cdkt_257; cdkt_259;
    cdkt_262; cdkt_263; cdkt_264; cdkt_265; cdkt_266; cdkt_267; cdkt_268; cdkt_269; cdkt_270
  ].
