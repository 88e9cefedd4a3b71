(** The membrane of quadrilaterals.
    meta/membranes/GQ12/wrapped_code_0.c:13-156, translated expression by expression: sums and products associate to the left as in C.
    The file writes expressions that occur more than once out each time; here such an expression has
    a name, and the comment gives the line where it occurs first. *)
From Coq Require Import List ZArith.
From Verif Require Import CText.
Import ListNotations.
Local Open Scope Z_scope.

(** wrapped_code_0.c:13 *)
Definition cgq_0 : cexp := CMul (CVar VE) (CSub (CDiv (CInt 1) (CInt 2)) (CMul (CDiv (CInt 1) (CInt 2)) (CVar Vmu))).
(** wrapped_code_0.c:13 *)
Definition cgq_1 : cexp := CMul (CDec 25 100) (CVar Veta).
(** wrapped_code_0.c:13 *)
Definition cgq_2 : cexp := CSub (CDec 25 100) cgq_1.
(** wrapped_code_0.c:13 *)
Definition cgq_3 : cexp := CSub (CMul (CNeg (CDec 25 100)) (CVar Vxi)) (CDec 25 100).
(** wrapped_code_0.c:13 *)
Definition cgq_4 : cexp := CMul (CDec 25 100) (CVar Vxi).
(** wrapped_code_0.c:13 *)
Definition cgq_5 : cexp := CAdd cgq_4 (CDec 25 100).
(** wrapped_code_0.c:13 *)
Definition cgq_6 : cexp := CMul (CVar (Vx 2%nat)) cgq_5.
(** wrapped_code_0.c:13 *)
Definition cgq_7 : cexp := CSub (CDec 25 100) cgq_4.
(** wrapped_code_0.c:13 *)
Definition cgq_8 : cexp := CMul (CVar (Vx 3%nat)) cgq_7.
(** wrapped_code_0.c:13 *)
Definition cgq_9 : cexp := CSub cgq_4 (CDec 25 100).
(** wrapped_code_0.c:13 *)
Definition cgq_10 : cexp := CMul (CVar (Vx 4%nat)) cgq_9.
(** wrapped_code_0.c:13 *)
Definition cgq_11 : cexp := CSub (CSub (CSub (CMul (CNeg (CVar (Vx 1%nat))) cgq_3) cgq_6) cgq_8) cgq_10.
(** wrapped_code_0.c:13 *)
Definition cgq_12 : cexp := CAdd cgq_1 (CDec 25 100).
(** wrapped_code_0.c:13 *)
Definition cgq_13 : cexp := CSub (CMul (CNeg (CDec 25 100)) (CVar Veta)) (CDec 25 100).
(** wrapped_code_0.c:13 *)
Definition cgq_14 : cexp := CSub cgq_1 (CDec 25 100).
(** wrapped_code_0.c:13 *)
Definition cgq_15 : cexp := CAdd (CAdd (CAdd (CMul (CVar (Vx 1%nat)) cgq_2) (CMul (CVar (Vx 2%nat)) cgq_12)) (CMul (CVar (Vx 3%nat)) cgq_13)) (CMul (CVar (Vx 4%nat)) cgq_14).
(** wrapped_code_0.c:13 *)
Definition cgq_16 : cexp := CAdd (CAdd (CAdd (CMul (CVar (Vy 1%nat)) cgq_3) (CMul (CVar (Vy 2%nat)) cgq_5)) (CMul (CVar (Vy 3%nat)) cgq_7)) (CMul (CVar (Vy 4%nat)) cgq_9).
(** wrapped_code_0.c:13 *)
Definition cgq_17 : cexp := CMul (CVar (Vy 2%nat)) cgq_12.
(** wrapped_code_0.c:13 *)
Definition cgq_18 : cexp := CMul (CVar (Vy 3%nat)) cgq_13.
(** wrapped_code_0.c:13 *)
Definition cgq_19 : cexp := CMul (CVar (Vy 4%nat)) cgq_14.
(** wrapped_code_0.c:13 *)
Definition cgq_20 : cexp := CSub (CMul cgq_15 cgq_16) (CMul (CAdd (CAdd (CAdd (CMul (CVar (Vx 1%nat)) cgq_3) cgq_6) cgq_8) cgq_10) (CAdd (CAdd (CAdd (CMul (CVar (Vy 1%nat)) cgq_2) cgq_17) cgq_18) cgq_19)).
(** wrapped_code_0.c:13 *)
Definition cgq_21 : cexp := CAdd (CDiv (CMul cgq_2 cgq_11) cgq_20) (CDiv (CMul cgq_3 cgq_15) cgq_20).
(** wrapped_code_0.c:13 *)
Definition cgq_22 : cexp := CPow cgq_21 2%nat.
(** wrapped_code_0.c:13 *)
Definition cgq_23 : cexp := CSub (CInt 1) (CPow (CVar Vmu) 2%nat).
(** wrapped_code_0.c:13 *)
Definition cgq_24 : cexp := CSub (CSub (CSub (CMul (CNeg (CVar (Vy 1%nat))) cgq_2) cgq_17) cgq_18) cgq_19.
(** wrapped_code_0.c:13 *)
Definition cgq_25 : cexp := CAdd (CDiv (CMul cgq_2 cgq_16) cgq_20) (CDiv (CMul cgq_3 cgq_24) cgq_20).
(** wrapped_code_0.c:13 *)
Definition cgq_26 : cexp := CPow cgq_25 2%nat.
(** wrapped_code_0.c:13 *)
Definition cgq_27 : cexp := CMul (CDec 125 1000) (CVar Veta).
(** wrapped_code_0.c:13 *)
Definition cgq_28 : cexp := CMul cgq_27 (CVar (Vx 2%nat)).
(** wrapped_code_0.c:13 *)
Definition cgq_29 : cexp := CMul cgq_27 (CVar (Vx 3%nat)).
(** wrapped_code_0.c:13 *)
Definition cgq_30 : cexp := CMul cgq_27 (CVar (Vx 4%nat)).
(** wrapped_code_0.c:13 *)
Definition cgq_31 : cexp := CMul (CDec 125 1000) (CVar (Vx 1%nat)).
(** wrapped_code_0.c:13 *)
Definition cgq_32 : cexp := CMul cgq_31 (CVar Vxi).
(** wrapped_code_0.c:13 *)
Definition cgq_33 : cexp := CMul (CDec 125 1000) (CVar (Vx 2%nat)).
(** wrapped_code_0.c:13 *)
Definition cgq_34 : cexp := CMul cgq_33 (CVar Vxi).
(** wrapped_code_0.c:13 *)
Definition cgq_35 : cexp := CMul (CDec 125 1000) (CVar (Vx 3%nat)).
(** wrapped_code_0.c:13 *)
Definition cgq_36 : cexp := CMul cgq_35 (CVar Vxi).
(** wrapped_code_0.c:13 *)
Definition cgq_37 : cexp := CMul (CDec 125 1000) (CVar (Vx 4%nat)).
(** wrapped_code_0.c:13 *)
Definition cgq_38 : cexp := CMul cgq_37 (CVar Vxi).
(** wrapped_code_0.c:13 *)
Definition cgq_39 : cexp := CSub (CAdd (CAdd (CSub (CAdd (CSub (CSub (CAdd (CAdd (CSub (CAdd (CSub (CSub (CAdd (CSub (CAdd (CAdd (CSub (CSub (CAdd (CSub (CAdd (CAdd (CMul (CMul (CMul (CNeg (CDec 125 1000)) (CVar Veta)) (CVar (Vx 1%nat))) (CVar (Vy 3%nat))) (CMul (CMul cgq_27 (CVar (Vx 1%nat))) (CVar (Vy 4%nat)))) (CMul cgq_28 (CVar (Vy 3%nat)))) (CMul cgq_28 (CVar (Vy 4%nat)))) (CMul cgq_29 (CVar (Vy 1%nat)))) (CMul cgq_29 (CVar (Vy 2%nat)))) (CMul cgq_30 (CVar (Vy 1%nat)))) (CMul cgq_30 (CVar (Vy 2%nat)))) (CMul cgq_32 (CVar (Vy 2%nat)))) (CMul cgq_32 (CVar (Vy 3%nat)))) (CMul cgq_31 (CVar (Vy 2%nat)))) (CMul cgq_31 (CVar (Vy 4%nat)))) (CMul cgq_34 (CVar (Vy 1%nat)))) (CMul cgq_34 (CVar (Vy 4%nat)))) (CMul cgq_33 (CVar (Vy 1%nat)))) (CMul cgq_33 (CVar (Vy 3%nat)))) (CMul cgq_36 (CVar (Vy 1%nat)))) (CMul cgq_36 (CVar (Vy 4%nat)))) (CMul cgq_35 (CVar (Vy 2%nat)))) (CMul cgq_35 (CVar (Vy 4%nat)))) (CMul cgq_38 (CVar (Vy 2%nat)))) (CMul cgq_38 (CVar (Vy 3%nat)))) (CMul cgq_37 (CVar (Vy 1%nat)))) (CMul cgq_37 (CVar (Vy 3%nat))).
(** wrapped_code_0.c:13 *)
Definition cgq_40 : cexp := CMul (CMul (CVar Vt) (CAdd (CDiv (CMul cgq_0 cgq_22) cgq_23) (CDiv (CMul (CVar VE) cgq_26) cgq_23))) cgq_39.
(** wrapped_code_0.c:14 *)
Definition cgq_41 : cexp := CMul (CVar VE) (CVar Vmu).
(** wrapped_code_0.c:14 *)
Definition cgq_42 : cexp := CMul cgq_41 cgq_21.
(** wrapped_code_0.c:14 *)
Definition cgq_43 : cexp := CMul cgq_0 cgq_21.
(** wrapped_code_0.c:14 *)
Definition cgq_44 : cexp := CMul (CMul (CVar Vt) (CAdd (CDiv (CMul cgq_42 cgq_25) cgq_23) (CDiv (CMul cgq_43 cgq_25) cgq_23))) cgq_39.
(** wrapped_code_0.c:15 *)
Definition cgq_45 : cexp := CMul cgq_41 cgq_25.
(** wrapped_code_0.c:15 *)
Definition cgq_46 : cexp := CMul (CInt 2) (CVar Veta).
(** wrapped_code_0.c:15 *)
Definition cgq_47 : cexp := CDiv (CNeg (CInt 1)) (CInt 2).
(** wrapped_code_0.c:15 *)
Definition cgq_48 : cexp := CMul (CDiv (CInt 1) (CInt 2)) (CVar (Vx 2%nat)).
(** wrapped_code_0.c:15 *)
Definition cgq_49 : cexp := CAdd (CMul cgq_47 (CVar (Vx 1%nat))) cgq_48.
(** wrapped_code_0.c:15 *)
Definition cgq_50 : cexp := CDiv (CNeg (CInt 1)) (CInt 8).
(** wrapped_code_0.c:15 *)
Definition cgq_51 : cexp := CSub (CMul cgq_50 (CVar Vxi)) (CDiv (CInt 1) (CInt 8)).
(** wrapped_code_0.c:15 *)
Definition cgq_52 : cexp := CMul (CDiv (CInt 1) (CInt 8)) (CVar Vxi).
(** wrapped_code_0.c:15 *)
Definition cgq_53 : cexp := CPow (CVar Vxi) 2%nat.
(** wrapped_code_0.c:15 *)
Definition cgq_54 : cexp := CSub (CInt 1) cgq_53.
(** wrapped_code_0.c:15 *)
Definition cgq_55 : cexp := CMul cgq_52 cgq_54.
(** wrapped_code_0.c:15 *)
Definition cgq_56 : cexp := CMul (CDiv (CInt 1) (CInt 2)) (CVar (Vx 4%nat)).
(** wrapped_code_0.c:15 *)
Definition cgq_57 : cexp := CSub (CMul (CDiv (CInt 1) (CInt 2)) (CVar (Vx 1%nat))) cgq_56.
(** wrapped_code_0.c:15 *)
Definition cgq_58 : cexp := CMul cgq_55 cgq_57.
(** wrapped_code_0.c:15 *)
Definition cgq_59 : cexp := CAdd (CMul (CMul cgq_46 cgq_49) cgq_51) cgq_58.
(** wrapped_code_0.c:15 *)
Definition cgq_60 : cexp := CMul (CDiv (CInt 1) (CInt 4)) cgq_53.
(** wrapped_code_0.c:15 *)
Definition cgq_61 : cexp := CSub (CInt 1) (CVar Veta).
(** wrapped_code_0.c:15 *)
Definition cgq_62 : cexp := CMul (CMul cgq_60 cgq_61) cgq_57.
(** wrapped_code_0.c:15 *)
Definition cgq_63 : cexp := CMul (CDiv (CInt 1) (CInt 8)) (CPow (CVar Veta) 2%nat).
(** wrapped_code_0.c:15 *)
Definition cgq_64 : cexp := CSub (CDiv (CInt 1) (CInt 8)) cgq_63.
(** wrapped_code_0.c:15 *)
Definition cgq_65 : cexp := CMul (CDiv (CInt 1) (CInt 8)) (CVar Veta).
(** wrapped_code_0.c:15 *)
Definition cgq_66 : cexp := CMul (CMul cgq_54 (CSub cgq_65 (CDiv (CInt 1) (CInt 8)))) cgq_57.
(** wrapped_code_0.c:15 *)
Definition cgq_67 : cexp := CAdd (CAdd cgq_62 (CMul cgq_64 cgq_49)) cgq_66.
(** wrapped_code_0.c:15 *)
Definition cgq_68 : cexp := CAdd (CDiv (CMul cgq_59 cgq_15) cgq_20) (CDiv (CMul cgq_67 cgq_11) cgq_20).
(** wrapped_code_0.c:15 *)
Definition cgq_69 : cexp := CAdd cgq_52 (CDiv (CInt 1) (CInt 8)).
(** wrapped_code_0.c:15 *)
Definition cgq_70 : cexp := CMul (CDiv (CInt 1) (CInt 2)) (CVar (Vy 2%nat)).
(** wrapped_code_0.c:15 *)
Definition cgq_71 : cexp := CAdd (CMul cgq_47 (CVar (Vy 1%nat))) cgq_70.
(** wrapped_code_0.c:15 *)
Definition cgq_72 : cexp := CMul (CDiv (CInt 1) (CInt 2)) (CVar (Vy 4%nat)).
(** wrapped_code_0.c:15 *)
Definition cgq_73 : cexp := CSub (CMul (CDiv (CInt 1) (CInt 2)) (CVar (Vy 1%nat))) cgq_72.
(** wrapped_code_0.c:15 *)
Definition cgq_74 : cexp := CMul cgq_55 cgq_73.
(** wrapped_code_0.c:15 *)
Definition cgq_75 : cexp := CSub (CMul (CMul cgq_46 cgq_69) cgq_71) cgq_74.
(** wrapped_code_0.c:15 *)
Definition cgq_76 : cexp := CMul (CDiv (CNeg (CInt 1)) (CInt 4)) cgq_53.
(** wrapped_code_0.c:15 *)
Definition cgq_77 : cexp := CAdd (CMul (CMul cgq_76 cgq_61) cgq_73) (CMul (CMul (CSub (CDiv (CInt 1) (CInt 8)) cgq_65) cgq_54) cgq_73).
(** wrapped_code_0.c:15 *)
Definition cgq_78 : cexp := CSub cgq_63 (CDiv (CInt 1) (CInt 8)).
(** wrapped_code_0.c:15 *)
Definition cgq_79 : cexp := CAdd cgq_77 (CMul cgq_78 cgq_71).
(** wrapped_code_0.c:15 *)
Definition cgq_80 : cexp := CAdd (CAdd (CAdd (CDiv (CMul cgq_59 cgq_24) cgq_20) (CDiv (CMul cgq_75 cgq_15) cgq_20)) (CDiv (CMul cgq_67 cgq_16) cgq_20)) (CDiv (CMul cgq_79 cgq_11) cgq_20).
(** wrapped_code_0.c:15 *)
Definition cgq_81 : cexp := CDiv (CMul cgq_43 cgq_80) cgq_23.
(** wrapped_code_0.c:15 *)
Definition cgq_82 : cexp := CMul (CVar VE) cgq_25.
(** wrapped_code_0.c:15 *)
Definition cgq_83 : cexp := CAdd (CDiv (CMul cgq_75 cgq_24) cgq_20) (CDiv (CMul cgq_79 cgq_16) cgq_20).
(** wrapped_code_0.c:15 *)
Definition cgq_84 : cexp := CMul (CMul (CVar Vt) (CAdd (CAdd (CDiv (CMul cgq_45 cgq_68) cgq_23) cgq_81) (CDiv (CMul cgq_82 cgq_83) cgq_23))) cgq_39.
(** wrapped_code_0.c:16 *)
Definition cgq_85 : cexp := CAdd (CDiv (CMul cgq_12 cgq_11) cgq_20) (CDiv (CMul cgq_5 cgq_15) cgq_20).
(** wrapped_code_0.c:16 *)
Definition cgq_86 : cexp := CAdd (CDiv (CMul cgq_12 cgq_16) cgq_20) (CDiv (CMul cgq_5 cgq_24) cgq_20).
(** wrapped_code_0.c:16 *)
Definition cgq_87 : cexp := CMul (CMul (CVar Vt) (CAdd (CDiv (CMul cgq_43 cgq_85) cgq_23) (CDiv (CMul cgq_82 cgq_86) cgq_23))) cgq_39.
(** wrapped_code_0.c:17 *)
Definition cgq_88 : cexp := CMul (CMul (CVar Vt) (CAdd (CDiv (CMul cgq_45 cgq_85) cgq_23) (CDiv (CMul cgq_43 cgq_86) cgq_23))) cgq_39.
(** wrapped_code_0.c:18 *)
Definition cgq_89 : cexp := CMul (CNeg (CInt 2)) (CVar Veta).
(** wrapped_code_0.c:18 *)
Definition cgq_90 : cexp := CMul (CDiv (CInt 1) (CInt 2)) (CVar (Vx 3%nat)).
(** wrapped_code_0.c:18 *)
Definition cgq_91 : cexp := CSub cgq_48 cgq_90.
(** wrapped_code_0.c:18 *)
Definition cgq_92 : cexp := CMul cgq_55 cgq_91.
(** wrapped_code_0.c:18 *)
Definition cgq_93 : cexp := CSub (CMul (CMul cgq_89 cgq_49) cgq_51) cgq_92.
(** wrapped_code_0.c:18 *)
Definition cgq_94 : cexp := CAdd (CVar Veta) (CInt 1).
(** wrapped_code_0.c:18 *)
Definition cgq_95 : cexp := CMul (CMul cgq_60 cgq_94) cgq_91.
(** wrapped_code_0.c:18 *)
Definition cgq_96 : cexp := CMul (CMul cgq_54 (CSub (CMul cgq_50 (CVar Veta)) (CDiv (CInt 1) (CInt 8)))) cgq_91.
(** wrapped_code_0.c:18 *)
Definition cgq_97 : cexp := CAdd (CAdd cgq_95 cgq_96) (CMul cgq_78 cgq_49).
(** wrapped_code_0.c:18 *)
Definition cgq_98 : cexp := CAdd (CDiv (CMul cgq_93 cgq_15) cgq_20) (CDiv (CMul cgq_97 cgq_11) cgq_20).
(** wrapped_code_0.c:18 *)
Definition cgq_99 : cexp := CMul (CDiv (CInt 1) (CInt 2)) (CVar (Vy 3%nat)).
(** wrapped_code_0.c:18 *)
Definition cgq_100 : cexp := CSub cgq_70 cgq_99.
(** wrapped_code_0.c:18 *)
Definition cgq_101 : cexp := CMul cgq_55 cgq_100.
(** wrapped_code_0.c:18 *)
Definition cgq_102 : cexp := CAdd (CMul (CMul cgq_89 cgq_69) cgq_71) cgq_101.
(** wrapped_code_0.c:18 *)
Definition cgq_103 : cexp := CMul (CMul cgq_76 cgq_94) cgq_100.
(** wrapped_code_0.c:18 *)
Definition cgq_104 : cexp := CMul (CMul cgq_54 (CAdd cgq_65 (CDiv (CInt 1) (CInt 8)))) cgq_100.
(** wrapped_code_0.c:18 *)
Definition cgq_105 : cexp := CAdd (CAdd cgq_103 (CMul cgq_64 cgq_71)) cgq_104.
(** wrapped_code_0.c:18 *)
Definition cgq_106 : cexp := CAdd (CAdd (CAdd (CDiv (CMul cgq_93 cgq_24) cgq_20) (CDiv (CMul cgq_102 cgq_15) cgq_20)) (CDiv (CMul cgq_97 cgq_16) cgq_20)) (CDiv (CMul cgq_105 cgq_11) cgq_20).
(** wrapped_code_0.c:18 *)
Definition cgq_107 : cexp := CDiv (CMul cgq_43 cgq_106) cgq_23.
(** wrapped_code_0.c:18 *)
Definition cgq_108 : cexp := CAdd (CDiv (CMul cgq_102 cgq_24) cgq_20) (CDiv (CMul cgq_105 cgq_16) cgq_20).
(** wrapped_code_0.c:18 *)
Definition cgq_109 : cexp := CMul (CMul (CVar Vt) (CAdd (CAdd (CDiv (CMul cgq_45 cgq_98) cgq_23) cgq_107) (CDiv (CMul cgq_82 cgq_108) cgq_23))) cgq_39.
(** wrapped_code_0.c:19 *)
Definition cgq_110 : cexp := CAdd (CDiv (CMul cgq_7 cgq_15) cgq_20) (CDiv (CMul cgq_13 cgq_11) cgq_20).
(** wrapped_code_0.c:19 *)
Definition cgq_111 : cexp := CAdd (CDiv (CMul cgq_7 cgq_24) cgq_20) (CDiv (CMul cgq_13 cgq_16) cgq_20).
(** wrapped_code_0.c:19 *)
Definition cgq_112 : cexp := CMul (CMul (CVar Vt) (CAdd (CDiv (CMul cgq_43 cgq_110) cgq_23) (CDiv (CMul cgq_82 cgq_111) cgq_23))) cgq_39.
(** wrapped_code_0.c:20 *)
Definition cgq_113 : cexp := CMul (CMul (CVar Vt) (CAdd (CDiv (CMul cgq_45 cgq_110) cgq_23) (CDiv (CMul cgq_43 cgq_111) cgq_23))) cgq_39.
(** wrapped_code_0.c:21 *)
Definition cgq_114 : cexp := CSub cgq_90 cgq_56.
(** wrapped_code_0.c:21 *)
Definition cgq_115 : cexp := CSub cgq_52 (CDiv (CInt 1) (CInt 8)).
(** wrapped_code_0.c:21 *)
Definition cgq_116 : cexp := CSub (CMul (CMul cgq_89 cgq_114) cgq_115) cgq_92.
(** wrapped_code_0.c:21 *)
Definition cgq_117 : cexp := CAdd (CAdd cgq_95 (CMul cgq_64 cgq_114)) cgq_96.
(** wrapped_code_0.c:21 *)
Definition cgq_118 : cexp := CAdd (CDiv (CMul cgq_116 cgq_15) cgq_20) (CDiv (CMul cgq_117 cgq_11) cgq_20).
(** wrapped_code_0.c:21 *)
Definition cgq_119 : cexp := CSub (CDiv (CInt 1) (CInt 8)) cgq_52.
(** wrapped_code_0.c:21 *)
Definition cgq_120 : cexp := CSub cgq_99 cgq_72.
(** wrapped_code_0.c:21 *)
Definition cgq_121 : cexp := CAdd (CMul (CMul cgq_89 cgq_119) cgq_120) cgq_101.
(** wrapped_code_0.c:21 *)
Definition cgq_122 : cexp := CAdd (CAdd cgq_103 cgq_104) (CMul cgq_78 cgq_120).
(** wrapped_code_0.c:21 *)
Definition cgq_123 : cexp := CAdd (CAdd (CAdd (CDiv (CMul cgq_121 cgq_15) cgq_20) (CDiv (CMul cgq_116 cgq_24) cgq_20)) (CDiv (CMul cgq_117 cgq_16) cgq_20)) (CDiv (CMul cgq_122 cgq_11) cgq_20).
(** wrapped_code_0.c:21 *)
Definition cgq_124 : cexp := CDiv (CMul cgq_43 cgq_123) cgq_23.
(** wrapped_code_0.c:21 *)
Definition cgq_125 : cexp := CAdd (CDiv (CMul cgq_121 cgq_24) cgq_20) (CDiv (CMul cgq_122 cgq_16) cgq_20).
(** wrapped_code_0.c:21 *)
Definition cgq_126 : cexp := CMul (CMul (CVar Vt) (CAdd (CAdd (CDiv (CMul cgq_45 cgq_118) cgq_23) cgq_124) (CDiv (CMul cgq_82 cgq_125) cgq_23))) cgq_39.
(** wrapped_code_0.c:22 *)
Definition cgq_127 : cexp := CAdd (CDiv (CMul cgq_14 cgq_11) cgq_20) (CDiv (CMul cgq_9 cgq_15) cgq_20).
(** wrapped_code_0.c:22 *)
Definition cgq_128 : cexp := CAdd (CDiv (CMul cgq_14 cgq_16) cgq_20) (CDiv (CMul cgq_9 cgq_24) cgq_20).
(** wrapped_code_0.c:22 *)
Definition cgq_129 : cexp := CMul (CMul (CVar Vt) (CAdd (CDiv (CMul cgq_43 cgq_127) cgq_23) (CDiv (CMul cgq_82 cgq_128) cgq_23))) cgq_39.
(** wrapped_code_0.c:23 *)
Definition cgq_130 : cexp := CMul (CMul (CVar Vt) (CAdd (CDiv (CMul cgq_45 cgq_127) cgq_23) (CDiv (CMul cgq_43 cgq_128) cgq_23))) cgq_39.
(** wrapped_code_0.c:24 *)
Definition cgq_131 : cexp := CAdd (CMul (CMul cgq_46 cgq_114) cgq_115) cgq_58.
(** wrapped_code_0.c:24 *)
Definition cgq_132 : cexp := CAdd (CAdd cgq_62 cgq_66) (CMul cgq_78 cgq_114).
(** wrapped_code_0.c:24 *)
Definition cgq_133 : cexp := CAdd (CDiv (CMul cgq_131 cgq_15) cgq_20) (CDiv (CMul cgq_132 cgq_11) cgq_20).
(** wrapped_code_0.c:24 *)
Definition cgq_134 : cexp := CSub (CMul (CMul cgq_46 cgq_119) cgq_120) cgq_74.
(** wrapped_code_0.c:24 *)
Definition cgq_135 : cexp := CAdd cgq_77 (CMul cgq_64 cgq_120).
(** wrapped_code_0.c:24 *)
Definition cgq_136 : cexp := CAdd (CAdd (CAdd (CDiv (CMul cgq_134 cgq_15) cgq_20) (CDiv (CMul cgq_131 cgq_24) cgq_20)) (CDiv (CMul cgq_132 cgq_16) cgq_20)) (CDiv (CMul cgq_135 cgq_11) cgq_20).
(** wrapped_code_0.c:24 *)
Definition cgq_137 : cexp := CDiv (CMul cgq_43 cgq_136) cgq_23.
(** wrapped_code_0.c:24 *)
Definition cgq_138 : cexp := CAdd (CDiv (CMul cgq_134 cgq_24) cgq_20) (CDiv (CMul cgq_135 cgq_16) cgq_20).
(** wrapped_code_0.c:24 *)
Definition cgq_139 : cexp := CMul (CMul (CVar Vt) (CAdd (CAdd (CDiv (CMul cgq_45 cgq_133) cgq_23) cgq_137) (CDiv (CMul cgq_82 cgq_138) cgq_23))) cgq_39.
(** wrapped_code_0.c:26 *)
Definition cgq_140 : cexp := CMul (CMul (CVar Vt) (CAdd (CDiv (CMul cgq_0 cgq_26) cgq_23) (CDiv (CMul (CVar VE) cgq_22) cgq_23))) cgq_39.
(** wrapped_code_0.c:27 *)
Definition cgq_141 : cexp := CMul cgq_0 cgq_25.
(** wrapped_code_0.c:27 *)
Definition cgq_142 : cexp := CDiv (CMul cgq_141 cgq_80) cgq_23.
(** wrapped_code_0.c:27 *)
Definition cgq_143 : cexp := CMul (CVar VE) cgq_21.
(** wrapped_code_0.c:27 *)
Definition cgq_144 : cexp := CMul (CMul (CVar Vt) (CAdd (CAdd (CDiv (CMul cgq_42 cgq_83) cgq_23) cgq_142) (CDiv (CMul cgq_143 cgq_68) cgq_23))) cgq_39.
(** wrapped_code_0.c:28 *)
Definition cgq_145 : cexp := CMul (CMul (CVar Vt) (CAdd (CDiv (CMul cgq_42 cgq_86) cgq_23) (CDiv (CMul cgq_141 cgq_85) cgq_23))) cgq_39.
(** wrapped_code_0.c:29 *)
Definition cgq_146 : cexp := CMul (CMul (CVar Vt) (CAdd (CDiv (CMul cgq_141 cgq_86) cgq_23) (CDiv (CMul cgq_143 cgq_85) cgq_23))) cgq_39.
(** wrapped_code_0.c:30 *)
Definition cgq_147 : cexp := CDiv (CMul cgq_141 cgq_106) cgq_23.
(** wrapped_code_0.c:30 *)
Definition cgq_148 : cexp := CMul (CMul (CVar Vt) (CAdd (CAdd (CDiv (CMul cgq_42 cgq_108) cgq_23) cgq_147) (CDiv (CMul cgq_143 cgq_98) cgq_23))) cgq_39.
(** wrapped_code_0.c:31 *)
Definition cgq_149 : cexp := CMul (CMul (CVar Vt) (CAdd (CDiv (CMul cgq_42 cgq_111) cgq_23) (CDiv (CMul cgq_141 cgq_110) cgq_23))) cgq_39.
(** wrapped_code_0.c:32 *)
Definition cgq_150 : cexp := CMul (CMul (CVar Vt) (CAdd (CDiv (CMul cgq_141 cgq_111) cgq_23) (CDiv (CMul cgq_143 cgq_110) cgq_23))) cgq_39.
(** wrapped_code_0.c:33 *)
Definition cgq_151 : cexp := CDiv (CMul cgq_141 cgq_123) cgq_23.
(** wrapped_code_0.c:33 *)
Definition cgq_152 : cexp := CMul (CMul (CVar Vt) (CAdd (CAdd (CDiv (CMul cgq_42 cgq_125) cgq_23) cgq_151) (CDiv (CMul cgq_143 cgq_118) cgq_23))) cgq_39.
(** wrapped_code_0.c:34 *)
Definition cgq_153 : cexp := CMul (CMul (CVar Vt) (CAdd (CDiv (CMul cgq_42 cgq_128) cgq_23) (CDiv (CMul cgq_141 cgq_127) cgq_23))) cgq_39.
(** wrapped_code_0.c:35 *)
Definition cgq_154 : cexp := CMul (CMul (CVar Vt) (CAdd (CDiv (CMul cgq_141 cgq_128) cgq_23) (CDiv (CMul cgq_143 cgq_127) cgq_23))) cgq_39.
(** wrapped_code_0.c:36 *)
Definition cgq_155 : cexp := CDiv (CMul cgq_141 cgq_136) cgq_23.
(** wrapped_code_0.c:36 *)
Definition cgq_156 : cexp := CMul (CMul (CVar Vt) (CAdd (CAdd (CDiv (CMul cgq_42 cgq_138) cgq_23) cgq_155) (CDiv (CMul cgq_143 cgq_133) cgq_23))) cgq_39.
(** wrapped_code_0.c:37 *)
Definition cgq_157 : cexp := CAdd (CDiv (CMul cgq_41 cgq_68) cgq_23) (CDiv (CMul (CVar VE) cgq_83) cgq_23).
(** wrapped_code_0.c:37 *)
Definition cgq_158 : cexp := CMul (CMul (CVar Vt) (CAdd cgq_81 (CMul cgq_25 cgq_157))) cgq_39.
(** wrapped_code_0.c:38 *)
Definition cgq_159 : cexp := CAdd (CDiv (CMul cgq_41 cgq_83) cgq_23) (CDiv (CMul (CVar VE) cgq_68) cgq_23).
(** wrapped_code_0.c:38 *)
Definition cgq_160 : cexp := CMul (CMul (CVar Vt) (CAdd cgq_142 (CMul cgq_21 cgq_159))) cgq_39.
(** wrapped_code_0.c:39 *)
Definition cgq_161 : cexp := CMul (CMul (CVar Vt) (CAdd (CAdd (CDiv (CMul cgq_0 (CPow cgq_80 2%nat)) cgq_23) (CMul cgq_68 cgq_159)) (CMul cgq_83 cgq_157))) cgq_39.
(** wrapped_code_0.c:40 *)
Definition cgq_162 : cexp := CMul cgq_0 cgq_85.
(** wrapped_code_0.c:40 *)
Definition cgq_163 : cexp := CDiv (CMul cgq_162 cgq_80) cgq_23.
(** wrapped_code_0.c:40 *)
Definition cgq_164 : cexp := CMul (CMul (CVar Vt) (CAdd cgq_163 (CMul cgq_86 cgq_157))) cgq_39.
(** wrapped_code_0.c:41 *)
Definition cgq_165 : cexp := CMul cgq_0 cgq_86.
(** wrapped_code_0.c:41 *)
Definition cgq_166 : cexp := CDiv (CMul cgq_165 cgq_80) cgq_23.
(** wrapped_code_0.c:41 *)
Definition cgq_167 : cexp := CMul (CMul (CVar Vt) (CAdd cgq_166 (CMul cgq_85 cgq_159))) cgq_39.
(** wrapped_code_0.c:42 *)
Definition cgq_168 : cexp := CDiv (CMul (CMul cgq_0 cgq_106) cgq_80) cgq_23.
(** wrapped_code_0.c:42 *)
Definition cgq_169 : cexp := CMul (CMul (CVar Vt) (CAdd (CAdd cgq_168 (CMul cgq_98 cgq_159)) (CMul cgq_108 cgq_157))) cgq_39.
(** wrapped_code_0.c:43 *)
Definition cgq_170 : cexp := CMul cgq_0 cgq_110.
(** wrapped_code_0.c:43 *)
Definition cgq_171 : cexp := CDiv (CMul cgq_170 cgq_80) cgq_23.
(** wrapped_code_0.c:43 *)
Definition cgq_172 : cexp := CMul (CMul (CVar Vt) (CAdd cgq_171 (CMul cgq_111 cgq_157))) cgq_39.
(** wrapped_code_0.c:44 *)
Definition cgq_173 : cexp := CMul cgq_0 cgq_111.
(** wrapped_code_0.c:44 *)
Definition cgq_174 : cexp := CDiv (CMul cgq_173 cgq_80) cgq_23.
(** wrapped_code_0.c:44 *)
Definition cgq_175 : cexp := CMul (CMul (CVar Vt) (CAdd cgq_174 (CMul cgq_110 cgq_159))) cgq_39.
(** wrapped_code_0.c:45 *)
Definition cgq_176 : cexp := CMul cgq_0 cgq_123.
(** wrapped_code_0.c:45 *)
Definition cgq_177 : cexp := CDiv (CMul cgq_176 cgq_80) cgq_23.
(** wrapped_code_0.c:45 *)
Definition cgq_178 : cexp := CMul (CMul (CVar Vt) (CAdd (CAdd cgq_177 (CMul cgq_125 cgq_157)) (CMul cgq_118 cgq_159))) cgq_39.
(** wrapped_code_0.c:46 *)
Definition cgq_179 : cexp := CMul cgq_0 cgq_127.
(** wrapped_code_0.c:46 *)
Definition cgq_180 : cexp := CDiv (CMul cgq_179 cgq_80) cgq_23.
(** wrapped_code_0.c:46 *)
Definition cgq_181 : cexp := CMul (CMul (CVar Vt) (CAdd cgq_180 (CMul cgq_128 cgq_157))) cgq_39.
(** wrapped_code_0.c:47 *)
Definition cgq_182 : cexp := CMul cgq_0 cgq_128.
(** wrapped_code_0.c:47 *)
Definition cgq_183 : cexp := CDiv (CMul cgq_182 cgq_80) cgq_23.
(** wrapped_code_0.c:47 *)
Definition cgq_184 : cexp := CMul (CMul (CVar Vt) (CAdd cgq_183 (CMul cgq_127 cgq_159))) cgq_39.
(** wrapped_code_0.c:48 *)
Definition cgq_185 : cexp := CMul cgq_0 cgq_136.
(** wrapped_code_0.c:48 *)
Definition cgq_186 : cexp := CDiv (CMul cgq_185 cgq_80) cgq_23.
(** wrapped_code_0.c:48 *)
Definition cgq_187 : cexp := CMul (CMul (CVar Vt) (CAdd (CAdd cgq_186 (CMul cgq_138 cgq_157)) (CMul cgq_133 cgq_159))) cgq_39.
(** wrapped_code_0.c:51 *)
Definition cgq_188 : cexp := CMul cgq_41 cgq_86.
(** wrapped_code_0.c:51 *)
Definition cgq_189 : cexp := CMul (CVar VE) cgq_86.
(** wrapped_code_0.c:51 *)
Definition cgq_190 : cexp := CMul (CMul (CVar Vt) (CAdd (CAdd (CDiv (CMul cgq_188 cgq_68) cgq_23) cgq_163) (CDiv (CMul cgq_189 cgq_83) cgq_23))) cgq_39.
(** wrapped_code_0.c:52 *)
Definition cgq_191 : cexp := CPow cgq_85 2%nat.
(** wrapped_code_0.c:52 *)
Definition cgq_192 : cexp := CPow cgq_86 2%nat.
(** wrapped_code_0.c:52 *)
Definition cgq_193 : cexp := CMul (CMul (CVar Vt) (CAdd (CDiv (CMul cgq_0 cgq_191) cgq_23) (CDiv (CMul (CVar VE) cgq_192) cgq_23))) cgq_39.
(** wrapped_code_0.c:53 *)
Definition cgq_194 : cexp := CMul cgq_41 cgq_85.
(** wrapped_code_0.c:53 *)
Definition cgq_195 : cexp := CMul (CMul (CVar Vt) (CAdd (CDiv (CMul cgq_194 cgq_86) cgq_23) (CDiv (CMul cgq_162 cgq_86) cgq_23))) cgq_39.
(** wrapped_code_0.c:54 *)
Definition cgq_196 : cexp := CDiv (CMul cgq_162 cgq_106) cgq_23.
(** wrapped_code_0.c:54 *)
Definition cgq_197 : cexp := CMul (CMul (CVar Vt) (CAdd (CAdd (CDiv (CMul cgq_188 cgq_98) cgq_23) cgq_196) (CDiv (CMul cgq_189 cgq_108) cgq_23))) cgq_39.
(** wrapped_code_0.c:55 *)
Definition cgq_198 : cexp := CMul (CVar VE) cgq_111.
(** wrapped_code_0.c:55 *)
Definition cgq_199 : cexp := CMul (CMul (CVar Vt) (CAdd (CDiv (CMul cgq_170 cgq_85) cgq_23) (CDiv (CMul cgq_198 cgq_86) cgq_23))) cgq_39.
(** wrapped_code_0.c:56 *)
Definition cgq_200 : cexp := CMul cgq_41 cgq_110.
(** wrapped_code_0.c:56 *)
Definition cgq_201 : cexp := CMul (CMul (CVar Vt) (CAdd (CDiv (CMul cgq_200 cgq_86) cgq_23) (CDiv (CMul cgq_173 cgq_85) cgq_23))) cgq_39.
(** wrapped_code_0.c:57 *)
Definition cgq_202 : cexp := CDiv (CMul cgq_162 cgq_123) cgq_23.
(** wrapped_code_0.c:57 *)
Definition cgq_203 : cexp := CMul (CMul (CVar Vt) (CAdd (CAdd (CDiv (CMul cgq_188 cgq_118) cgq_23) cgq_202) (CDiv (CMul cgq_189 cgq_125) cgq_23))) cgq_39.
(** wrapped_code_0.c:58 *)
Definition cgq_204 : cexp := CMul (CVar VE) cgq_128.
(** wrapped_code_0.c:58 *)
Definition cgq_205 : cexp := CMul (CMul (CVar Vt) (CAdd (CDiv (CMul cgq_179 cgq_85) cgq_23) (CDiv (CMul cgq_204 cgq_86) cgq_23))) cgq_39.
(** wrapped_code_0.c:59 *)
Definition cgq_206 : cexp := CMul cgq_41 cgq_127.
(** wrapped_code_0.c:59 *)
Definition cgq_207 : cexp := CMul (CMul (CVar Vt) (CAdd (CDiv (CMul cgq_206 cgq_86) cgq_23) (CDiv (CMul cgq_182 cgq_85) cgq_23))) cgq_39.
(** wrapped_code_0.c:60 *)
Definition cgq_208 : cexp := CDiv (CMul cgq_162 cgq_136) cgq_23.
(** wrapped_code_0.c:60 *)
Definition cgq_209 : cexp := CMul (CMul (CVar Vt) (CAdd (CAdd (CDiv (CMul cgq_188 cgq_133) cgq_23) cgq_208) (CDiv (CMul cgq_189 cgq_138) cgq_23))) cgq_39.
(** wrapped_code_0.c:63 *)
Definition cgq_210 : cexp := CMul (CVar VE) cgq_85.
(** wrapped_code_0.c:63 *)
Definition cgq_211 : cexp := CMul (CMul (CVar Vt) (CAdd (CAdd (CDiv (CMul cgq_194 cgq_83) cgq_23) cgq_166) (CDiv (CMul cgq_210 cgq_68) cgq_23))) cgq_39.
(** wrapped_code_0.c:65 *)
Definition cgq_212 : cexp := CMul (CMul (CVar Vt) (CAdd (CDiv (CMul cgq_0 cgq_192) cgq_23) (CDiv (CMul (CVar VE) cgq_191) cgq_23))) cgq_39.
(** wrapped_code_0.c:66 *)
Definition cgq_213 : cexp := CDiv (CMul cgq_165 cgq_106) cgq_23.
(** wrapped_code_0.c:66 *)
Definition cgq_214 : cexp := CMul (CMul (CVar Vt) (CAdd (CAdd (CDiv (CMul cgq_194 cgq_108) cgq_23) cgq_213) (CDiv (CMul cgq_210 cgq_98) cgq_23))) cgq_39.
(** wrapped_code_0.c:67 *)
Definition cgq_215 : cexp := CMul cgq_41 cgq_111.
(** wrapped_code_0.c:67 *)
Definition cgq_216 : cexp := CMul (CMul (CVar Vt) (CAdd (CDiv (CMul cgq_215 cgq_85) cgq_23) (CDiv (CMul cgq_170 cgq_86) cgq_23))) cgq_39.
(** wrapped_code_0.c:68 *)
Definition cgq_217 : cexp := CMul (CVar VE) cgq_110.
(** wrapped_code_0.c:68 *)
Definition cgq_218 : cexp := CMul (CMul (CVar Vt) (CAdd (CDiv (CMul cgq_173 cgq_86) cgq_23) (CDiv (CMul cgq_217 cgq_85) cgq_23))) cgq_39.
(** wrapped_code_0.c:69 *)
Definition cgq_219 : cexp := CDiv (CMul cgq_165 cgq_123) cgq_23.
(** wrapped_code_0.c:69 *)
Definition cgq_220 : cexp := CMul (CMul (CVar Vt) (CAdd (CAdd (CDiv (CMul cgq_194 cgq_125) cgq_23) cgq_219) (CDiv (CMul cgq_210 cgq_118) cgq_23))) cgq_39.
(** wrapped_code_0.c:70 *)
Definition cgq_221 : cexp := CMul cgq_41 cgq_128.
(** wrapped_code_0.c:70 *)
Definition cgq_222 : cexp := CMul (CMul (CVar Vt) (CAdd (CDiv (CMul cgq_221 cgq_85) cgq_23) (CDiv (CMul cgq_179 cgq_86) cgq_23))) cgq_39.
(** wrapped_code_0.c:71 *)
Definition cgq_223 : cexp := CMul (CVar VE) cgq_127.
(** wrapped_code_0.c:71 *)
Definition cgq_224 : cexp := CMul (CMul (CVar Vt) (CAdd (CDiv (CMul cgq_182 cgq_86) cgq_23) (CDiv (CMul cgq_223 cgq_85) cgq_23))) cgq_39.
(** wrapped_code_0.c:72 *)
Definition cgq_225 : cexp := CDiv (CMul cgq_165 cgq_136) cgq_23.
(** wrapped_code_0.c:72 *)
Definition cgq_226 : cexp := CMul (CMul (CVar Vt) (CAdd (CAdd (CDiv (CMul cgq_194 cgq_138) cgq_23) cgq_225) (CDiv (CMul cgq_210 cgq_133) cgq_23))) cgq_39.
(** wrapped_code_0.c:73 *)
Definition cgq_227 : cexp := CAdd (CDiv (CMul cgq_41 cgq_98) cgq_23) (CDiv (CMul (CVar VE) cgq_108) cgq_23).
(** wrapped_code_0.c:73 *)
Definition cgq_228 : cexp := CMul (CMul (CVar Vt) (CAdd cgq_107 (CMul cgq_25 cgq_227))) cgq_39.
(** wrapped_code_0.c:74 *)
Definition cgq_229 : cexp := CAdd (CDiv (CMul cgq_41 cgq_108) cgq_23) (CDiv (CMul (CVar VE) cgq_98) cgq_23).
(** wrapped_code_0.c:74 *)
Definition cgq_230 : cexp := CMul (CMul (CVar Vt) (CAdd cgq_147 (CMul cgq_21 cgq_229))) cgq_39.
(** wrapped_code_0.c:75 *)
Definition cgq_231 : cexp := CMul (CMul (CVar Vt) (CAdd (CAdd cgq_168 (CMul cgq_68 cgq_229)) (CMul cgq_83 cgq_227))) cgq_39.
(** wrapped_code_0.c:76 *)
Definition cgq_232 : cexp := CMul (CMul (CVar Vt) (CAdd cgq_196 (CMul cgq_86 cgq_227))) cgq_39.
(** wrapped_code_0.c:77 *)
Definition cgq_233 : cexp := CMul (CMul (CVar Vt) (CAdd cgq_213 (CMul cgq_85 cgq_229))) cgq_39.
(** wrapped_code_0.c:78 *)
Definition cgq_234 : cexp := CMul (CMul (CVar Vt) (CAdd (CAdd (CDiv (CMul cgq_0 (CPow cgq_106 2%nat)) cgq_23) (CMul cgq_98 cgq_229)) (CMul cgq_108 cgq_227))) cgq_39.
(** wrapped_code_0.c:79 *)
Definition cgq_235 : cexp := CDiv (CMul cgq_170 cgq_106) cgq_23.
(** wrapped_code_0.c:79 *)
Definition cgq_236 : cexp := CMul (CMul (CVar Vt) (CAdd cgq_235 (CMul cgq_111 cgq_227))) cgq_39.
(** wrapped_code_0.c:80 *)
Definition cgq_237 : cexp := CDiv (CMul cgq_173 cgq_106) cgq_23.
(** wrapped_code_0.c:80 *)
Definition cgq_238 : cexp := CMul (CMul (CVar Vt) (CAdd cgq_237 (CMul cgq_110 cgq_229))) cgq_39.
(** wrapped_code_0.c:81 *)
Definition cgq_239 : cexp := CDiv (CMul cgq_176 cgq_106) cgq_23.
(** wrapped_code_0.c:81 *)
Definition cgq_240 : cexp := CMul (CMul (CVar Vt) (CAdd (CAdd cgq_239 (CMul cgq_125 cgq_227)) (CMul cgq_118 cgq_229))) cgq_39.
(** wrapped_code_0.c:82 *)
Definition cgq_241 : cexp := CDiv (CMul cgq_179 cgq_106) cgq_23.
(** wrapped_code_0.c:82 *)
Definition cgq_242 : cexp := CMul (CMul (CVar Vt) (CAdd cgq_241 (CMul cgq_128 cgq_227))) cgq_39.
(** wrapped_code_0.c:83 *)
Definition cgq_243 : cexp := CDiv (CMul cgq_182 cgq_106) cgq_23.
(** wrapped_code_0.c:83 *)
Definition cgq_244 : cexp := CMul (CMul (CVar Vt) (CAdd cgq_243 (CMul cgq_127 cgq_229))) cgq_39.
(** wrapped_code_0.c:84 *)
Definition cgq_245 : cexp := CDiv (CMul cgq_185 cgq_106) cgq_23.
(** wrapped_code_0.c:84 *)
Definition cgq_246 : cexp := CMul (CMul (CVar Vt) (CAdd (CAdd cgq_245 (CMul cgq_138 cgq_227)) (CMul cgq_133 cgq_229))) cgq_39.
(** wrapped_code_0.c:87 *)
Definition cgq_247 : cexp := CMul (CMul (CVar Vt) (CAdd (CAdd (CDiv (CMul cgq_215 cgq_68) cgq_23) cgq_171) (CDiv (CMul cgq_198 cgq_83) cgq_23))) cgq_39.
(** wrapped_code_0.c:90 *)
Definition cgq_248 : cexp := CMul (CMul (CVar Vt) (CAdd (CAdd (CDiv (CMul cgq_215 cgq_98) cgq_23) cgq_235) (CDiv (CMul cgq_198 cgq_108) cgq_23))) cgq_39.
(** wrapped_code_0.c:91 *)
Definition cgq_249 : cexp := CPow cgq_110 2%nat.
(** wrapped_code_0.c:91 *)
Definition cgq_250 : cexp := CPow cgq_111 2%nat.
(** wrapped_code_0.c:91 *)
Definition cgq_251 : cexp := CMul (CMul (CVar Vt) (CAdd (CDiv (CMul cgq_0 cgq_249) cgq_23) (CDiv (CMul (CVar VE) cgq_250) cgq_23))) cgq_39.
(** wrapped_code_0.c:92 *)
Definition cgq_252 : cexp := CMul (CMul (CVar Vt) (CAdd (CDiv (CMul cgq_200 cgq_111) cgq_23) (CDiv (CMul cgq_170 cgq_111) cgq_23))) cgq_39.
(** wrapped_code_0.c:93 *)
Definition cgq_253 : cexp := CDiv (CMul cgq_170 cgq_123) cgq_23.
(** wrapped_code_0.c:93 *)
Definition cgq_254 : cexp := CMul (CMul (CVar Vt) (CAdd (CAdd (CDiv (CMul cgq_215 cgq_118) cgq_23) cgq_253) (CDiv (CMul cgq_198 cgq_125) cgq_23))) cgq_39.
(** wrapped_code_0.c:94 *)
Definition cgq_255 : cexp := CMul (CMul (CVar Vt) (CAdd (CDiv (CMul cgq_170 cgq_127) cgq_23) (CDiv (CMul cgq_198 cgq_128) cgq_23))) cgq_39.
(** wrapped_code_0.c:95 *)
Definition cgq_256 : cexp := CMul (CMul (CVar Vt) (CAdd (CDiv (CMul cgq_215 cgq_127) cgq_23) (CDiv (CMul cgq_170 cgq_128) cgq_23))) cgq_39.
(** wrapped_code_0.c:96 *)
Definition cgq_257 : cexp := CDiv (CMul cgq_170 cgq_136) cgq_23.
(** wrapped_code_0.c:96 *)
Definition cgq_258 : cexp := CMul (CMul (CVar Vt) (CAdd (CAdd (CDiv (CMul cgq_215 cgq_133) cgq_23) cgq_257) (CDiv (CMul cgq_198 cgq_138) cgq_23))) cgq_39.
(** wrapped_code_0.c:99 *)
Definition cgq_259 : cexp := CMul (CMul (CVar Vt) (CAdd (CAdd (CDiv (CMul cgq_200 cgq_83) cgq_23) cgq_174) (CDiv (CMul cgq_217 cgq_68) cgq_23))) cgq_39.
(** wrapped_code_0.c:102 *)
Definition cgq_260 : cexp := CMul (CMul (CVar Vt) (CAdd (CAdd (CDiv (CMul cgq_200 cgq_108) cgq_23) cgq_237) (CDiv (CMul cgq_217 cgq_98) cgq_23))) cgq_39.
(** wrapped_code_0.c:104 *)
Definition cgq_261 : cexp := CMul (CMul (CVar Vt) (CAdd (CDiv (CMul cgq_0 cgq_250) cgq_23) (CDiv (CMul (CVar VE) cgq_249) cgq_23))) cgq_39.
(** wrapped_code_0.c:105 *)
Definition cgq_262 : cexp := CDiv (CMul cgq_173 cgq_123) cgq_23.
(** wrapped_code_0.c:105 *)
Definition cgq_263 : cexp := CMul (CMul (CVar Vt) (CAdd (CAdd (CDiv (CMul cgq_200 cgq_125) cgq_23) cgq_262) (CDiv (CMul cgq_217 cgq_118) cgq_23))) cgq_39.
(** wrapped_code_0.c:106 *)
Definition cgq_264 : cexp := CMul (CMul (CVar Vt) (CAdd (CDiv (CMul cgq_200 cgq_128) cgq_23) (CDiv (CMul cgq_173 cgq_127) cgq_23))) cgq_39.
(** wrapped_code_0.c:107 *)
Definition cgq_265 : cexp := CMul (CMul (CVar Vt) (CAdd (CDiv (CMul cgq_173 cgq_128) cgq_23) (CDiv (CMul cgq_217 cgq_127) cgq_23))) cgq_39.
(** wrapped_code_0.c:108 *)
Definition cgq_266 : cexp := CDiv (CMul cgq_173 cgq_136) cgq_23.
(** wrapped_code_0.c:108 *)
Definition cgq_267 : cexp := CMul (CMul (CVar Vt) (CAdd (CAdd (CDiv (CMul cgq_200 cgq_138) cgq_23) cgq_266) (CDiv (CMul cgq_217 cgq_133) cgq_23))) cgq_39.
(** wrapped_code_0.c:109 *)
Definition cgq_268 : cexp := CAdd (CDiv (CMul cgq_41 cgq_118) cgq_23) (CDiv (CMul (CVar VE) cgq_125) cgq_23).
(** wrapped_code_0.c:109 *)
Definition cgq_269 : cexp := CMul (CMul (CVar Vt) (CAdd cgq_124 (CMul cgq_25 cgq_268))) cgq_39.
(** wrapped_code_0.c:110 *)
Definition cgq_270 : cexp := CAdd (CDiv (CMul cgq_41 cgq_125) cgq_23) (CDiv (CMul (CVar VE) cgq_118) cgq_23).
(** wrapped_code_0.c:110 *)
Definition cgq_271 : cexp := CMul (CMul (CVar Vt) (CAdd cgq_151 (CMul cgq_21 cgq_270))) cgq_39.
(** wrapped_code_0.c:111 *)
Definition cgq_272 : cexp := CMul (CMul (CVar Vt) (CAdd (CAdd cgq_177 (CMul cgq_68 cgq_270)) (CMul cgq_83 cgq_268))) cgq_39.
(** wrapped_code_0.c:112 *)
Definition cgq_273 : cexp := CMul (CMul (CVar Vt) (CAdd cgq_202 (CMul cgq_86 cgq_268))) cgq_39.
(** wrapped_code_0.c:113 *)
Definition cgq_274 : cexp := CMul (CMul (CVar Vt) (CAdd cgq_219 (CMul cgq_85 cgq_270))) cgq_39.
(** wrapped_code_0.c:114 *)
Definition cgq_275 : cexp := CMul (CMul (CVar Vt) (CAdd (CAdd cgq_239 (CMul cgq_98 cgq_270)) (CMul cgq_108 cgq_268))) cgq_39.
(** wrapped_code_0.c:115 *)
Definition cgq_276 : cexp := CMul (CMul (CVar Vt) (CAdd cgq_253 (CMul cgq_111 cgq_268))) cgq_39.
(** wrapped_code_0.c:116 *)
Definition cgq_277 : cexp := CMul (CMul (CVar Vt) (CAdd cgq_262 (CMul cgq_110 cgq_270))) cgq_39.
(** wrapped_code_0.c:117 *)
Definition cgq_278 : cexp := CMul (CMul (CVar Vt) (CAdd (CAdd (CDiv (CMul cgq_0 (CPow cgq_123 2%nat)) cgq_23) (CMul cgq_125 cgq_268)) (CMul cgq_118 cgq_270))) cgq_39.
(** wrapped_code_0.c:118 *)
Definition cgq_279 : cexp := CDiv (CMul cgq_179 cgq_123) cgq_23.
(** wrapped_code_0.c:118 *)
Definition cgq_280 : cexp := CMul (CMul (CVar Vt) (CAdd cgq_279 (CMul cgq_128 cgq_268))) cgq_39.
(** wrapped_code_0.c:119 *)
Definition cgq_281 : cexp := CDiv (CMul cgq_182 cgq_123) cgq_23.
(** wrapped_code_0.c:119 *)
Definition cgq_282 : cexp := CMul (CMul (CVar Vt) (CAdd cgq_281 (CMul cgq_127 cgq_270))) cgq_39.
(** wrapped_code_0.c:120 *)
Definition cgq_283 : cexp := CDiv (CMul cgq_176 cgq_136) cgq_23.
(** wrapped_code_0.c:120 *)
Definition cgq_284 : cexp := CMul (CMul (CVar Vt) (CAdd (CAdd cgq_283 (CMul cgq_138 cgq_268)) (CMul cgq_133 cgq_270))) cgq_39.
(** wrapped_code_0.c:123 *)
Definition cgq_285 : cexp := CMul (CMul (CVar Vt) (CAdd (CAdd (CDiv (CMul cgq_221 cgq_68) cgq_23) cgq_180) (CDiv (CMul cgq_204 cgq_83) cgq_23))) cgq_39.
(** wrapped_code_0.c:126 *)
Definition cgq_286 : cexp := CMul (CMul (CVar Vt) (CAdd (CAdd (CDiv (CMul cgq_221 cgq_98) cgq_23) cgq_241) (CDiv (CMul cgq_204 cgq_108) cgq_23))) cgq_39.
(** wrapped_code_0.c:129 *)
Definition cgq_287 : cexp := CMul (CMul (CVar Vt) (CAdd (CAdd (CDiv (CMul cgq_221 cgq_118) cgq_23) cgq_279) (CDiv (CMul cgq_204 cgq_125) cgq_23))) cgq_39.
(** wrapped_code_0.c:130 *)
Definition cgq_288 : cexp := CPow cgq_127 2%nat.
(** wrapped_code_0.c:130 *)
Definition cgq_289 : cexp := CPow cgq_128 2%nat.
(** wrapped_code_0.c:130 *)
Definition cgq_290 : cexp := CMul (CMul (CVar Vt) (CAdd (CDiv (CMul cgq_0 cgq_288) cgq_23) (CDiv (CMul (CVar VE) cgq_289) cgq_23))) cgq_39.
(** wrapped_code_0.c:131 *)
Definition cgq_291 : cexp := CMul (CMul (CVar Vt) (CAdd (CDiv (CMul cgq_206 cgq_128) cgq_23) (CDiv (CMul cgq_179 cgq_128) cgq_23))) cgq_39.
(** wrapped_code_0.c:132 *)
Definition cgq_292 : cexp := CDiv (CMul cgq_179 cgq_136) cgq_23.
(** wrapped_code_0.c:132 *)
Definition cgq_293 : cexp := CMul (CMul (CVar Vt) (CAdd (CAdd (CDiv (CMul cgq_221 cgq_133) cgq_23) cgq_292) (CDiv (CMul cgq_204 cgq_138) cgq_23))) cgq_39.
(** wrapped_code_0.c:135 *)
Definition cgq_294 : cexp := CMul (CMul (CVar Vt) (CAdd (CAdd (CDiv (CMul cgq_206 cgq_83) cgq_23) cgq_183) (CDiv (CMul cgq_223 cgq_68) cgq_23))) cgq_39.
(** wrapped_code_0.c:138 *)
Definition cgq_295 : cexp := CMul (CMul (CVar Vt) (CAdd (CAdd (CDiv (CMul cgq_206 cgq_108) cgq_23) cgq_243) (CDiv (CMul cgq_223 cgq_98) cgq_23))) cgq_39.
(** wrapped_code_0.c:141 *)
Definition cgq_296 : cexp := CMul (CMul (CVar Vt) (CAdd (CAdd (CDiv (CMul cgq_206 cgq_125) cgq_23) cgq_281) (CDiv (CMul cgq_223 cgq_118) cgq_23))) cgq_39.
(** wrapped_code_0.c:143 *)
Definition cgq_297 : cexp := CMul (CMul (CVar Vt) (CAdd (CDiv (CMul cgq_0 cgq_289) cgq_23) (CDiv (CMul (CVar VE) cgq_288) cgq_23))) cgq_39.
(** wrapped_code_0.c:144 *)
Definition cgq_298 : cexp := CDiv (CMul cgq_182 cgq_136) cgq_23.
(** wrapped_code_0.c:144 *)
Definition cgq_299 : cexp := CMul (CMul (CVar Vt) (CAdd (CAdd (CDiv (CMul cgq_206 cgq_138) cgq_23) cgq_298) (CDiv (CMul cgq_223 cgq_133) cgq_23))) cgq_39.
(** wrapped_code_0.c:145 *)
Definition cgq_300 : cexp := CAdd (CDiv (CMul cgq_41 cgq_133) cgq_23) (CDiv (CMul (CVar VE) cgq_138) cgq_23).
(** wrapped_code_0.c:145 *)
Definition cgq_301 : cexp := CMul (CMul (CVar Vt) (CAdd cgq_137 (CMul cgq_25 cgq_300))) cgq_39.
(** wrapped_code_0.c:146 *)
Definition cgq_302 : cexp := CAdd (CDiv (CMul cgq_41 cgq_138) cgq_23) (CDiv (CMul (CVar VE) cgq_133) cgq_23).
(** wrapped_code_0.c:146 *)
Definition cgq_303 : cexp := CMul (CMul (CVar Vt) (CAdd cgq_155 (CMul cgq_21 cgq_302))) cgq_39.
(** wrapped_code_0.c:147 *)
Definition cgq_304 : cexp := CMul (CMul (CVar Vt) (CAdd (CAdd cgq_186 (CMul cgq_68 cgq_302)) (CMul cgq_83 cgq_300))) cgq_39.
(** wrapped_code_0.c:148 *)
Definition cgq_305 : cexp := CMul (CMul (CVar Vt) (CAdd cgq_208 (CMul cgq_86 cgq_300))) cgq_39.
(** wrapped_code_0.c:149 *)
Definition cgq_306 : cexp := CMul (CMul (CVar Vt) (CAdd cgq_225 (CMul cgq_85 cgq_302))) cgq_39.
(** wrapped_code_0.c:150 *)
Definition cgq_307 : cexp := CMul (CMul (CVar Vt) (CAdd (CAdd cgq_245 (CMul cgq_98 cgq_302)) (CMul cgq_108 cgq_300))) cgq_39.
(** wrapped_code_0.c:151 *)
Definition cgq_308 : cexp := CMul (CMul (CVar Vt) (CAdd cgq_257 (CMul cgq_111 cgq_300))) cgq_39.
(** wrapped_code_0.c:152 *)
Definition cgq_309 : cexp := CMul (CMul (CVar Vt) (CAdd cgq_266 (CMul cgq_110 cgq_302))) cgq_39.
(** wrapped_code_0.c:153 *)
Definition cgq_310 : cexp := CMul (CMul (CVar Vt) (CAdd (CAdd cgq_283 (CMul cgq_125 cgq_300)) (CMul cgq_118 cgq_302))) cgq_39.
(** wrapped_code_0.c:154 *)
Definition cgq_311 : cexp := CMul (CMul (CVar Vt) (CAdd cgq_292 (CMul cgq_128 cgq_300))) cgq_39.
(** wrapped_code_0.c:155 *)
Definition cgq_312 : cexp := CMul (CMul (CVar Vt) (CAdd cgq_298 (CMul cgq_127 cgq_302))) cgq_39.
(** wrapped_code_0.c:156 *)
Definition cgq_313 : cexp := CMul (CMul (CVar Vt) (CAdd (CAdd (CDiv (CMul cgq_0 (CPow cgq_136 2%nat)) cgq_23) (CMul cgq_138 cgq_300)) (CMul cgq_133 cgq_302))) cgq_39.
(** wrapped_code_0.c:13-156: out[0], out[1], ... *)
Definition cgq_code : list cexp :=
  [
    cgq_40; cgq_44; cgq_84; cgq_87; cgq_88; cgq_109; cgq_112; cgq_113; cgq_126; cgq_129; cgq_130; cgq_139;
    cgq_44; cgq_140; cgq_144; cgq_145; cgq_146; cgq_148; cgq_149; cgq_150; cgq_152; cgq_153; cgq_154; cgq_156;
    cgq_158; cgq_160; cgq_161; cgq_164; cgq_167; cgq_169; cgq_172; cgq_175; cgq_178; cgq_181; cgq_184; cgq_187;
    cgq_87; cgq_145; cgq_190; cgq_193; cgq_195; cgq_197; cgq_199; cgq_201; cgq_203; cgq_205; cgq_207; cgq_209;
    cgq_88; cgq_146; cgq_211; cgq_195; cgq_212; cgq_214; cgq_216; cgq_218; cgq_220; cgq_222; cgq_224; cgq_226;
    cgq_228; cgq_230; cgq_231; cgq_232; cgq_233; cgq_234; cgq_236; cgq_238; cgq_240; cgq_242; cgq_244; cgq_246;
    cgq_112; cgq_149; cgq_247; cgq_199; cgq_216; cgq_248; cgq_251; cgq_252; cgq_254; cgq_255; cgq_256; cgq_258;
    cgq_113; cgq_150; cgq_259; cgq_201; cgq_218; cgq_260; cgq_252; cgq_261; cgq_263; cgq_264; cgq_265; cgq_267;
    cgq_269; cgq_271; cgq_272; cgq_273; cgq_274; cgq_275; cgq_276; cgq_277; cgq_278; cgq_280; cgq_282; cgq_284;
    cgq_129; cgq_153; cgq_285; cgq_205; cgq_222; cgq_286; cgq_255; cgq_264; cgq_287; cgq_290; cgq_291; cgq_293;
    cgq_130; cgq_154; cgq_294; cgq_207; cgq_224; cgq_295; cgq_256; cgq_265; cgq_296; cgq_291; cgq_297; cgq_299;
    cgq_301; cgq_303; cgq_304; cgq_305; cgq_306; cgq_307; cgq_308; cgq_309; cgq_310; cgq_311; cgq_312; cgq_313
  ].
