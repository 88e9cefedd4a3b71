(** The plate of quadrilaterals.
    meta/plates/metaDKQ/wrapped_code_0.c:13-156, translated expression by expression: sums and products associate to the left as in C.
    The file writes expressions that occur more than once out each time; here such an expression has
    a name, and the comment gives the line where it occurs first. *)
From Coq Require Import List ZArith.
From Verif Require Import CText.
Import ListNotations.
Local Open Scope Z_scope.

(** wrapped_code_0.c:13 *)
Definition cdkq_0 : cexp := CMul (CDiv (CInt 1) (CInt 12)) (CVar VE).
(** wrapped_code_0.c:13 *)
Definition cdkq_1 : cexp := CPow (CVar Vt) 3%nat.
(** wrapped_code_0.c:13 *)
Definition cdkq_2 : cexp := CMul cdkq_0 cdkq_1.
(** wrapped_code_0.c:13 *)
Definition cdkq_3 : cexp := CMul cdkq_2 (CSub (CDiv (CInt 1) (CInt 2)) (CMul (CDiv (CInt 1) (CInt 2)) (CVar Vmu))).
(** wrapped_code_0.c:13 *)
Definition cdkq_4 : cexp := CMul (CDec 15 10) (CVar Veta).
(** wrapped_code_0.c:13 *)
Definition cdkq_5 : cexp := CSub (CInt 1) (CVar Vxi).
(** wrapped_code_0.c:13 *)
Definition cdkq_6 : cexp := CMul cdkq_4 cdkq_5.
(** wrapped_code_0.c:13 *)
Definition cdkq_7 : cexp := CSub (CVar (Vx 1%nat)) (CVar (Vx 4%nat)).
(** wrapped_code_0.c:13 *)
Definition cdkq_8 : cexp := CAdd (CNeg (CVar (Vx 1%nat))) (CVar (Vx 4%nat)).
(** wrapped_code_0.c:13 *)
Definition cdkq_9 : cexp := CPow cdkq_8 2%nat.
(** wrapped_code_0.c:13 *)
Definition cdkq_10 : cexp := CAdd (CNeg (CVar (Vy 1%nat))) (CVar (Vy 4%nat)).
(** wrapped_code_0.c:13 *)
Definition cdkq_11 : cexp := CPow cdkq_10 2%nat.
(** wrapped_code_0.c:13 *)
Definition cdkq_12 : cexp := CAdd cdkq_9 cdkq_11.
(** wrapped_code_0.c:13 *)
Definition cdkq_13 : cexp := CSub (CDec 5 10) (CMul (CDec 5 10) (CPow (CVar Vxi) 2%nat)).
(** wrapped_code_0.c:13 *)
Definition cdkq_14 : cexp := CMul (CDec 15 10) cdkq_13.
(** wrapped_code_0.c:13 *)
Definition cdkq_15 : cexp := CAdd (CNeg (CVar (Vx 1%nat))) (CVar (Vx 2%nat)).
(** wrapped_code_0.c:13 *)
Definition cdkq_16 : cexp := CSub (CVar (Vx 1%nat)) (CVar (Vx 2%nat)).
(** wrapped_code_0.c:13 *)
Definition cdkq_17 : cexp := CPow cdkq_16 2%nat.
(** wrapped_code_0.c:13 *)
Definition cdkq_18 : cexp := CSub (CVar (Vy 1%nat)) (CVar (Vy 2%nat)).
(** wrapped_code_0.c:13 *)
Definition cdkq_19 : cexp := CPow cdkq_18 2%nat.
(** wrapped_code_0.c:13 *)
Definition cdkq_20 : cexp := CAdd cdkq_17 cdkq_19.
(** wrapped_code_0.c:13 *)
Definition cdkq_21 : cexp := CDiv (CMul cdkq_14 cdkq_15) cdkq_20.
(** wrapped_code_0.c:13 *)
Definition cdkq_22 : cexp := CSub (CDiv (CMul cdkq_6 cdkq_7) cdkq_12) cdkq_21.
(** wrapped_code_0.c:13 *)
Definition cdkq_23 : cexp := CMul (CDec 25 100) (CVar Vxi).
(** wrapped_code_0.c:13 *)
Definition cdkq_24 : cexp := CSub (CAdd cdkq_18 (CVar (Vy 3%nat))) (CVar (Vy 4%nat)).
(** wrapped_code_0.c:13 *)
Definition cdkq_25 : cexp := CMul (CDec 25 100) (CVar (Vy 1%nat)).
(** wrapped_code_0.c:13 *)
Definition cdkq_26 : cexp := CMul (CDec 25 100) (CVar (Vy 2%nat)).
(** wrapped_code_0.c:13 *)
Definition cdkq_27 : cexp := CMul (CDec 25 100) (CVar (Vy 3%nat)).
(** wrapped_code_0.c:13 *)
Definition cdkq_28 : cexp := CMul (CDec 25 100) (CVar (Vy 4%nat)).
(** wrapped_code_0.c:13 *)
Definition cdkq_29 : cexp := CAdd (CAdd (CSub (CSub (CMul cdkq_23 cdkq_24) cdkq_25) cdkq_26) cdkq_27) cdkq_28.
(** wrapped_code_0.c:13 *)
Definition cdkq_30 : cexp := CAdd (CNeg (CVar (Vy 2%nat))) (CVar (Vy 3%nat)).
(** wrapped_code_0.c:13 *)
Definition cdkq_31 : cexp := CAdd (CNeg (CVar (Vx 2%nat))) (CVar (Vx 3%nat)).
(** wrapped_code_0.c:13 *)
Definition cdkq_32 : cexp := CSub (CVar (Vy 3%nat)) (CVar (Vy 4%nat)).
(** wrapped_code_0.c:13 *)
Definition cdkq_33 : cexp := CSub (CVar (Vx 3%nat)) (CVar (Vx 4%nat)).
(** wrapped_code_0.c:13 *)
Definition cdkq_34 : cexp := CAdd (CNeg (CVar (Vy 1%nat))) (CVar (Vy 2%nat)).
(** wrapped_code_0.c:13 *)
Definition cdkq_35 : cexp := CSub (CAdd (CAdd (CMul (CMul (CDiv (CInt 1) (CInt 8)) (CVar Veta)) (CAdd (CMul (CNeg cdkq_8) cdkq_30) (CMul cdkq_31 cdkq_10))) (CMul (CMul (CDiv (CInt 1) (CInt 8)) (CVar Vxi)) (CSub (CMul cdkq_15 cdkq_32) (CMul cdkq_33 cdkq_34)))) (CMul (CMul (CDec 125 1000) (CAdd (CNeg (CVar (Vx 1%nat))) (CVar (Vx 3%nat)))) (CAdd (CNeg (CVar (Vy 2%nat))) (CVar (Vy 4%nat))))) (CMul (CMul (CDec 125 1000) (CAdd (CNeg (CVar (Vx 2%nat))) (CVar (Vx 4%nat)))) (CAdd (CNeg (CVar (Vy 1%nat))) (CVar (Vy 3%nat)))).
(** wrapped_code_0.c:13 *)
Definition cdkq_36 : cexp := CSub (CVar (Vy 1%nat)) (CVar (Vy 4%nat)).
(** wrapped_code_0.c:13 *)
Definition cdkq_37 : cexp := CDiv (CMul cdkq_14 cdkq_34) cdkq_20.
(** wrapped_code_0.c:13 *)
Definition cdkq_38 : cexp := CSub (CDiv (CMul cdkq_6 cdkq_36) cdkq_12) cdkq_37.
(** wrapped_code_0.c:13 *)
Definition cdkq_39 : cexp := CMul (CNeg (CDec 25 100)) (CVar Veta).
(** wrapped_code_0.c:13 *)
Definition cdkq_40 : cexp := CAdd (CSub (CSub (CAdd (CMul cdkq_39 cdkq_24) cdkq_25) cdkq_26) cdkq_27) cdkq_28.
(** wrapped_code_0.c:13 *)
Definition cdkq_41 : cexp := CMul (CNeg (CDec 15 10)) (CVar Vxi).
(** wrapped_code_0.c:13 *)
Definition cdkq_42 : cexp := CSub (CInt 1) (CVar Veta).
(** wrapped_code_0.c:13 *)
Definition cdkq_43 : cexp := CMul cdkq_41 cdkq_42.
(** wrapped_code_0.c:13 *)
Definition cdkq_44 : cexp := CSub (CDec 5 10) (CMul (CDec 5 10) (CPow (CVar Veta) 2%nat)).
(** wrapped_code_0.c:13 *)
Definition cdkq_45 : cexp := CMul (CDec 15 10) cdkq_44.
(** wrapped_code_0.c:13 *)
Definition cdkq_46 : cexp := CDiv (CMul cdkq_45 cdkq_7) cdkq_12.
(** wrapped_code_0.c:13 *)
Definition cdkq_47 : cexp := CAdd (CDiv (CMul cdkq_43 cdkq_15) cdkq_20) cdkq_46.
(** wrapped_code_0.c:13 *)
Definition cdkq_48 : cexp := CMul (CDec 25 100) (CVar (Vx 1%nat)).
(** wrapped_code_0.c:13 *)
Definition cdkq_49 : cexp := CMul (CDec 25 100) (CVar (Vx 2%nat)).
(** wrapped_code_0.c:13 *)
Definition cdkq_50 : cexp := CMul (CDec 25 100) (CVar (Vx 3%nat)).
(** wrapped_code_0.c:13 *)
Definition cdkq_51 : cexp := CMul (CDec 25 100) (CVar (Vx 4%nat)).
(** wrapped_code_0.c:13 *)
Definition cdkq_52 : cexp := CSub (CAdd cdkq_16 (CVar (Vx 3%nat))) (CVar (Vx 4%nat)).
(** wrapped_code_0.c:13 *)
Definition cdkq_53 : cexp := CSub (CSub (CSub (CAdd cdkq_48 cdkq_49) cdkq_50) cdkq_51) (CMul cdkq_23 cdkq_52).
(** wrapped_code_0.c:13 *)
Definition cdkq_54 : cexp := CDiv (CMul cdkq_45 cdkq_36) cdkq_12.
(** wrapped_code_0.c:13 *)
Definition cdkq_55 : cexp := CAdd (CDiv (CMul cdkq_43 cdkq_34) cdkq_20) cdkq_54.
(** wrapped_code_0.c:13 *)
Definition cdkq_56 : cexp := CMul (CDec 25 100) (CVar Veta).
(** wrapped_code_0.c:13 *)
Definition cdkq_57 : cexp := CSub (CAdd (CAdd (CSub (CMul cdkq_56 cdkq_52) cdkq_48) cdkq_49) cdkq_50) cdkq_51.
(** wrapped_code_0.c:13 *)
Definition cdkq_58 : cexp := CAdd (CAdd (CAdd (CDiv (CMul cdkq_22 cdkq_29) cdkq_35) (CDiv (CMul cdkq_38 cdkq_40) cdkq_35)) (CDiv (CMul cdkq_47 cdkq_53) cdkq_35)) (CDiv (CMul cdkq_55 cdkq_57) cdkq_35).
(** wrapped_code_0.c:13 *)
Definition cdkq_59 : cexp := CSub (CInt 1) (CPow (CVar Vmu) 2%nat).
(** wrapped_code_0.c:13 *)
Definition cdkq_60 : cexp := CAdd (CDiv (CMul cdkq_22 cdkq_40) cdkq_35) (CDiv (CMul cdkq_47 cdkq_57) cdkq_35).
(** wrapped_code_0.c:13 *)
Definition cdkq_61 : cexp := CMul (CMul cdkq_0 (CVar Vmu)) cdkq_1.
(** wrapped_code_0.c:13 *)
Definition cdkq_62 : cexp := CAdd (CDiv (CMul cdkq_38 cdkq_29) cdkq_35) (CDiv (CMul cdkq_55 cdkq_53) cdkq_35).
(** wrapped_code_0.c:13 *)
Definition cdkq_63 : cexp := CAdd (CDiv (CMul cdkq_61 cdkq_62) cdkq_59) (CDiv (CMul cdkq_2 cdkq_60) cdkq_59).
(** wrapped_code_0.c:13 *)
Definition cdkq_64 : cexp := CAdd (CDiv (CMul cdkq_61 cdkq_60) cdkq_59) (CDiv (CMul cdkq_2 cdkq_62) cdkq_59).
(** wrapped_code_0.c:13 *)
Definition cdkq_65 : cexp := CMul (CDec 125 1000) (CVar Veta).
(** wrapped_code_0.c:13 *)
Definition cdkq_66 : cexp := CMul cdkq_65 (CVar (Vx 2%nat)).
(** wrapped_code_0.c:13 *)
Definition cdkq_67 : cexp := CMul cdkq_65 (CVar (Vx 3%nat)).
(** wrapped_code_0.c:13 *)
Definition cdkq_68 : cexp := CMul cdkq_65 (CVar (Vx 4%nat)).
(** wrapped_code_0.c:13 *)
Definition cdkq_69 : cexp := CMul (CDec 125 1000) (CVar (Vx 1%nat)).
(** wrapped_code_0.c:13 *)
Definition cdkq_70 : cexp := CMul cdkq_69 (CVar Vxi).
(** wrapped_code_0.c:13 *)
Definition cdkq_71 : cexp := CMul (CDec 125 1000) (CVar (Vx 2%nat)).
(** wrapped_code_0.c:13 *)
Definition cdkq_72 : cexp := CMul cdkq_71 (CVar Vxi).
(** wrapped_code_0.c:13 *)
Definition cdkq_73 : cexp := CMul (CDec 125 1000) (CVar (Vx 3%nat)).
(** wrapped_code_0.c:13 *)
Definition cdkq_74 : cexp := CMul cdkq_73 (CVar Vxi).
(** wrapped_code_0.c:13 *)
Definition cdkq_75 : cexp := CMul (CDec 125 1000) (CVar (Vx 4%nat)).
(** wrapped_code_0.c:13 *)
Definition cdkq_76 : cexp := CMul cdkq_75 (CVar Vxi).
(** wrapped_code_0.c:13 *)
Definition cdkq_77 : cexp := CSub (CAdd (CAdd (CSub (CAdd (CSub (CSub (CAdd (CAdd (CSub (CSub (CAdd (CSub (CAdd (CAdd (CSub (CSub (CAdd (CAdd (CSub (CSub (CAdd (CAdd (CMul (CMul (CMul (CNeg (CDec 125 1000)) (CVar Veta)) (CVar (Vx 1%nat))) (CVar (Vy 2%nat))) (CMul (CMul cdkq_65 (CVar (Vx 1%nat))) (CVar (Vy 3%nat)))) (CMul cdkq_66 (CVar (Vy 1%nat)))) (CMul cdkq_66 (CVar (Vy 4%nat)))) (CMul cdkq_67 (CVar (Vy 1%nat)))) (CMul cdkq_67 (CVar (Vy 4%nat)))) (CMul cdkq_68 (CVar (Vy 2%nat)))) (CMul cdkq_68 (CVar (Vy 3%nat)))) (CMul cdkq_70 (CVar (Vy 3%nat)))) (CMul cdkq_70 (CVar (Vy 4%nat)))) (CMul cdkq_69 (CVar (Vy 2%nat)))) (CMul cdkq_69 (CVar (Vy 4%nat)))) (CMul cdkq_72 (CVar (Vy 3%nat)))) (CMul cdkq_72 (CVar (Vy 4%nat)))) (CMul cdkq_71 (CVar (Vy 1%nat)))) (CMul cdkq_71 (CVar (Vy 3%nat)))) (CMul cdkq_74 (CVar (Vy 1%nat)))) (CMul cdkq_74 (CVar (Vy 2%nat)))) (CMul cdkq_73 (CVar (Vy 2%nat)))) (CMul cdkq_73 (CVar (Vy 4%nat)))) (CMul cdkq_76 (CVar (Vy 1%nat)))) (CMul cdkq_76 (CVar (Vy 2%nat)))) (CMul cdkq_75 (CVar (Vy 1%nat)))) (CMul cdkq_75 (CVar (Vy 3%nat))).
(** wrapped_code_0.c:13 *)
Definition cdkq_78 : cexp := CMul (CAdd (CAdd (CDiv (CMul cdkq_3 (CPow cdkq_58 2%nat)) cdkq_59) (CMul cdkq_60 cdkq_63)) (CMul cdkq_62 cdkq_64)) cdkq_77.
(** wrapped_code_0.c:14 *)
Definition cdkq_79 : cexp := CMul cdkq_3 cdkq_58.
(** wrapped_code_0.c:14 *)
Definition cdkq_80 : cexp := CMul (CNeg (CInt 1)) (CVar Veta).
(** wrapped_code_0.c:14 *)
Definition cdkq_81 : cexp := CMul cdkq_80 cdkq_5.
(** wrapped_code_0.c:14 *)
Definition cdkq_82 : cexp := CMul (CDec 75 100) (CVar (Vx 4%nat)).
(** wrapped_code_0.c:14 *)
Definition cdkq_83 : cexp := CAdd (CMul (CNeg (CDec 75 100)) (CVar (Vx 1%nat))) cdkq_82.
(** wrapped_code_0.c:14 *)
Definition cdkq_84 : cexp := CDiv (CMul (CMul cdkq_81 cdkq_83) cdkq_10) cdkq_12.
(** wrapped_code_0.c:14 *)
Definition cdkq_85 : cexp := CMul (CDec 75 100) (CVar (Vx 2%nat)).
(** wrapped_code_0.c:14 *)
Definition cdkq_86 : cexp := CSub (CMul (CDec 75 100) (CVar (Vx 1%nat))) cdkq_85.
(** wrapped_code_0.c:14 *)
Definition cdkq_87 : cexp := CDiv (CMul (CMul cdkq_13 cdkq_86) cdkq_18) cdkq_20.
(** wrapped_code_0.c:14 *)
Definition cdkq_88 : cexp := CSub cdkq_84 cdkq_87.
(** wrapped_code_0.c:14 *)
Definition cdkq_89 : cexp := CMul (CNeg (CInt 1)) (CVar Vxi).
(** wrapped_code_0.c:14 *)
Definition cdkq_90 : cexp := CMul cdkq_89 cdkq_42.
(** wrapped_code_0.c:14 *)
Definition cdkq_91 : cexp := CDiv (CMul (CMul cdkq_90 cdkq_86) cdkq_18) cdkq_20.
(** wrapped_code_0.c:14 *)
Definition cdkq_92 : cexp := CDiv (CMul (CMul cdkq_44 cdkq_83) cdkq_10) cdkq_12.
(** wrapped_code_0.c:14 *)
Definition cdkq_93 : cexp := CSub cdkq_91 cdkq_92.
(** wrapped_code_0.c:14 *)
Definition cdkq_94 : cexp := CAdd (CMul (CNeg (CDec 5 10)) cdkq_9) (CMul (CDec 25 100) cdkq_11).
(** wrapped_code_0.c:14 *)
Definition cdkq_95 : cexp := CDiv (CMul cdkq_81 cdkq_94) cdkq_12.
(** wrapped_code_0.c:14 *)
Definition cdkq_96 : cexp := CAdd (CMul (CNeg (CDec 5 10)) cdkq_17) (CMul (CDec 25 100) cdkq_19).
(** wrapped_code_0.c:14 *)
Definition cdkq_97 : cexp := CDiv (CMul cdkq_13 cdkq_96) cdkq_20.
(** wrapped_code_0.c:14 *)
Definition cdkq_98 : cexp := CSub (CVar Veta) (CInt 1).
(** wrapped_code_0.c:14 *)
Definition cdkq_99 : cexp := CSub cdkq_23 (CDec 25 100).
(** wrapped_code_0.c:14 *)
Definition cdkq_100 : cexp := CMul cdkq_98 cdkq_99.
(** wrapped_code_0.c:14 *)
Definition cdkq_101 : cexp := CAdd (CAdd (CVar Veta) (CVar Vxi)) (CInt 1).
(** wrapped_code_0.c:14 *)
Definition cdkq_102 : cexp := CAdd (CAdd (CSub cdkq_95 cdkq_97) cdkq_100) (CMul cdkq_99 cdkq_101).
(** wrapped_code_0.c:14 *)
Definition cdkq_103 : cexp := CDiv (CMul cdkq_90 cdkq_96) cdkq_20.
(** wrapped_code_0.c:14 *)
Definition cdkq_104 : cexp := CDiv (CMul cdkq_44 cdkq_94) cdkq_12.
(** wrapped_code_0.c:14 *)
Definition cdkq_105 : cexp := CSub cdkq_56 (CDec 25 100).
(** wrapped_code_0.c:14 *)
Definition cdkq_106 : cexp := CAdd (CAdd (CSub cdkq_103 cdkq_104) (CMul cdkq_105 cdkq_101)) cdkq_100.
(** wrapped_code_0.c:14 *)
Definition cdkq_107 : cexp := CAdd (CAdd (CAdd (CDiv (CMul cdkq_88 cdkq_29) cdkq_35) (CDiv (CMul cdkq_93 cdkq_53) cdkq_35)) (CDiv (CMul cdkq_102 cdkq_40) cdkq_35)) (CDiv (CMul cdkq_106 cdkq_57) cdkq_35).
(** wrapped_code_0.c:14 *)
Definition cdkq_108 : cexp := CDiv (CMul cdkq_79 cdkq_107) cdkq_59.
(** wrapped_code_0.c:14 *)
Definition cdkq_109 : cexp := CAdd (CDiv (CMul cdkq_88 cdkq_40) cdkq_35) (CDiv (CMul cdkq_93 cdkq_57) cdkq_35).
(** wrapped_code_0.c:14 *)
Definition cdkq_110 : cexp := CAdd (CDiv (CMul cdkq_102 cdkq_29) cdkq_35) (CDiv (CMul cdkq_106 cdkq_53) cdkq_35).
(** wrapped_code_0.c:14 *)
Definition cdkq_111 : cexp := CMul (CAdd (CAdd cdkq_108 (CMul cdkq_109 cdkq_63)) (CMul cdkq_110 cdkq_64)) cdkq_77.
(** wrapped_code_0.c:15 *)
Definition cdkq_112 : cexp := CMul (CInt 1) (CVar Veta).
(** wrapped_code_0.c:15 *)
Definition cdkq_113 : cexp := CMul cdkq_112 cdkq_5.
(** wrapped_code_0.c:15 *)
Definition cdkq_114 : cexp := CDiv (CMul (CMul cdkq_113 cdkq_83) cdkq_10) cdkq_12.
(** wrapped_code_0.c:15 *)
Definition cdkq_115 : cexp := CAdd cdkq_114 cdkq_87.
(** wrapped_code_0.c:15 *)
Definition cdkq_116 : cexp := CMul (CInt 1) (CVar Vxi).
(** wrapped_code_0.c:15 *)
Definition cdkq_117 : cexp := CMul cdkq_116 cdkq_42.
(** wrapped_code_0.c:15 *)
Definition cdkq_118 : cexp := CDiv (CMul (CMul cdkq_117 cdkq_86) cdkq_18) cdkq_20.
(** wrapped_code_0.c:15 *)
Definition cdkq_119 : cexp := CAdd cdkq_118 cdkq_92.
(** wrapped_code_0.c:15 *)
Definition cdkq_120 : cexp := CSub (CMul (CDec 25 100) cdkq_9) (CMul (CDec 5 10) cdkq_11).
(** wrapped_code_0.c:15 *)
Definition cdkq_121 : cexp := CDiv (CMul cdkq_113 cdkq_120) cdkq_12.
(** wrapped_code_0.c:15 *)
Definition cdkq_122 : cexp := CSub (CDec 25 100) cdkq_23.
(** wrapped_code_0.c:15 *)
Definition cdkq_123 : cexp := CSub (CMul (CDec 25 100) cdkq_17) (CMul (CDec 5 10) cdkq_19).
(** wrapped_code_0.c:15 *)
Definition cdkq_124 : cexp := CDiv (CMul cdkq_13 cdkq_123) cdkq_20.
(** wrapped_code_0.c:15 *)
Definition cdkq_125 : cexp := CMul cdkq_42 cdkq_99.
(** wrapped_code_0.c:15 *)
Definition cdkq_126 : cexp := CAdd (CAdd (CAdd cdkq_121 (CMul cdkq_122 cdkq_101)) cdkq_124) cdkq_125.
(** wrapped_code_0.c:15 *)
Definition cdkq_127 : cexp := CDiv (CMul cdkq_117 cdkq_123) cdkq_20.
(** wrapped_code_0.c:15 *)
Definition cdkq_128 : cexp := CSub (CDec 25 100) cdkq_56.
(** wrapped_code_0.c:15 *)
Definition cdkq_129 : cexp := CDiv (CMul cdkq_44 cdkq_120) cdkq_12.
(** wrapped_code_0.c:15 *)
Definition cdkq_130 : cexp := CAdd (CAdd (CAdd cdkq_127 (CMul cdkq_128 cdkq_101)) cdkq_129) cdkq_125.
(** wrapped_code_0.c:15 *)
Definition cdkq_131 : cexp := CAdd (CAdd (CAdd (CDiv (CMul cdkq_115 cdkq_40) cdkq_35) (CDiv (CMul cdkq_119 cdkq_57) cdkq_35)) (CDiv (CMul cdkq_126 cdkq_29) cdkq_35)) (CDiv (CMul cdkq_130 cdkq_53) cdkq_35).
(** wrapped_code_0.c:15 *)
Definition cdkq_132 : cexp := CDiv (CMul cdkq_79 cdkq_131) cdkq_59.
(** wrapped_code_0.c:15 *)
Definition cdkq_133 : cexp := CAdd (CDiv (CMul cdkq_115 cdkq_29) cdkq_35) (CDiv (CMul cdkq_119 cdkq_53) cdkq_35).
(** wrapped_code_0.c:15 *)
Definition cdkq_134 : cexp := CAdd (CDiv (CMul cdkq_126 cdkq_40) cdkq_35) (CDiv (CMul cdkq_130 cdkq_57) cdkq_35).
(** wrapped_code_0.c:15 *)
Definition cdkq_135 : cexp := CMul (CAdd (CAdd cdkq_132 (CMul cdkq_133 cdkq_64)) (CMul cdkq_134 cdkq_63)) cdkq_77.
(** wrapped_code_0.c:16 *)
Definition cdkq_136 : cexp := CMul (CNeg (CDec 15 10)) (CVar Veta).
(** wrapped_code_0.c:16 *)
Definition cdkq_137 : cexp := CAdd (CVar Vxi) (CInt 1).
(** wrapped_code_0.c:16 *)
Definition cdkq_138 : cexp := CPow (CSub (CVar (Vx 2%nat)) (CVar (Vx 3%nat))) 2%nat.
(** wrapped_code_0.c:16 *)
Definition cdkq_139 : cexp := CSub (CVar (Vy 2%nat)) (CVar (Vy 3%nat)).
(** wrapped_code_0.c:16 *)
Definition cdkq_140 : cexp := CPow cdkq_139 2%nat.
(** wrapped_code_0.c:16 *)
Definition cdkq_141 : cexp := CAdd cdkq_138 cdkq_140.
(** wrapped_code_0.c:16 *)
Definition cdkq_142 : cexp := CAdd (CDiv (CMul (CMul cdkq_136 cdkq_31) cdkq_137) cdkq_141) cdkq_21.
(** wrapped_code_0.c:16 *)
Definition cdkq_143 : cexp := CAdd (CDiv (CMul (CMul cdkq_136 cdkq_137) cdkq_30) cdkq_141) cdkq_37.
(** wrapped_code_0.c:16 *)
Definition cdkq_144 : cexp := CMul (CDec 15 10) (CVar Vxi).
(** wrapped_code_0.c:16 *)
Definition cdkq_145 : cexp := CMul cdkq_144 cdkq_42.
(** wrapped_code_0.c:16 *)
Definition cdkq_146 : cexp := CDiv (CMul cdkq_45 cdkq_31) cdkq_141.
(** wrapped_code_0.c:16 *)
Definition cdkq_147 : cexp := CAdd (CDiv (CMul cdkq_145 cdkq_15) cdkq_20) cdkq_146.
(** wrapped_code_0.c:16 *)
Definition cdkq_148 : cexp := CDiv (CMul cdkq_45 cdkq_30) cdkq_141.
(** wrapped_code_0.c:16 *)
Definition cdkq_149 : cexp := CAdd (CDiv (CMul cdkq_145 cdkq_34) cdkq_20) cdkq_148.
(** wrapped_code_0.c:16 *)
Definition cdkq_150 : cexp := CAdd (CAdd (CAdd (CDiv (CMul cdkq_142 cdkq_29) cdkq_35) (CDiv (CMul cdkq_143 cdkq_40) cdkq_35)) (CDiv (CMul cdkq_147 cdkq_53) cdkq_35)) (CDiv (CMul cdkq_149 cdkq_57) cdkq_35).
(** wrapped_code_0.c:16 *)
Definition cdkq_151 : cexp := CDiv (CMul cdkq_79 cdkq_150) cdkq_59.
(** wrapped_code_0.c:16 *)
Definition cdkq_152 : cexp := CAdd (CDiv (CMul cdkq_142 cdkq_40) cdkq_35) (CDiv (CMul cdkq_147 cdkq_57) cdkq_35).
(** wrapped_code_0.c:16 *)
Definition cdkq_153 : cexp := CAdd (CDiv (CMul cdkq_143 cdkq_29) cdkq_35) (CDiv (CMul cdkq_149 cdkq_53) cdkq_35).
(** wrapped_code_0.c:16 *)
Definition cdkq_154 : cexp := CMul (CAdd (CAdd cdkq_151 (CMul cdkq_152 cdkq_63)) (CMul cdkq_153 cdkq_64)) cdkq_77.
(** wrapped_code_0.c:17 *)
Definition cdkq_155 : cexp := CMul (CDec 75 100) (CVar (Vx 3%nat)).
(** wrapped_code_0.c:17 *)
Definition cdkq_156 : cexp := CSub cdkq_85 cdkq_155.
(** wrapped_code_0.c:17 *)
Definition cdkq_157 : cexp := CDiv (CMul (CMul (CMul cdkq_80 cdkq_156) cdkq_137) cdkq_139) cdkq_141.
(** wrapped_code_0.c:17 *)
Definition cdkq_158 : cexp := CSub cdkq_157 cdkq_87.
(** wrapped_code_0.c:17 *)
Definition cdkq_159 : cexp := CDiv (CMul (CMul cdkq_44 cdkq_156) cdkq_139) cdkq_141.
(** wrapped_code_0.c:17 *)
Definition cdkq_160 : cexp := CAdd cdkq_91 cdkq_159.
(** wrapped_code_0.c:17 *)
Definition cdkq_161 : cexp := CAdd (CMul (CNeg (CDec 5 10)) cdkq_138) (CMul (CDec 25 100) cdkq_140).
(** wrapped_code_0.c:17 *)
Definition cdkq_162 : cexp := CDiv (CMul (CMul cdkq_80 cdkq_137) cdkq_161) cdkq_141.
(** wrapped_code_0.c:17 *)
Definition cdkq_163 : cexp := CSub (CMul (CNeg (CDec 25 100)) (CVar Vxi)) (CDec 25 100).
(** wrapped_code_0.c:17 *)
Definition cdkq_164 : cexp := CMul cdkq_98 cdkq_163.
(** wrapped_code_0.c:17 *)
Definition cdkq_165 : cexp := CAdd (CSub (CVar Veta) (CVar Vxi)) (CInt 1).
(** wrapped_code_0.c:17 *)
Definition cdkq_166 : cexp := CAdd (CAdd (CSub cdkq_162 cdkq_97) cdkq_164) (CMul cdkq_163 cdkq_165).
(** wrapped_code_0.c:17 *)
Definition cdkq_167 : cexp := CDiv (CMul cdkq_44 cdkq_161) cdkq_141.
(** wrapped_code_0.c:17 *)
Definition cdkq_168 : cexp := CSub (CAdd (CAdd cdkq_103 (CMul cdkq_128 cdkq_165)) cdkq_167) cdkq_164.
(** wrapped_code_0.c:17 *)
Definition cdkq_169 : cexp := CAdd (CAdd (CAdd (CDiv (CMul cdkq_158 cdkq_29) cdkq_35) (CDiv (CMul cdkq_160 cdkq_53) cdkq_35)) (CDiv (CMul cdkq_166 cdkq_40) cdkq_35)) (CDiv (CMul cdkq_168 cdkq_57) cdkq_35).
(** wrapped_code_0.c:17 *)
Definition cdkq_170 : cexp := CDiv (CMul cdkq_79 cdkq_169) cdkq_59.
(** wrapped_code_0.c:17 *)
Definition cdkq_171 : cexp := CAdd (CDiv (CMul cdkq_158 cdkq_40) cdkq_35) (CDiv (CMul cdkq_160 cdkq_57) cdkq_35).
(** wrapped_code_0.c:17 *)
Definition cdkq_172 : cexp := CAdd (CDiv (CMul cdkq_166 cdkq_29) cdkq_35) (CDiv (CMul cdkq_168 cdkq_53) cdkq_35).
(** wrapped_code_0.c:17 *)
Definition cdkq_173 : cexp := CMul (CAdd (CAdd cdkq_170 (CMul cdkq_171 cdkq_63)) (CMul cdkq_172 cdkq_64)) cdkq_77.
(** wrapped_code_0.c:18 *)
Definition cdkq_174 : cexp := CDiv (CMul (CMul (CMul cdkq_112 cdkq_156) cdkq_137) cdkq_139) cdkq_141.
(** wrapped_code_0.c:18 *)
Definition cdkq_175 : cexp := CAdd cdkq_174 cdkq_87.
(** wrapped_code_0.c:18 *)
Definition cdkq_176 : cexp := CSub cdkq_118 cdkq_159.
(** wrapped_code_0.c:18 *)
Definition cdkq_177 : cexp := CSub (CMul (CDec 25 100) cdkq_138) (CMul (CDec 5 10) cdkq_140).
(** wrapped_code_0.c:18 *)
Definition cdkq_178 : cexp := CDiv (CMul (CMul cdkq_112 cdkq_137) cdkq_177) cdkq_141.
(** wrapped_code_0.c:18 *)
Definition cdkq_179 : cexp := CMul cdkq_42 cdkq_163.
(** wrapped_code_0.c:18 *)
Definition cdkq_180 : cexp := CAdd cdkq_23 (CDec 25 100).
(** wrapped_code_0.c:18 *)
Definition cdkq_181 : cexp := CAdd (CAdd (CAdd cdkq_178 cdkq_124) cdkq_179) (CMul cdkq_180 cdkq_165).
(** wrapped_code_0.c:18 *)
Definition cdkq_182 : cexp := CDiv (CMul cdkq_44 cdkq_177) cdkq_141.
(** wrapped_code_0.c:18 *)
Definition cdkq_183 : cexp := CAdd (CSub (CSub cdkq_127 cdkq_182) cdkq_179) (CMul cdkq_105 cdkq_165).
(** wrapped_code_0.c:18 *)
Definition cdkq_184 : cexp := CAdd (CAdd (CAdd (CDiv (CMul cdkq_175 cdkq_40) cdkq_35) (CDiv (CMul cdkq_176 cdkq_57) cdkq_35)) (CDiv (CMul cdkq_181 cdkq_29) cdkq_35)) (CDiv (CMul cdkq_183 cdkq_53) cdkq_35).
(** wrapped_code_0.c:18 *)
Definition cdkq_185 : cexp := CDiv (CMul cdkq_79 cdkq_184) cdkq_59.
(** wrapped_code_0.c:18 *)
Definition cdkq_186 : cexp := CAdd (CDiv (CMul cdkq_175 cdkq_29) cdkq_35) (CDiv (CMul cdkq_176 cdkq_53) cdkq_35).
(** wrapped_code_0.c:18 *)
Definition cdkq_187 : cexp := CAdd (CDiv (CMul cdkq_181 cdkq_40) cdkq_35) (CDiv (CMul cdkq_183 cdkq_57) cdkq_35).
(** wrapped_code_0.c:18 *)
Definition cdkq_188 : cexp := CMul (CAdd (CAdd cdkq_185 (CMul cdkq_186 cdkq_64)) (CMul cdkq_187 cdkq_63)) cdkq_77.
(** wrapped_code_0.c:19 *)
Definition cdkq_189 : cexp := CAdd (CNeg (CVar (Vx 3%nat))) (CVar (Vx 4%nat)).
(** wrapped_code_0.c:19 *)
Definition cdkq_190 : cexp := CPow cdkq_33 2%nat.
(** wrapped_code_0.c:19 *)
Definition cdkq_191 : cexp := CPow cdkq_32 2%nat.
(** wrapped_code_0.c:19 *)
Definition cdkq_192 : cexp := CAdd cdkq_190 cdkq_191.
(** wrapped_code_0.c:19 *)
Definition cdkq_193 : cexp := CDiv (CMul cdkq_14 cdkq_189) cdkq_192.
(** wrapped_code_0.c:19 *)
Definition cdkq_194 : cexp := CAdd (CDiv (CMul (CMul cdkq_4 cdkq_31) cdkq_137) cdkq_141) cdkq_193.
(** wrapped_code_0.c:19 *)
Definition cdkq_195 : cexp := CAdd (CNeg (CVar (Vy 3%nat))) (CVar (Vy 4%nat)).
(** wrapped_code_0.c:19 *)
Definition cdkq_196 : cexp := CDiv (CMul cdkq_14 cdkq_195) cdkq_192.
(** wrapped_code_0.c:19 *)
Definition cdkq_197 : cexp := CAdd (CDiv (CMul (CMul cdkq_4 cdkq_137) cdkq_30) cdkq_141) cdkq_196.
(** wrapped_code_0.c:19 *)
Definition cdkq_198 : cexp := CAdd (CVar Veta) (CInt 1).
(** wrapped_code_0.c:19 *)
Definition cdkq_199 : cexp := CMul cdkq_41 cdkq_198.
(** wrapped_code_0.c:19 *)
Definition cdkq_200 : cexp := CSub (CDiv (CMul cdkq_199 cdkq_189) cdkq_192) cdkq_146.
(** wrapped_code_0.c:19 *)
Definition cdkq_201 : cexp := CSub (CDiv (CMul cdkq_199 cdkq_195) cdkq_192) cdkq_148.
(** wrapped_code_0.c:19 *)
Definition cdkq_202 : cexp := CAdd (CAdd (CAdd (CDiv (CMul cdkq_194 cdkq_29) cdkq_35) (CDiv (CMul cdkq_197 cdkq_40) cdkq_35)) (CDiv (CMul cdkq_200 cdkq_53) cdkq_35)) (CDiv (CMul cdkq_201 cdkq_57) cdkq_35).
(** wrapped_code_0.c:19 *)
Definition cdkq_203 : cexp := CDiv (CMul cdkq_79 cdkq_202) cdkq_59.
(** wrapped_code_0.c:19 *)
Definition cdkq_204 : cexp := CAdd (CDiv (CMul cdkq_194 cdkq_40) cdkq_35) (CDiv (CMul cdkq_200 cdkq_57) cdkq_35).
(** wrapped_code_0.c:19 *)
Definition cdkq_205 : cexp := CAdd (CDiv (CMul cdkq_197 cdkq_29) cdkq_35) (CDiv (CMul cdkq_201 cdkq_53) cdkq_35).
(** wrapped_code_0.c:19 *)
Definition cdkq_206 : cexp := CMul (CAdd (CAdd cdkq_203 (CMul cdkq_204 cdkq_63)) (CMul cdkq_205 cdkq_64)) cdkq_77.
(** wrapped_code_0.c:20 *)
Definition cdkq_207 : cexp := CSub cdkq_155 cdkq_82.
(** wrapped_code_0.c:20 *)
Definition cdkq_208 : cexp := CDiv (CMul (CMul cdkq_13 cdkq_207) cdkq_32) cdkq_192.
(** wrapped_code_0.c:20 *)
Definition cdkq_209 : cexp := CAdd cdkq_157 cdkq_208.
(** wrapped_code_0.c:20 *)
Definition cdkq_210 : cexp := CMul cdkq_89 cdkq_198.
(** wrapped_code_0.c:20 *)
Definition cdkq_211 : cexp := CDiv (CMul (CMul cdkq_210 cdkq_207) cdkq_32) cdkq_192.
(** wrapped_code_0.c:20 *)
Definition cdkq_212 : cexp := CAdd cdkq_211 cdkq_159.
(** wrapped_code_0.c:20 *)
Definition cdkq_213 : cexp := CAdd (CMul (CNeg (CDec 5 10)) cdkq_190) (CMul (CDec 25 100) cdkq_191).
(** wrapped_code_0.c:20 *)
Definition cdkq_214 : cexp := CDiv (CMul cdkq_13 cdkq_213) cdkq_192.
(** wrapped_code_0.c:20 *)
Definition cdkq_215 : cexp := CSub (CNeg (CVar Veta)) (CInt 1).
(** wrapped_code_0.c:20 *)
Definition cdkq_216 : cexp := CMul cdkq_215 cdkq_163.
(** wrapped_code_0.c:20 *)
Definition cdkq_217 : cexp := CAdd (CSub (CNeg (CVar Veta)) (CVar Vxi)) (CInt 1).
(** wrapped_code_0.c:20 *)
Definition cdkq_218 : cexp := CAdd (CSub (CAdd cdkq_162 cdkq_214) cdkq_216) (CMul cdkq_180 cdkq_217).
(** wrapped_code_0.c:20 *)
Definition cdkq_219 : cexp := CDiv (CMul cdkq_210 cdkq_213) cdkq_192.
(** wrapped_code_0.c:20 *)
Definition cdkq_220 : cexp := CAdd cdkq_56 (CDec 25 100).
(** wrapped_code_0.c:20 *)
Definition cdkq_221 : cexp := CAdd (CSub (CAdd cdkq_219 cdkq_167) cdkq_216) (CMul cdkq_220 cdkq_217).
(** wrapped_code_0.c:20 *)
Definition cdkq_222 : cexp := CAdd (CAdd (CAdd (CDiv (CMul cdkq_209 cdkq_29) cdkq_35) (CDiv (CMul cdkq_212 cdkq_53) cdkq_35)) (CDiv (CMul cdkq_218 cdkq_40) cdkq_35)) (CDiv (CMul cdkq_221 cdkq_57) cdkq_35).
(** wrapped_code_0.c:20 *)
Definition cdkq_223 : cexp := CDiv (CMul cdkq_79 cdkq_222) cdkq_59.
(** wrapped_code_0.c:20 *)
Definition cdkq_224 : cexp := CAdd (CDiv (CMul cdkq_209 cdkq_40) cdkq_35) (CDiv (CMul cdkq_212 cdkq_57) cdkq_35).
(** wrapped_code_0.c:20 *)
Definition cdkq_225 : cexp := CAdd (CDiv (CMul cdkq_218 cdkq_29) cdkq_35) (CDiv (CMul cdkq_221 cdkq_53) cdkq_35).
(** wrapped_code_0.c:20 *)
Definition cdkq_226 : cexp := CMul (CAdd (CAdd cdkq_223 (CMul cdkq_224 cdkq_63)) (CMul cdkq_225 cdkq_64)) cdkq_77.
(** wrapped_code_0.c:21 *)
Definition cdkq_227 : cexp := CSub cdkq_174 cdkq_208.
(** wrapped_code_0.c:21 *)
Definition cdkq_228 : cexp := CMul cdkq_116 cdkq_198.
(** wrapped_code_0.c:21 *)
Definition cdkq_229 : cexp := CDiv (CMul (CMul cdkq_228 cdkq_207) cdkq_32) cdkq_192.
(** wrapped_code_0.c:21 *)
Definition cdkq_230 : cexp := CSub cdkq_229 cdkq_159.
(** wrapped_code_0.c:21 *)
Definition cdkq_231 : cexp := CSub (CMul (CDec 25 100) cdkq_190) (CMul (CDec 5 10) cdkq_191).
(** wrapped_code_0.c:21 *)
Definition cdkq_232 : cexp := CDiv (CMul cdkq_13 cdkq_231) cdkq_192.
(** wrapped_code_0.c:21 *)
Definition cdkq_233 : cexp := CMul cdkq_198 cdkq_163.
(** wrapped_code_0.c:21 *)
Definition cdkq_234 : cexp := CAdd (CSub (CSub cdkq_178 cdkq_232) cdkq_233) (CMul cdkq_163 cdkq_217).
(** wrapped_code_0.c:21 *)
Definition cdkq_235 : cexp := CDiv (CMul cdkq_228 cdkq_231) cdkq_192.
(** wrapped_code_0.c:21 *)
Definition cdkq_236 : cexp := CSub cdkq_39 (CDec 25 100).
(** wrapped_code_0.c:21 *)
Definition cdkq_237 : cexp := CSub (CAdd (CSub cdkq_235 cdkq_182) (CMul cdkq_236 cdkq_217)) cdkq_233.
(** wrapped_code_0.c:21 *)
Definition cdkq_238 : cexp := CAdd (CAdd (CAdd (CDiv (CMul cdkq_227 cdkq_40) cdkq_35) (CDiv (CMul cdkq_230 cdkq_57) cdkq_35)) (CDiv (CMul cdkq_234 cdkq_29) cdkq_35)) (CDiv (CMul cdkq_237 cdkq_53) cdkq_35).
(** wrapped_code_0.c:21 *)
Definition cdkq_239 : cexp := CDiv (CMul cdkq_79 cdkq_238) cdkq_59.
(** wrapped_code_0.c:21 *)
Definition cdkq_240 : cexp := CAdd (CDiv (CMul cdkq_227 cdkq_29) cdkq_35) (CDiv (CMul cdkq_230 cdkq_53) cdkq_35).
(** wrapped_code_0.c:21 *)
Definition cdkq_241 : cexp := CAdd (CDiv (CMul cdkq_234 cdkq_40) cdkq_35) (CDiv (CMul cdkq_237 cdkq_57) cdkq_35).
(** wrapped_code_0.c:21 *)
Definition cdkq_242 : cexp := CMul (CAdd (CAdd cdkq_239 (CMul cdkq_240 cdkq_64)) (CMul cdkq_241 cdkq_63)) cdkq_77.
(** wrapped_code_0.c:22 *)
Definition cdkq_243 : cexp := CMul cdkq_136 cdkq_5.
(** wrapped_code_0.c:22 *)
Definition cdkq_244 : cexp := CSub (CDiv (CMul cdkq_243 cdkq_7) cdkq_12) cdkq_193.
(** wrapped_code_0.c:22 *)
Definition cdkq_245 : cexp := CSub (CDiv (CMul cdkq_243 cdkq_36) cdkq_12) cdkq_196.
(** wrapped_code_0.c:22 *)
Definition cdkq_246 : cexp := CMul cdkq_144 cdkq_198.
(** wrapped_code_0.c:22 *)
Definition cdkq_247 : cexp := CSub (CDiv (CMul cdkq_246 cdkq_189) cdkq_192) cdkq_46.
(** wrapped_code_0.c:22 *)
Definition cdkq_248 : cexp := CSub (CDiv (CMul cdkq_246 cdkq_195) cdkq_192) cdkq_54.
(** wrapped_code_0.c:22 *)
Definition cdkq_249 : cexp := CAdd (CAdd (CAdd (CDiv (CMul cdkq_244 cdkq_29) cdkq_35) (CDiv (CMul cdkq_245 cdkq_40) cdkq_35)) (CDiv (CMul cdkq_247 cdkq_53) cdkq_35)) (CDiv (CMul cdkq_248 cdkq_57) cdkq_35).
(** wrapped_code_0.c:22 *)
Definition cdkq_250 : cexp := CMul cdkq_3 cdkq_249.
(** wrapped_code_0.c:22 *)
Definition cdkq_251 : cexp := CDiv (CMul cdkq_250 cdkq_58) cdkq_59.
(** wrapped_code_0.c:22 *)
Definition cdkq_252 : cexp := CAdd (CDiv (CMul cdkq_244 cdkq_40) cdkq_35) (CDiv (CMul cdkq_247 cdkq_57) cdkq_35).
(** wrapped_code_0.c:22 *)
Definition cdkq_253 : cexp := CAdd (CDiv (CMul cdkq_245 cdkq_29) cdkq_35) (CDiv (CMul cdkq_248 cdkq_53) cdkq_35).
(** wrapped_code_0.c:22 *)
Definition cdkq_254 : cexp := CMul (CAdd (CAdd cdkq_251 (CMul cdkq_252 cdkq_63)) (CMul cdkq_253 cdkq_64)) cdkq_77.
(** wrapped_code_0.c:23 *)
Definition cdkq_255 : cexp := CAdd cdkq_84 cdkq_208.
(** wrapped_code_0.c:23 *)
Definition cdkq_256 : cexp := CSub cdkq_211 cdkq_92.
(** wrapped_code_0.c:23 *)
Definition cdkq_257 : cexp := CAdd (CAdd (CNeg (CVar Veta)) (CVar Vxi)) (CInt 1).
(** wrapped_code_0.c:23 *)
Definition cdkq_258 : cexp := CMul cdkq_215 cdkq_99.
(** wrapped_code_0.c:23 *)
Definition cdkq_259 : cexp := CSub (CAdd (CAdd cdkq_95 (CMul cdkq_122 cdkq_257)) cdkq_214) cdkq_258.
(** wrapped_code_0.c:23 *)
Definition cdkq_260 : cexp := CAdd (CAdd (CSub cdkq_219 cdkq_104) cdkq_258) (CMul cdkq_236 cdkq_257).
(** wrapped_code_0.c:23 *)
Definition cdkq_261 : cexp := CAdd (CAdd (CAdd (CDiv (CMul cdkq_255 cdkq_29) cdkq_35) (CDiv (CMul cdkq_256 cdkq_53) cdkq_35)) (CDiv (CMul cdkq_259 cdkq_40) cdkq_35)) (CDiv (CMul cdkq_260 cdkq_57) cdkq_35).
(** wrapped_code_0.c:23 *)
Definition cdkq_262 : cexp := CDiv (CMul cdkq_79 cdkq_261) cdkq_59.
(** wrapped_code_0.c:23 *)
Definition cdkq_263 : cexp := CAdd (CDiv (CMul cdkq_255 cdkq_40) cdkq_35) (CDiv (CMul cdkq_256 cdkq_57) cdkq_35).
(** wrapped_code_0.c:23 *)
Definition cdkq_264 : cexp := CAdd (CDiv (CMul cdkq_259 cdkq_29) cdkq_35) (CDiv (CMul cdkq_260 cdkq_53) cdkq_35).
(** wrapped_code_0.c:23 *)
Definition cdkq_265 : cexp := CMul (CAdd (CAdd cdkq_262 (CMul cdkq_263 cdkq_63)) (CMul cdkq_264 cdkq_64)) cdkq_77.
(** wrapped_code_0.c:24 *)
Definition cdkq_266 : cexp := CSub cdkq_114 cdkq_208.
(** wrapped_code_0.c:24 *)
Definition cdkq_267 : cexp := CAdd cdkq_229 cdkq_92.
(** wrapped_code_0.c:24 *)
Definition cdkq_268 : cexp := CMul cdkq_198 cdkq_99.
(** wrapped_code_0.c:24 *)
Definition cdkq_269 : cexp := CAdd (CSub (CSub cdkq_121 cdkq_232) cdkq_268) (CMul cdkq_99 cdkq_257).
(** wrapped_code_0.c:24 *)
Definition cdkq_270 : cexp := CAdd (CAdd (CAdd cdkq_235 cdkq_129) (CMul cdkq_220 cdkq_257)) cdkq_268.
(** wrapped_code_0.c:24 *)
Definition cdkq_271 : cexp := CAdd (CAdd (CAdd (CDiv (CMul cdkq_266 cdkq_40) cdkq_35) (CDiv (CMul cdkq_267 cdkq_57) cdkq_35)) (CDiv (CMul cdkq_269 cdkq_29) cdkq_35)) (CDiv (CMul cdkq_270 cdkq_53) cdkq_35).
(** wrapped_code_0.c:24 *)
Definition cdkq_272 : cexp := CDiv (CMul cdkq_79 cdkq_271) cdkq_59.
(** wrapped_code_0.c:24 *)
Definition cdkq_273 : cexp := CAdd (CDiv (CMul cdkq_266 cdkq_29) cdkq_35) (CDiv (CMul cdkq_267 cdkq_53) cdkq_35).
(** wrapped_code_0.c:24 *)
Definition cdkq_274 : cexp := CAdd (CDiv (CMul cdkq_269 cdkq_40) cdkq_35) (CDiv (CMul cdkq_270 cdkq_57) cdkq_35).
(** wrapped_code_0.c:24 *)
Definition cdkq_275 : cexp := CMul (CAdd (CAdd cdkq_272 (CMul cdkq_273 cdkq_64)) (CMul cdkq_274 cdkq_63)) cdkq_77.
(** wrapped_code_0.c:25 *)
Definition cdkq_276 : cexp := CAdd (CDiv (CMul cdkq_61 cdkq_110) cdkq_59) (CDiv (CMul cdkq_2 cdkq_109) cdkq_59).
(** wrapped_code_0.c:25 *)
Definition cdkq_277 : cexp := CAdd (CDiv (CMul cdkq_61 cdkq_109) cdkq_59) (CDiv (CMul cdkq_2 cdkq_110) cdkq_59).
(** wrapped_code_0.c:25 *)
Definition cdkq_278 : cexp := CMul (CAdd (CAdd cdkq_108 (CMul cdkq_60 cdkq_276)) (CMul cdkq_62 cdkq_277)) cdkq_77.
(** wrapped_code_0.c:26 *)
Definition cdkq_279 : cexp := CMul (CAdd (CAdd (CDiv (CMul cdkq_3 (CPow cdkq_107 2%nat)) cdkq_59) (CMul cdkq_109 cdkq_276)) (CMul cdkq_110 cdkq_277)) cdkq_77.
(** wrapped_code_0.c:27 *)
Definition cdkq_280 : cexp := CMul cdkq_3 cdkq_107.
(** wrapped_code_0.c:27 *)
Definition cdkq_281 : cexp := CDiv (CMul cdkq_280 cdkq_131) cdkq_59.
(** wrapped_code_0.c:27 *)
Definition cdkq_282 : cexp := CMul (CAdd (CAdd cdkq_281 (CMul cdkq_133 cdkq_277)) (CMul cdkq_134 cdkq_276)) cdkq_77.
(** wrapped_code_0.c:28 *)
Definition cdkq_283 : cexp := CMul cdkq_3 cdkq_150.
(** wrapped_code_0.c:28 *)
Definition cdkq_284 : cexp := CDiv (CMul cdkq_283 cdkq_107) cdkq_59.
(** wrapped_code_0.c:28 *)
Definition cdkq_285 : cexp := CMul (CAdd (CAdd cdkq_284 (CMul cdkq_152 cdkq_276)) (CMul cdkq_153 cdkq_277)) cdkq_77.
(** wrapped_code_0.c:29 *)
Definition cdkq_286 : cexp := CDiv (CMul cdkq_280 cdkq_169) cdkq_59.
(** wrapped_code_0.c:29 *)
Definition cdkq_287 : cexp := CMul (CAdd (CAdd cdkq_286 (CMul cdkq_171 cdkq_276)) (CMul cdkq_172 cdkq_277)) cdkq_77.
(** wrapped_code_0.c:30 *)
Definition cdkq_288 : cexp := CDiv (CMul cdkq_280 cdkq_184) cdkq_59.
(** wrapped_code_0.c:30 *)
Definition cdkq_289 : cexp := CMul (CAdd (CAdd cdkq_288 (CMul cdkq_186 cdkq_277)) (CMul cdkq_187 cdkq_276)) cdkq_77.
(** wrapped_code_0.c:31 *)
Definition cdkq_290 : cexp := CMul cdkq_3 cdkq_202.
(** wrapped_code_0.c:31 *)
Definition cdkq_291 : cexp := CDiv (CMul cdkq_290 cdkq_107) cdkq_59.
(** wrapped_code_0.c:31 *)
Definition cdkq_292 : cexp := CMul (CAdd (CAdd cdkq_291 (CMul cdkq_204 cdkq_276)) (CMul cdkq_205 cdkq_277)) cdkq_77.
(** wrapped_code_0.c:32 *)
Definition cdkq_293 : cexp := CDiv (CMul cdkq_280 cdkq_222) cdkq_59.
(** wrapped_code_0.c:32 *)
Definition cdkq_294 : cexp := CMul (CAdd (CAdd cdkq_293 (CMul cdkq_224 cdkq_276)) (CMul cdkq_225 cdkq_277)) cdkq_77.
(** wrapped_code_0.c:33 *)
Definition cdkq_295 : cexp := CDiv (CMul cdkq_280 cdkq_238) cdkq_59.
(** wrapped_code_0.c:33 *)
Definition cdkq_296 : cexp := CMul (CAdd (CAdd cdkq_295 (CMul cdkq_240 cdkq_277)) (CMul cdkq_241 cdkq_276)) cdkq_77.
(** wrapped_code_0.c:34 *)
Definition cdkq_297 : cexp := CDiv (CMul cdkq_250 cdkq_107) cdkq_59.
(** wrapped_code_0.c:34 *)
Definition cdkq_298 : cexp := CMul (CAdd (CAdd cdkq_297 (CMul cdkq_252 cdkq_276)) (CMul cdkq_253 cdkq_277)) cdkq_77.
(** wrapped_code_0.c:35 *)
Definition cdkq_299 : cexp := CDiv (CMul cdkq_280 cdkq_261) cdkq_59.
(** wrapped_code_0.c:35 *)
Definition cdkq_300 : cexp := CMul (CAdd (CAdd cdkq_299 (CMul cdkq_263 cdkq_276)) (CMul cdkq_264 cdkq_277)) cdkq_77.
(** wrapped_code_0.c:36 *)
Definition cdkq_301 : cexp := CDiv (CMul cdkq_280 cdkq_271) cdkq_59.
(** wrapped_code_0.c:36 *)
Definition cdkq_302 : cexp := CMul (CAdd (CAdd cdkq_301 (CMul cdkq_273 cdkq_277)) (CMul cdkq_274 cdkq_276)) cdkq_77.
(** wrapped_code_0.c:37 *)
Definition cdkq_303 : cexp := CAdd (CDiv (CMul cdkq_61 cdkq_133) cdkq_59) (CDiv (CMul cdkq_2 cdkq_134) cdkq_59).
(** wrapped_code_0.c:37 *)
Definition cdkq_304 : cexp := CAdd (CDiv (CMul cdkq_61 cdkq_134) cdkq_59) (CDiv (CMul cdkq_2 cdkq_133) cdkq_59).
(** wrapped_code_0.c:37 *)
Definition cdkq_305 : cexp := CMul (CAdd (CAdd cdkq_132 (CMul cdkq_60 cdkq_303)) (CMul cdkq_62 cdkq_304)) cdkq_77.
(** wrapped_code_0.c:38 *)
Definition cdkq_306 : cexp := CMul (CAdd (CAdd cdkq_281 (CMul cdkq_109 cdkq_303)) (CMul cdkq_110 cdkq_304)) cdkq_77.
(** wrapped_code_0.c:39 *)
Definition cdkq_307 : cexp := CMul (CAdd (CAdd (CDiv (CMul cdkq_3 (CPow cdkq_131 2%nat)) cdkq_59) (CMul cdkq_133 cdkq_304)) (CMul cdkq_134 cdkq_303)) cdkq_77.
(** wrapped_code_0.c:40 *)
Definition cdkq_308 : cexp := CDiv (CMul cdkq_283 cdkq_131) cdkq_59.
(** wrapped_code_0.c:40 *)
Definition cdkq_309 : cexp := CMul (CAdd (CAdd cdkq_308 (CMul cdkq_152 cdkq_303)) (CMul cdkq_153 cdkq_304)) cdkq_77.
(** wrapped_code_0.c:41 *)
Definition cdkq_310 : cexp := CMul cdkq_3 cdkq_131.
(** wrapped_code_0.c:41 *)
Definition cdkq_311 : cexp := CDiv (CMul cdkq_310 cdkq_169) cdkq_59.
(** wrapped_code_0.c:41 *)
Definition cdkq_312 : cexp := CMul (CAdd (CAdd cdkq_311 (CMul cdkq_171 cdkq_303)) (CMul cdkq_172 cdkq_304)) cdkq_77.
(** wrapped_code_0.c:42 *)
Definition cdkq_313 : cexp := CDiv (CMul cdkq_310 cdkq_184) cdkq_59.
(** wrapped_code_0.c:42 *)
Definition cdkq_314 : cexp := CMul (CAdd (CAdd cdkq_313 (CMul cdkq_186 cdkq_304)) (CMul cdkq_187 cdkq_303)) cdkq_77.
(** wrapped_code_0.c:43 *)
Definition cdkq_315 : cexp := CDiv (CMul cdkq_290 cdkq_131) cdkq_59.
(** wrapped_code_0.c:43 *)
Definition cdkq_316 : cexp := CMul (CAdd (CAdd cdkq_315 (CMul cdkq_204 cdkq_303)) (CMul cdkq_205 cdkq_304)) cdkq_77.
(** wrapped_code_0.c:44 *)
Definition cdkq_317 : cexp := CDiv (CMul cdkq_310 cdkq_222) cdkq_59.
(** wrapped_code_0.c:44 *)
Definition cdkq_318 : cexp := CMul (CAdd (CAdd cdkq_317 (CMul cdkq_224 cdkq_303)) (CMul cdkq_225 cdkq_304)) cdkq_77.
(** wrapped_code_0.c:45 *)
Definition cdkq_319 : cexp := CDiv (CMul cdkq_310 cdkq_238) cdkq_59.
(** wrapped_code_0.c:45 *)
Definition cdkq_320 : cexp := CMul (CAdd (CAdd cdkq_319 (CMul cdkq_240 cdkq_304)) (CMul cdkq_241 cdkq_303)) cdkq_77.
(** wrapped_code_0.c:46 *)
Definition cdkq_321 : cexp := CDiv (CMul cdkq_250 cdkq_131) cdkq_59.
(** wrapped_code_0.c:46 *)
Definition cdkq_322 : cexp := CMul (CAdd (CAdd cdkq_321 (CMul cdkq_252 cdkq_303)) (CMul cdkq_253 cdkq_304)) cdkq_77.
(** wrapped_code_0.c:47 *)
Definition cdkq_323 : cexp := CMul cdkq_3 cdkq_261.
(** wrapped_code_0.c:47 *)
Definition cdkq_324 : cexp := CDiv (CMul cdkq_323 cdkq_131) cdkq_59.
(** wrapped_code_0.c:47 *)
Definition cdkq_325 : cexp := CMul (CAdd (CAdd cdkq_324 (CMul cdkq_263 cdkq_303)) (CMul cdkq_264 cdkq_304)) cdkq_77.
(** wrapped_code_0.c:48 *)
Definition cdkq_326 : cexp := CDiv (CMul cdkq_310 cdkq_271) cdkq_59.
(** wrapped_code_0.c:48 *)
Definition cdkq_327 : cexp := CMul (CAdd (CAdd cdkq_326 (CMul cdkq_273 cdkq_304)) (CMul cdkq_274 cdkq_303)) cdkq_77.
(** wrapped_code_0.c:49 *)
Definition cdkq_328 : cexp := CAdd (CDiv (CMul cdkq_61 cdkq_153) cdkq_59) (CDiv (CMul cdkq_2 cdkq_152) cdkq_59).
(** wrapped_code_0.c:49 *)
Definition cdkq_329 : cexp := CAdd (CDiv (CMul cdkq_61 cdkq_152) cdkq_59) (CDiv (CMul cdkq_2 cdkq_153) cdkq_59).
(** wrapped_code_0.c:49 *)
Definition cdkq_330 : cexp := CMul (CAdd (CAdd cdkq_151 (CMul cdkq_60 cdkq_328)) (CMul cdkq_62 cdkq_329)) cdkq_77.
(** wrapped_code_0.c:50 *)
Definition cdkq_331 : cexp := CMul (CAdd (CAdd cdkq_284 (CMul cdkq_109 cdkq_328)) (CMul cdkq_110 cdkq_329)) cdkq_77.
(** wrapped_code_0.c:51 *)
Definition cdkq_332 : cexp := CMul (CAdd (CAdd cdkq_308 (CMul cdkq_133 cdkq_329)) (CMul cdkq_134 cdkq_328)) cdkq_77.
(** wrapped_code_0.c:52 *)
Definition cdkq_333 : cexp := CMul (CAdd (CAdd (CDiv (CMul cdkq_3 (CPow cdkq_150 2%nat)) cdkq_59) (CMul cdkq_152 cdkq_328)) (CMul cdkq_153 cdkq_329)) cdkq_77.
(** wrapped_code_0.c:53 *)
Definition cdkq_334 : cexp := CDiv (CMul cdkq_283 cdkq_169) cdkq_59.
(** wrapped_code_0.c:53 *)
Definition cdkq_335 : cexp := CMul (CAdd (CAdd cdkq_334 (CMul cdkq_171 cdkq_328)) (CMul cdkq_172 cdkq_329)) cdkq_77.
(** wrapped_code_0.c:54 *)
Definition cdkq_336 : cexp := CDiv (CMul cdkq_283 cdkq_184) cdkq_59.
(** wrapped_code_0.c:54 *)
Definition cdkq_337 : cexp := CMul (CAdd (CAdd cdkq_336 (CMul cdkq_186 cdkq_329)) (CMul cdkq_187 cdkq_328)) cdkq_77.
(** wrapped_code_0.c:55 *)
Definition cdkq_338 : cexp := CDiv (CMul cdkq_283 cdkq_202) cdkq_59.
(** wrapped_code_0.c:55 *)
Definition cdkq_339 : cexp := CMul (CAdd (CAdd cdkq_338 (CMul cdkq_204 cdkq_328)) (CMul cdkq_205 cdkq_329)) cdkq_77.
(** wrapped_code_0.c:56 *)
Definition cdkq_340 : cexp := CDiv (CMul cdkq_283 cdkq_222) cdkq_59.
(** wrapped_code_0.c:56 *)
Definition cdkq_341 : cexp := CMul (CAdd (CAdd cdkq_340 (CMul cdkq_224 cdkq_328)) (CMul cdkq_225 cdkq_329)) cdkq_77.
(** wrapped_code_0.c:57 *)
Definition cdkq_342 : cexp := CDiv (CMul cdkq_283 cdkq_238) cdkq_59.
(** wrapped_code_0.c:57 *)
Definition cdkq_343 : cexp := CMul (CAdd (CAdd cdkq_342 (CMul cdkq_240 cdkq_329)) (CMul cdkq_241 cdkq_328)) cdkq_77.
(** wrapped_code_0.c:58 *)
Definition cdkq_344 : cexp := CDiv (CMul cdkq_250 cdkq_150) cdkq_59.
(** wrapped_code_0.c:58 *)
Definition cdkq_345 : cexp := CMul (CAdd (CAdd cdkq_344 (CMul cdkq_252 cdkq_328)) (CMul cdkq_253 cdkq_329)) cdkq_77.
(** wrapped_code_0.c:59 *)
Definition cdkq_346 : cexp := CDiv (CMul cdkq_283 cdkq_261) cdkq_59.
(** wrapped_code_0.c:59 *)
Definition cdkq_347 : cexp := CMul (CAdd (CAdd cdkq_346 (CMul cdkq_263 cdkq_328)) (CMul cdkq_264 cdkq_329)) cdkq_77.
(** wrapped_code_0.c:60 *)
Definition cdkq_348 : cexp := CDiv (CMul cdkq_283 cdkq_271) cdkq_59.
(** wrapped_code_0.c:60 *)
Definition cdkq_349 : cexp := CMul (CAdd (CAdd cdkq_348 (CMul cdkq_273 cdkq_329)) (CMul cdkq_274 cdkq_328)) cdkq_77.
(** wrapped_code_0.c:61 *)
Definition cdkq_350 : cexp := CAdd (CDiv (CMul cdkq_61 cdkq_172) cdkq_59) (CDiv (CMul cdkq_2 cdkq_171) cdkq_59).
(** wrapped_code_0.c:61 *)
Definition cdkq_351 : cexp := CAdd (CDiv (CMul cdkq_61 cdkq_171) cdkq_59) (CDiv (CMul cdkq_2 cdkq_172) cdkq_59).
(** wrapped_code_0.c:61 *)
Definition cdkq_352 : cexp := CMul (CAdd (CAdd cdkq_170 (CMul cdkq_60 cdkq_350)) (CMul cdkq_62 cdkq_351)) cdkq_77.
(** wrapped_code_0.c:62 *)
Definition cdkq_353 : cexp := CMul (CAdd (CAdd cdkq_286 (CMul cdkq_109 cdkq_350)) (CMul cdkq_110 cdkq_351)) cdkq_77.
(** wrapped_code_0.c:63 *)
Definition cdkq_354 : cexp := CMul (CAdd (CAdd cdkq_311 (CMul cdkq_133 cdkq_351)) (CMul cdkq_134 cdkq_350)) cdkq_77.
(** wrapped_code_0.c:64 *)
Definition cdkq_355 : cexp := CMul (CAdd (CAdd cdkq_334 (CMul cdkq_152 cdkq_350)) (CMul cdkq_153 cdkq_351)) cdkq_77.
(** wrapped_code_0.c:65 *)
Definition cdkq_356 : cexp := CMul (CAdd (CAdd (CDiv (CMul cdkq_3 (CPow cdkq_169 2%nat)) cdkq_59) (CMul cdkq_171 cdkq_350)) (CMul cdkq_172 cdkq_351)) cdkq_77.
(** wrapped_code_0.c:66 *)
Definition cdkq_357 : cexp := CMul cdkq_3 cdkq_169.
(** wrapped_code_0.c:66 *)
Definition cdkq_358 : cexp := CDiv (CMul cdkq_357 cdkq_184) cdkq_59.
(** wrapped_code_0.c:66 *)
Definition cdkq_359 : cexp := CMul (CAdd (CAdd cdkq_358 (CMul cdkq_186 cdkq_351)) (CMul cdkq_187 cdkq_350)) cdkq_77.
(** wrapped_code_0.c:67 *)
Definition cdkq_360 : cexp := CDiv (CMul cdkq_290 cdkq_169) cdkq_59.
(** wrapped_code_0.c:67 *)
Definition cdkq_361 : cexp := CMul (CAdd (CAdd cdkq_360 (CMul cdkq_204 cdkq_350)) (CMul cdkq_205 cdkq_351)) cdkq_77.
(** wrapped_code_0.c:68 *)
Definition cdkq_362 : cexp := CDiv (CMul cdkq_357 cdkq_222) cdkq_59.
(** wrapped_code_0.c:68 *)
Definition cdkq_363 : cexp := CMul (CAdd (CAdd cdkq_362 (CMul cdkq_224 cdkq_350)) (CMul cdkq_225 cdkq_351)) cdkq_77.
(** wrapped_code_0.c:69 *)
Definition cdkq_364 : cexp := CDiv (CMul cdkq_357 cdkq_238) cdkq_59.
(** wrapped_code_0.c:69 *)
Definition cdkq_365 : cexp := CMul (CAdd (CAdd cdkq_364 (CMul cdkq_240 cdkq_351)) (CMul cdkq_241 cdkq_350)) cdkq_77.
(** wrapped_code_0.c:70 *)
Definition cdkq_366 : cexp := CDiv (CMul cdkq_250 cdkq_169) cdkq_59.
(** wrapped_code_0.c:70 *)
Definition cdkq_367 : cexp := CMul (CAdd (CAdd cdkq_366 (CMul cdkq_252 cdkq_350)) (CMul cdkq_253 cdkq_351)) cdkq_77.
(** wrapped_code_0.c:71 *)
Definition cdkq_368 : cexp := CDiv (CMul cdkq_323 cdkq_169) cdkq_59.
(** wrapped_code_0.c:71 *)
Definition cdkq_369 : cexp := CMul (CAdd (CAdd cdkq_368 (CMul cdkq_263 cdkq_350)) (CMul cdkq_264 cdkq_351)) cdkq_77.
(** wrapped_code_0.c:72 *)
Definition cdkq_370 : cexp := CMul cdkq_3 cdkq_271.
(** wrapped_code_0.c:72 *)
Definition cdkq_371 : cexp := CDiv (CMul cdkq_370 cdkq_169) cdkq_59.
(** wrapped_code_0.c:72 *)
Definition cdkq_372 : cexp := CMul (CAdd (CAdd cdkq_371 (CMul cdkq_273 cdkq_351)) (CMul cdkq_274 cdkq_350)) cdkq_77.
(** wrapped_code_0.c:73 *)
Definition cdkq_373 : cexp := CAdd (CDiv (CMul cdkq_61 cdkq_186) cdkq_59) (CDiv (CMul cdkq_2 cdkq_187) cdkq_59).
(** wrapped_code_0.c:73 *)
Definition cdkq_374 : cexp := CAdd (CDiv (CMul cdkq_61 cdkq_187) cdkq_59) (CDiv (CMul cdkq_2 cdkq_186) cdkq_59).
(** wrapped_code_0.c:73 *)
Definition cdkq_375 : cexp := CMul (CAdd (CAdd cdkq_185 (CMul cdkq_60 cdkq_373)) (CMul cdkq_62 cdkq_374)) cdkq_77.
(** wrapped_code_0.c:74 *)
Definition cdkq_376 : cexp := CMul (CAdd (CAdd cdkq_288 (CMul cdkq_109 cdkq_373)) (CMul cdkq_110 cdkq_374)) cdkq_77.
(** wrapped_code_0.c:75 *)
Definition cdkq_377 : cexp := CMul (CAdd (CAdd cdkq_313 (CMul cdkq_133 cdkq_374)) (CMul cdkq_134 cdkq_373)) cdkq_77.
(** wrapped_code_0.c:76 *)
Definition cdkq_378 : cexp := CMul (CAdd (CAdd cdkq_336 (CMul cdkq_152 cdkq_373)) (CMul cdkq_153 cdkq_374)) cdkq_77.
(** wrapped_code_0.c:77 *)
Definition cdkq_379 : cexp := CMul (CAdd (CAdd cdkq_358 (CMul cdkq_171 cdkq_373)) (CMul cdkq_172 cdkq_374)) cdkq_77.
(** wrapped_code_0.c:78 *)
Definition cdkq_380 : cexp := CMul (CAdd (CAdd (CDiv (CMul cdkq_3 (CPow cdkq_184 2%nat)) cdkq_59) (CMul cdkq_186 cdkq_374)) (CMul cdkq_187 cdkq_373)) cdkq_77.
(** wrapped_code_0.c:79 *)
Definition cdkq_381 : cexp := CDiv (CMul cdkq_290 cdkq_184) cdkq_59.
(** wrapped_code_0.c:79 *)
Definition cdkq_382 : cexp := CMul (CAdd (CAdd cdkq_381 (CMul cdkq_204 cdkq_373)) (CMul cdkq_205 cdkq_374)) cdkq_77.
(** wrapped_code_0.c:80 *)
Definition cdkq_383 : cexp := CMul cdkq_3 cdkq_222.
(** wrapped_code_0.c:80 *)
Definition cdkq_384 : cexp := CDiv (CMul cdkq_383 cdkq_184) cdkq_59.
(** wrapped_code_0.c:80 *)
Definition cdkq_385 : cexp := CMul (CAdd (CAdd cdkq_384 (CMul cdkq_224 cdkq_373)) (CMul cdkq_225 cdkq_374)) cdkq_77.
(** wrapped_code_0.c:81 *)
Definition cdkq_386 : cexp := CDiv (CMul (CMul cdkq_3 cdkq_184) cdkq_238) cdkq_59.
(** wrapped_code_0.c:81 *)
Definition cdkq_387 : cexp := CMul (CAdd (CAdd cdkq_386 (CMul cdkq_240 cdkq_374)) (CMul cdkq_241 cdkq_373)) cdkq_77.
(** wrapped_code_0.c:82 *)
Definition cdkq_388 : cexp := CDiv (CMul cdkq_250 cdkq_184) cdkq_59.
(** wrapped_code_0.c:82 *)
Definition cdkq_389 : cexp := CMul (CAdd (CAdd cdkq_388 (CMul cdkq_252 cdkq_373)) (CMul cdkq_253 cdkq_374)) cdkq_77.
(** wrapped_code_0.c:83 *)
Definition cdkq_390 : cexp := CDiv (CMul cdkq_323 cdkq_184) cdkq_59.
(** wrapped_code_0.c:83 *)
Definition cdkq_391 : cexp := CMul (CAdd (CAdd cdkq_390 (CMul cdkq_263 cdkq_373)) (CMul cdkq_264 cdkq_374)) cdkq_77.
(** wrapped_code_0.c:84 *)
Definition cdkq_392 : cexp := CDiv (CMul cdkq_370 cdkq_184) cdkq_59.
(** wrapped_code_0.c:84 *)
Definition cdkq_393 : cexp := CMul (CAdd (CAdd cdkq_392 (CMul cdkq_273 cdkq_374)) (CMul cdkq_274 cdkq_373)) cdkq_77.
(** wrapped_code_0.c:85 *)
Definition cdkq_394 : cexp := CAdd (CDiv (CMul cdkq_61 cdkq_205) cdkq_59) (CDiv (CMul cdkq_2 cdkq_204) cdkq_59).
(** wrapped_code_0.c:85 *)
Definition cdkq_395 : cexp := CAdd (CDiv (CMul cdkq_61 cdkq_204) cdkq_59) (CDiv (CMul cdkq_2 cdkq_205) cdkq_59).
(** wrapped_code_0.c:85 *)
Definition cdkq_396 : cexp := CMul (CAdd (CAdd cdkq_203 (CMul cdkq_60 cdkq_394)) (CMul cdkq_62 cdkq_395)) cdkq_77.
(** wrapped_code_0.c:86 *)
Definition cdkq_397 : cexp := CMul (CAdd (CAdd cdkq_291 (CMul cdkq_109 cdkq_394)) (CMul cdkq_110 cdkq_395)) cdkq_77.
(** wrapped_code_0.c:87 *)
Definition cdkq_398 : cexp := CMul (CAdd (CAdd cdkq_315 (CMul cdkq_133 cdkq_395)) (CMul cdkq_134 cdkq_394)) cdkq_77.
(** wrapped_code_0.c:88 *)
Definition cdkq_399 : cexp := CMul (CAdd (CAdd cdkq_338 (CMul cdkq_152 cdkq_394)) (CMul cdkq_153 cdkq_395)) cdkq_77.
(** wrapped_code_0.c:89 *)
Definition cdkq_400 : cexp := CMul (CAdd (CAdd cdkq_360 (CMul cdkq_171 cdkq_394)) (CMul cdkq_172 cdkq_395)) cdkq_77.
(** wrapped_code_0.c:90 *)
Definition cdkq_401 : cexp := CMul (CAdd (CAdd cdkq_381 (CMul cdkq_186 cdkq_395)) (CMul cdkq_187 cdkq_394)) cdkq_77.
(** wrapped_code_0.c:91 *)
Definition cdkq_402 : cexp := CMul (CAdd (CAdd (CDiv (CMul cdkq_3 (CPow cdkq_202 2%nat)) cdkq_59) (CMul cdkq_204 cdkq_394)) (CMul cdkq_205 cdkq_395)) cdkq_77.
(** wrapped_code_0.c:92 *)
Definition cdkq_403 : cexp := CDiv (CMul cdkq_290 cdkq_222) cdkq_59.
(** wrapped_code_0.c:92 *)
Definition cdkq_404 : cexp := CMul (CAdd (CAdd cdkq_403 (CMul cdkq_224 cdkq_394)) (CMul cdkq_225 cdkq_395)) cdkq_77.
(** wrapped_code_0.c:93 *)
Definition cdkq_405 : cexp := CDiv (CMul cdkq_290 cdkq_238) cdkq_59.
(** wrapped_code_0.c:93 *)
Definition cdkq_406 : cexp := CMul (CAdd (CAdd cdkq_405 (CMul cdkq_240 cdkq_395)) (CMul cdkq_241 cdkq_394)) cdkq_77.
(** wrapped_code_0.c:94 *)
Definition cdkq_407 : cexp := CDiv (CMul cdkq_250 cdkq_202) cdkq_59.
(** wrapped_code_0.c:94 *)
Definition cdkq_408 : cexp := CMul (CAdd (CAdd cdkq_407 (CMul cdkq_252 cdkq_394)) (CMul cdkq_253 cdkq_395)) cdkq_77.
(** wrapped_code_0.c:95 *)
Definition cdkq_409 : cexp := CDiv (CMul cdkq_290 cdkq_261) cdkq_59.
(** wrapped_code_0.c:95 *)
Definition cdkq_410 : cexp := CMul (CAdd (CAdd cdkq_409 (CMul cdkq_263 cdkq_394)) (CMul cdkq_264 cdkq_395)) cdkq_77.
(** wrapped_code_0.c:96 *)
Definition cdkq_411 : cexp := CDiv (CMul cdkq_290 cdkq_271) cdkq_59.
(** wrapped_code_0.c:96 *)
Definition cdkq_412 : cexp := CMul (CAdd (CAdd cdkq_411 (CMul cdkq_273 cdkq_395)) (CMul cdkq_274 cdkq_394)) cdkq_77.
(** wrapped_code_0.c:97 *)
Definition cdkq_413 : cexp := CAdd (CDiv (CMul cdkq_61 cdkq_225) cdkq_59) (CDiv (CMul cdkq_2 cdkq_224) cdkq_59).
(** wrapped_code_0.c:97 *)
Definition cdkq_414 : cexp := CAdd (CDiv (CMul cdkq_61 cdkq_224) cdkq_59) (CDiv (CMul cdkq_2 cdkq_225) cdkq_59).
(** wrapped_code_0.c:97 *)
Definition cdkq_415 : cexp := CMul (CAdd (CAdd cdkq_223 (CMul cdkq_60 cdkq_413)) (CMul cdkq_62 cdkq_414)) cdkq_77.
(** wrapped_code_0.c:98 *)
Definition cdkq_416 : cexp := CMul (CAdd (CAdd cdkq_293 (CMul cdkq_109 cdkq_413)) (CMul cdkq_110 cdkq_414)) cdkq_77.
(** wrapped_code_0.c:99 *)
Definition cdkq_417 : cexp := CMul (CAdd (CAdd cdkq_317 (CMul cdkq_133 cdkq_414)) (CMul cdkq_134 cdkq_413)) cdkq_77.
(** wrapped_code_0.c:100 *)
Definition cdkq_418 : cexp := CMul (CAdd (CAdd cdkq_340 (CMul cdkq_152 cdkq_413)) (CMul cdkq_153 cdkq_414)) cdkq_77.
(** wrapped_code_0.c:101 *)
Definition cdkq_419 : cexp := CMul (CAdd (CAdd cdkq_362 (CMul cdkq_171 cdkq_413)) (CMul cdkq_172 cdkq_414)) cdkq_77.
(** wrapped_code_0.c:102 *)
Definition cdkq_420 : cexp := CMul (CAdd (CAdd cdkq_384 (CMul cdkq_186 cdkq_414)) (CMul cdkq_187 cdkq_413)) cdkq_77.
(** wrapped_code_0.c:103 *)
Definition cdkq_421 : cexp := CMul (CAdd (CAdd cdkq_403 (CMul cdkq_204 cdkq_413)) (CMul cdkq_205 cdkq_414)) cdkq_77.
(** wrapped_code_0.c:104 *)
Definition cdkq_422 : cexp := CMul (CAdd (CAdd (CDiv (CMul cdkq_3 (CPow cdkq_222 2%nat)) cdkq_59) (CMul cdkq_224 cdkq_413)) (CMul cdkq_225 cdkq_414)) cdkq_77.
(** wrapped_code_0.c:105 *)
Definition cdkq_423 : cexp := CDiv (CMul cdkq_383 cdkq_238) cdkq_59.
(** wrapped_code_0.c:105 *)
Definition cdkq_424 : cexp := CMul (CAdd (CAdd cdkq_423 (CMul cdkq_240 cdkq_414)) (CMul cdkq_241 cdkq_413)) cdkq_77.
(** wrapped_code_0.c:106 *)
Definition cdkq_425 : cexp := CDiv (CMul cdkq_250 cdkq_222) cdkq_59.
(** wrapped_code_0.c:106 *)
Definition cdkq_426 : cexp := CMul (CAdd (CAdd cdkq_425 (CMul cdkq_252 cdkq_413)) (CMul cdkq_253 cdkq_414)) cdkq_77.
(** wrapped_code_0.c:107 *)
Definition cdkq_427 : cexp := CDiv (CMul cdkq_323 cdkq_222) cdkq_59.
(** wrapped_code_0.c:107 *)
Definition cdkq_428 : cexp := CMul (CAdd (CAdd cdkq_427 (CMul cdkq_263 cdkq_413)) (CMul cdkq_264 cdkq_414)) cdkq_77.
(** wrapped_code_0.c:108 *)
Definition cdkq_429 : cexp := CDiv (CMul cdkq_370 cdkq_222) cdkq_59.
(** wrapped_code_0.c:108 *)
Definition cdkq_430 : cexp := CMul (CAdd (CAdd cdkq_429 (CMul cdkq_273 cdkq_414)) (CMul cdkq_274 cdkq_413)) cdkq_77.
(** wrapped_code_0.c:109 *)
Definition cdkq_431 : cexp := CAdd (CDiv (CMul cdkq_61 cdkq_240) cdkq_59) (CDiv (CMul cdkq_2 cdkq_241) cdkq_59).
(** wrapped_code_0.c:109 *)
Definition cdkq_432 : cexp := CAdd (CDiv (CMul cdkq_61 cdkq_241) cdkq_59) (CDiv (CMul cdkq_2 cdkq_240) cdkq_59).
(** wrapped_code_0.c:109 *)
Definition cdkq_433 : cexp := CMul (CAdd (CAdd cdkq_239 (CMul cdkq_60 cdkq_431)) (CMul cdkq_62 cdkq_432)) cdkq_77.
(** wrapped_code_0.c:110 *)
Definition cdkq_434 : cexp := CMul (CAdd (CAdd cdkq_295 (CMul cdkq_109 cdkq_431)) (CMul cdkq_110 cdkq_432)) cdkq_77.
(** wrapped_code_0.c:111 *)
Definition cdkq_435 : cexp := CMul (CAdd (CAdd cdkq_319 (CMul cdkq_133 cdkq_432)) (CMul cdkq_134 cdkq_431)) cdkq_77.
(** wrapped_code_0.c:112 *)
Definition cdkq_436 : cexp := CMul (CAdd (CAdd cdkq_342 (CMul cdkq_152 cdkq_431)) (CMul cdkq_153 cdkq_432)) cdkq_77.
(** wrapped_code_0.c:113 *)
Definition cdkq_437 : cexp := CMul (CAdd (CAdd cdkq_364 (CMul cdkq_171 cdkq_431)) (CMul cdkq_172 cdkq_432)) cdkq_77.
(** wrapped_code_0.c:114 *)
Definition cdkq_438 : cexp := CMul (CAdd (CAdd cdkq_386 (CMul cdkq_186 cdkq_432)) (CMul cdkq_187 cdkq_431)) cdkq_77.
(** wrapped_code_0.c:115 *)
Definition cdkq_439 : cexp := CMul (CAdd (CAdd cdkq_405 (CMul cdkq_204 cdkq_431)) (CMul cdkq_205 cdkq_432)) cdkq_77.
(** wrapped_code_0.c:116 *)
Definition cdkq_440 : cexp := CMul (CAdd (CAdd cdkq_423 (CMul cdkq_224 cdkq_431)) (CMul cdkq_225 cdkq_432)) cdkq_77.
(** wrapped_code_0.c:117 *)
Definition cdkq_441 : cexp := CMul (CAdd (CAdd (CDiv (CMul cdkq_3 (CPow cdkq_238 2%nat)) cdkq_59) (CMul cdkq_240 cdkq_432)) (CMul cdkq_241 cdkq_431)) cdkq_77.
(** wrapped_code_0.c:118 *)
Definition cdkq_442 : cexp := CDiv (CMul cdkq_250 cdkq_238) cdkq_59.
(** wrapped_code_0.c:118 *)
Definition cdkq_443 : cexp := CMul (CAdd (CAdd cdkq_442 (CMul cdkq_252 cdkq_431)) (CMul cdkq_253 cdkq_432)) cdkq_77.
(** wrapped_code_0.c:119 *)
Definition cdkq_444 : cexp := CDiv (CMul cdkq_323 cdkq_238) cdkq_59.
(** wrapped_code_0.c:119 *)
Definition cdkq_445 : cexp := CMul (CAdd (CAdd cdkq_444 (CMul cdkq_263 cdkq_431)) (CMul cdkq_264 cdkq_432)) cdkq_77.
(** wrapped_code_0.c:120 *)
Definition cdkq_446 : cexp := CDiv (CMul cdkq_370 cdkq_238) cdkq_59.
(** wrapped_code_0.c:120 *)
Definition cdkq_447 : cexp := CMul (CAdd (CAdd cdkq_446 (CMul cdkq_273 cdkq_432)) (CMul cdkq_274 cdkq_431)) cdkq_77.
(** wrapped_code_0.c:121 *)
Definition cdkq_448 : cexp := CAdd (CDiv (CMul cdkq_61 cdkq_253) cdkq_59) (CDiv (CMul cdkq_2 cdkq_252) cdkq_59).
(** wrapped_code_0.c:121 *)
Definition cdkq_449 : cexp := CAdd (CDiv (CMul cdkq_61 cdkq_252) cdkq_59) (CDiv (CMul cdkq_2 cdkq_253) cdkq_59).
(** wrapped_code_0.c:121 *)
Definition cdkq_450 : cexp := CMul (CAdd (CAdd cdkq_251 (CMul cdkq_60 cdkq_448)) (CMul cdkq_62 cdkq_449)) cdkq_77.
(** wrapped_code_0.c:122 *)
Definition cdkq_451 : cexp := CMul (CAdd (CAdd cdkq_297 (CMul cdkq_109 cdkq_448)) (CMul cdkq_110 cdkq_449)) cdkq_77.
(** wrapped_code_0.c:123 *)
Definition cdkq_452 : cexp := CMul (CAdd (CAdd cdkq_321 (CMul cdkq_133 cdkq_449)) (CMul cdkq_134 cdkq_448)) cdkq_77.
(** wrapped_code_0.c:124 *)
Definition cdkq_453 : cexp := CMul (CAdd (CAdd cdkq_344 (CMul cdkq_152 cdkq_448)) (CMul cdkq_153 cdkq_449)) cdkq_77.
(** wrapped_code_0.c:125 *)
Definition cdkq_454 : cexp := CMul (CAdd (CAdd cdkq_366 (CMul cdkq_171 cdkq_448)) (CMul cdkq_172 cdkq_449)) cdkq_77.
(** wrapped_code_0.c:126 *)
Definition cdkq_455 : cexp := CMul (CAdd (CAdd cdkq_388 (CMul cdkq_186 cdkq_449)) (CMul cdkq_187 cdkq_448)) cdkq_77.
(** wrapped_code_0.c:127 *)
Definition cdkq_456 : cexp := CMul (CAdd (CAdd cdkq_407 (CMul cdkq_204 cdkq_448)) (CMul cdkq_205 cdkq_449)) cdkq_77.
(** wrapped_code_0.c:128 *)
Definition cdkq_457 : cexp := CMul (CAdd (CAdd cdkq_425 (CMul cdkq_224 cdkq_448)) (CMul cdkq_225 cdkq_449)) cdkq_77.
(** wrapped_code_0.c:129 *)
Definition cdkq_458 : cexp := CMul (CAdd (CAdd cdkq_442 (CMul cdkq_240 cdkq_449)) (CMul cdkq_241 cdkq_448)) cdkq_77.
(** wrapped_code_0.c:130 *)
Definition cdkq_459 : cexp := CMul (CAdd (CAdd (CDiv (CMul cdkq_3 (CPow cdkq_249 2%nat)) cdkq_59) (CMul cdkq_252 cdkq_448)) (CMul cdkq_253 cdkq_449)) cdkq_77.
(** wrapped_code_0.c:131 *)
Definition cdkq_460 : cexp := CDiv (CMul cdkq_250 cdkq_261) cdkq_59.
(** wrapped_code_0.c:131 *)
Definition cdkq_461 : cexp := CMul (CAdd (CAdd cdkq_460 (CMul cdkq_263 cdkq_448)) (CMul cdkq_264 cdkq_449)) cdkq_77.
(** wrapped_code_0.c:132 *)
Definition cdkq_462 : cexp := CDiv (CMul cdkq_250 cdkq_271) cdkq_59.
(** wrapped_code_0.c:132 *)
Definition cdkq_463 : cexp := CMul (CAdd (CAdd cdkq_462 (CMul cdkq_273 cdkq_449)) (CMul cdkq_274 cdkq_448)) cdkq_77.
(** wrapped_code_0.c:133 *)
Definition cdkq_464 : cexp := CAdd (CDiv (CMul cdkq_61 cdkq_264) cdkq_59) (CDiv (CMul cdkq_2 cdkq_263) cdkq_59).
(** wrapped_code_0.c:133 *)
Definition cdkq_465 : cexp := CAdd (CDiv (CMul cdkq_61 cdkq_263) cdkq_59) (CDiv (CMul cdkq_2 cdkq_264) cdkq_59).
(** wrapped_code_0.c:133 *)
Definition cdkq_466 : cexp := CMul (CAdd (CAdd cdkq_262 (CMul cdkq_60 cdkq_464)) (CMul cdkq_62 cdkq_465)) cdkq_77.
(** wrapped_code_0.c:134 *)
Definition cdkq_467 : cexp := CMul (CAdd (CAdd cdkq_299 (CMul cdkq_109 cdkq_464)) (CMul cdkq_110 cdkq_465)) cdkq_77.
(** wrapped_code_0.c:135 *)
Definition cdkq_468 : cexp := CMul (CAdd (CAdd cdkq_324 (CMul cdkq_133 cdkq_465)) (CMul cdkq_134 cdkq_464)) cdkq_77.
(** wrapped_code_0.c:136 *)
Definition cdkq_469 : cexp := CMul (CAdd (CAdd cdkq_346 (CMul cdkq_152 cdkq_464)) (CMul cdkq_153 cdkq_465)) cdkq_77.
(** wrapped_code_0.c:137 *)
Definition cdkq_470 : cexp := CMul (CAdd (CAdd cdkq_368 (CMul cdkq_171 cdkq_464)) (CMul cdkq_172 cdkq_465)) cdkq_77.
(** wrapped_code_0.c:138 *)
Definition cdkq_471 : cexp := CMul (CAdd (CAdd cdkq_390 (CMul cdkq_186 cdkq_465)) (CMul cdkq_187 cdkq_464)) cdkq_77.
(** wrapped_code_0.c:139 *)
Definition cdkq_472 : cexp := CMul (CAdd (CAdd cdkq_409 (CMul cdkq_204 cdkq_464)) (CMul cdkq_205 cdkq_465)) cdkq_77.
(** wrapped_code_0.c:140 *)
Definition cdkq_473 : cexp := CMul (CAdd (CAdd cdkq_427 (CMul cdkq_224 cdkq_464)) (CMul cdkq_225 cdkq_465)) cdkq_77.
(** wrapped_code_0.c:141 *)
Definition cdkq_474 : cexp := CMul (CAdd (CAdd cdkq_444 (CMul cdkq_240 cdkq_465)) (CMul cdkq_241 cdkq_464)) cdkq_77.
(** wrapped_code_0.c:142 *)
Definition cdkq_475 : cexp := CMul (CAdd (CAdd cdkq_460 (CMul cdkq_252 cdkq_464)) (CMul cdkq_253 cdkq_465)) cdkq_77.
(** wrapped_code_0.c:143 *)
Definition cdkq_476 : cexp := CMul (CAdd (CAdd (CDiv (CMul cdkq_3 (CPow cdkq_261 2%nat)) cdkq_59) (CMul cdkq_263 cdkq_464)) (CMul cdkq_264 cdkq_465)) cdkq_77.
(** wrapped_code_0.c:144 *)
Definition cdkq_477 : cexp := CDiv (CMul cdkq_323 cdkq_271) cdkq_59.
(** wrapped_code_0.c:144 *)
Definition cdkq_478 : cexp := CMul (CAdd (CAdd cdkq_477 (CMul cdkq_273 cdkq_465)) (CMul cdkq_274 cdkq_464)) cdkq_77.
(** wrapped_code_0.c:145 *)
Definition cdkq_479 : cexp := CAdd (CDiv (CMul cdkq_61 cdkq_273) cdkq_59) (CDiv (CMul cdkq_2 cdkq_274) cdkq_59).
(** wrapped_code_0.c:145 *)
Definition cdkq_480 : cexp := CAdd (CDiv (CMul cdkq_61 cdkq_274) cdkq_59) (CDiv (CMul cdkq_2 cdkq_273) cdkq_59).
(** wrapped_code_0.c:145 *)
Definition cdkq_481 : cexp := CMul (CAdd (CAdd cdkq_272 (CMul cdkq_60 cdkq_479)) (CMul cdkq_62 cdkq_480)) cdkq_77.
(** wrapped_code_0.c:146 *)
Definition cdkq_482 : cexp := CMul (CAdd (CAdd cdkq_301 (CMul cdkq_109 cdkq_479)) (CMul cdkq_110 cdkq_480)) cdkq_77.
(** wrapped_code_0.c:147 *)
Definition cdkq_483 : cexp := CMul (CAdd (CAdd cdkq_326 (CMul cdkq_133 cdkq_480)) (CMul cdkq_134 cdkq_479)) cdkq_77.
(** wrapped_code_0.c:148 *)
Definition cdkq_484 : cexp := CMul (CAdd (CAdd cdkq_348 (CMul cdkq_152 cdkq_479)) (CMul cdkq_153 cdkq_480)) cdkq_77.
(** wrapped_code_0.c:149 *)
Definition cdkq_485 : cexp := CMul (CAdd (CAdd cdkq_371 (CMul cdkq_171 cdkq_479)) (CMul cdkq_172 cdkq_480)) cdkq_77.
(** wrapped_code_0.c:150 *)
Definition cdkq_486 : cexp := CMul (CAdd (CAdd cdkq_392 (CMul cdkq_186 cdkq_480)) (CMul cdkq_187 cdkq_479)) cdkq_77.
(** wrapped_code_0.c:151 *)
Definition cdkq_487 : cexp := CMul (CAdd (CAdd cdkq_411 (CMul cdkq_204 cdkq_479)) (CMul cdkq_205 cdkq_480)) cdkq_77.
(** wrapped_code_0.c:152 *)
Definition cdkq_488 : cexp := CMul (CAdd (CAdd cdkq_429 (CMul cdkq_224 cdkq_479)) (CMul cdkq_225 cdkq_480)) cdkq_77.
(** wrapped_code_0.c:153 *)
Definition cdkq_489 : cexp := CMul (CAdd (CAdd cdkq_446 (CMul cdkq_240 cdkq_480)) (CMul cdkq_241 cdkq_479)) cdkq_77.
(** wrapped_code_0.c:154 *)
Definition cdkq_490 : cexp := CMul (CAdd (CAdd cdkq_462 (CMul cdkq_252 cdkq_479)) (CMul cdkq_253 cdkq_480)) cdkq_77.
(** wrapped_code_0.c:155 *)
Definition cdkq_491 : cexp := CMul (CAdd (CAdd cdkq_477 (CMul cdkq_263 cdkq_479)) (CMul cdkq_264 cdkq_480)) cdkq_77.
(** wrapped_code_0.c:156 *)
Definition cdkq_492 : cexp := CMul (CAdd (CAdd (CDiv (CMul cdkq_3 (CPow cdkq_271 2%nat)) cdkq_59) (CMul cdkq_273 cdkq_480)) (CMul cdkq_274 cdkq_479)) cdkq_77.
(** wrapped_code_0.c:13-156: out[0], out[1], ... *)
Definition cdkq_code : list cexp :=
  [
    cdkq_78; cdkq_111; cdkq_135; cdkq_154; cdkq_173; cdkq_188; cdkq_206; cdkq_226; cdkq_242; cdkq_254; cdkq_265; cdkq_275;
    cdkq_278; cdkq_279; cdkq_282; cdkq_285; cdkq_287; cdkq_289; cdkq_292; cdkq_294; cdkq_296; cdkq_298; cdkq_300; cdkq_302;
    cdkq_305; cdkq_306; cdkq_307; cdkq_309; cdkq_312; cdkq_314; cdkq_316; cdkq_318; cdkq_320; cdkq_322; cdkq_325; cdkq_327;
    cdkq_330; cdkq_331; cdkq_332; cdkq_333; cdkq_335; cdkq_337; cdkq_339; cdkq_341; cdkq_343; cdkq_345; cdkq_347; cdkq_349;
    cdkq_352; cdkq_353; cdkq_354; cdkq_355; cdkq_356; cdkq_359; cdkq_361; cdkq_363; cdkq_365; cdkq_367; cdkq_369; cdkq_372;
    cdkq_375; cdkq_376; cdkq_377; cdkq_378; cdkq_379; cdkq_380; cdkq_382; cdkq_385; cdkq_387; cdkq_389; cdkq_391; cdkq_393;
    cdkq_396; cdkq_397; cdkq_398; cdkq_399; cdkq_400; cdkq_401; cdkq_402; cdkq_404; cdkq_406; cdkq_408; cdkq_410; cdkq_412;
    cdkq_415; cdkq_416; cdkq_417; cdkq_418; cdkq_419; cdkq_420; cdkq_421; cdkq_422; cdkq_424; cdkq_426; cdkq_428; cdkq_430;
    cdkq_433; cdkq_434; cdkq_435; cdkq_436; cdkq_437; cdkq_438; cdkq_439; cdkq_440; cdkq_441; cdkq_443; cdkq_445; cdkq_447;
    cdkq_450; cdkq_451; cdkq_452; cdkq_453; cdkq_454; cdkq_455; cdkq_456; cdkq_457; cdkq_458; cdkq_459; cdkq_461; cdkq_463;
    cdkq_466; cdkq_467; cdkq_468; cdkq_469; cdkq_470; cdkq_471; cdkq_472; cdkq_473; cdkq_474; cdkq_475; cdkq_476; cdkq_478;
    cdkq_481; cdkq_482; cdkq_483; cdkq_484; cdkq_485; cdkq_486; cdkq_487; cdkq_488; cdkq_489; cdkq_490; cdkq_491; cdkq_492
  ].
