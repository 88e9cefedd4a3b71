(** The membrane of triangles.
    meta/membranes/T9/wrapped_code_0.c:13-48, translated expression by expression: sums and products associate to the left as in C.
    The file writes expressions that occur more than once out each time; here such an expression has
    a name, and the comment gives the line where it occurs first. *)
From Coq Require Import List ZArith.
From Verif Require Import CText.
Import ListNotations.
Local Open Scope Z_scope.

(** wrapped_code_0.c:13 *)
Definition ct9_0 : cexp := CMul (CDec 25 100) (CVar VE).
(** wrapped_code_0.c:13 *)
Definition ct9_1 : cexp := CMul ct9_0 (CSub (CDiv (CInt 1) (CInt 2)) (CMul (CDiv (CInt 1) (CInt 2)) (CVar Vmu))).
(** wrapped_code_0.c:13 *)
Definition ct9_2 : cexp := CSub (CVar (Vy 2%nat)) (CVar (Vy 3%nat)).
(** wrapped_code_0.c:13 *)
Definition ct9_3 : cexp := CPow ct9_2 2%nat.
(** wrapped_code_0.c:13 *)
Definition ct9_4 : cexp := CMul (CDiv (CInt 1) (CInt 2)) (CVar (Vx 1%nat)).
(** wrapped_code_0.c:13 *)
Definition ct9_5 : cexp := CMul (CDiv (CInt 1) (CInt 2)) (CVar (Vx 2%nat)).
(** wrapped_code_0.c:13 *)
Definition ct9_6 : cexp := CMul (CDiv (CInt 1) (CInt 2)) (CVar (Vx 3%nat)).
(** wrapped_code_0.c:13 *)
Definition ct9_7 : cexp := CMul (CSub (CInt 1) (CPow (CVar Vmu) 2%nat)) (CPow (CSub (CAdd (CAdd (CSub (CSub (CMul ct9_4 (CVar (Vy 2%nat))) (CMul ct9_4 (CVar (Vy 3%nat)))) (CMul ct9_5 (CVar (Vy 1%nat)))) (CMul ct9_5 (CVar (Vy 3%nat)))) (CMul ct9_6 (CVar (Vy 1%nat)))) (CMul ct9_6 (CVar (Vy 2%nat)))) 2%nat).
(** wrapped_code_0.c:13 *)
Definition ct9_8 : cexp := CDiv (CMul ct9_1 ct9_3) ct9_7.
(** wrapped_code_0.c:13 *)
Definition ct9_9 : cexp := CAdd ct9_8 (CDiv (CMul ct9_0 ct9_3) ct9_7).
(** wrapped_code_0.c:14 *)
Definition ct9_10 : cexp := CMul ct9_0 (CVar Vmu).
(** wrapped_code_0.c:14 *)
Definition ct9_11 : cexp := CAdd (CDiv (CMul ct9_10 ct9_3) ct9_7) ct9_8.
(** wrapped_code_0.c:15 *)
Definition ct9_12 : cexp := CAdd (CNeg (CVar (Vy 1%nat))) (CVar (Vy 3%nat)).
(** wrapped_code_0.c:15 *)
Definition ct9_13 : cexp := CMul ct9_1 ct9_12.
(** wrapped_code_0.c:15 *)
Definition ct9_14 : cexp := CDiv (CMul ct9_13 ct9_2) ct9_7.
(** wrapped_code_0.c:15 *)
Definition ct9_15 : cexp := CMul ct9_0 ct9_12.
(** wrapped_code_0.c:15 *)
Definition ct9_16 : cexp := CAdd ct9_14 (CDiv (CMul ct9_15 ct9_2) ct9_7).
(** wrapped_code_0.c:16 *)
Definition ct9_17 : cexp := CMul ct9_10 ct9_12.
(** wrapped_code_0.c:16 *)
Definition ct9_18 : cexp := CAdd (CDiv (CMul ct9_17 ct9_2) ct9_7) ct9_14.
(** wrapped_code_0.c:17 *)
Definition ct9_19 : cexp := CSub (CVar (Vy 1%nat)) (CVar (Vy 2%nat)).
(** wrapped_code_0.c:17 *)
Definition ct9_20 : cexp := CDiv (CMul (CMul ct9_1 ct9_19) ct9_2) ct9_7.
(** wrapped_code_0.c:17 *)
Definition ct9_21 : cexp := CAdd ct9_20 (CDiv (CMul (CMul ct9_0 ct9_19) ct9_2) ct9_7).
(** wrapped_code_0.c:18 *)
Definition ct9_22 : cexp := CAdd (CDiv (CMul (CMul ct9_10 ct9_19) ct9_2) ct9_7) ct9_20.
(** wrapped_code_0.c:27 *)
Definition ct9_23 : cexp := CPow ct9_12 2%nat.
(** wrapped_code_0.c:27 *)
Definition ct9_24 : cexp := CDiv (CMul ct9_1 ct9_23) ct9_7.
(** wrapped_code_0.c:27 *)
Definition ct9_25 : cexp := CAdd ct9_24 (CDiv (CMul ct9_0 ct9_23) ct9_7).
(** wrapped_code_0.c:28 *)
Definition ct9_26 : cexp := CAdd (CDiv (CMul ct9_10 ct9_23) ct9_7) ct9_24.
(** wrapped_code_0.c:29 *)
Definition ct9_27 : cexp := CDiv (CMul ct9_13 ct9_19) ct9_7.
(** wrapped_code_0.c:29 *)
Definition ct9_28 : cexp := CAdd ct9_27 (CDiv (CMul ct9_15 ct9_19) ct9_7).
(** wrapped_code_0.c:30 *)
Definition ct9_29 : cexp := CAdd (CDiv (CMul ct9_17 ct9_19) ct9_7) ct9_27.
(** wrapped_code_0.c:41 *)
Definition ct9_30 : cexp := CPow ct9_19 2%nat.
(** wrapped_code_0.c:41 *)
Definition ct9_31 : cexp := CDiv (CMul ct9_1 ct9_30) ct9_7.
(** wrapped_code_0.c:41 *)
Definition ct9_32 : cexp := CAdd ct9_31 (CDiv (CMul ct9_0 ct9_30) ct9_7).
(** wrapped_code_0.c:42 *)
Definition ct9_33 : cexp := CAdd (CDiv (CMul ct9_10 ct9_30) ct9_7) ct9_31.
(** wrapped_code_0.c:13-48: out[0], out[1], ... *)
Definition ct9_code : list cexp :=
  [
    ct9_9; ct9_11; ct9_16; ct9_18; ct9_21; ct9_22;
    ct9_11; ct9_9; ct9_18; ct9_16; ct9_22; ct9_21;
    ct9_16; ct9_18; ct9_25; ct9_26; ct9_28; ct9_29;
    ct9_18; ct9_16; ct9_26; ct9_25; ct9_29; ct9_28;
    ct9_21; ct9_22; ct9_28; ct9_29; ct9_32; ct9_33;
    ct9_22; ct9_21; ct9_29; ct9_28; ct9_33; ct9_32
  ].
