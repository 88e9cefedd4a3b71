(** The C code beside the shell kernels: what the elements call at run time.  The files
    meta/*/*/wrapped_code_0.c were printed by sympy and are part of the repository; nothing
    prints them again.  Each is one function, a sequence of assignments out[k] = expression.
    Simplified: [double] is R, so rounding is left out, and a division by zero (inf or nan
    in C) is no result. *)
From Coq Require Import Reals List Arith ZArith.
From Verif Require Import Base Csys Sections Element Kernels.
Import ListNotations.
Local Open Scope R_scope.

(** The arguments of [autofunc] in wrapped_code_0.c:11; corners count from 1, as there. *)
Inductive cvar : Type := VE | Vmu | Vt | Vxi | Veta | Vx (i : nat) | Vy (i : nat).

(** The expressions that occur in wrapped_code_0.c:13-: literals such as 6 or 1.0
    ([CInt]), literals such as 0.25 ([CDec 25 100]), the four operations, and [pow] with
    a literal exponent.  Quotients of two integer literals, which C would truncate, do
    not occur: 1.0/2.0 is a quotient of doubles. *)
Inductive cexp : Type :=
| CInt (n : Z)
| CDec (n d : Z)
| CVar (v : cvar)
| CNeg (a : cexp)
| CAdd (a b : cexp)
| CSub (a b : cexp)
| CMul (a b : cexp)
| CDiv (a b : cexp)
| CPow (a : cexp) (n : nat).

(** The value of an expression (wrapped_code_0.c:13-). *)
Fixpoint ceval (env : cvar -> R) (e : cexp) : option R :=
  match e with
  | CInt n => Some (IZR n)
  | CDec n d => Some (IZR n / IZR d)
  | CVar v => Some (env v)
  | CNeg a => match ceval env a with Some x => Some (- x) | None => None end
  | CAdd a b => match ceval env a, ceval env b with Some x, Some y => Some (x + y) | _, _ => None end
  | CSub a b => match ceval env a, ceval env b with Some x, Some y => Some (x - y) | _, _ => None end
  | CMul a b => match ceval env a, ceval env b with Some x, Some y => Some (x * y) | _, _ => None end
  | CDiv a b => match ceval env a, ceval env b with
                | Some x, Some y => if Req_EM_T y 0 then None else Some (x / y)
                | _, _ => None
                end
  | CPow a n => match ceval env a with Some x => Some (x ^ n) | None => None end
  end.

(** All assignments of [autofunc], in order (wrapped_code_0.c:13-). *)
Fixpoint autofunc (env : cvar -> R) (p : list cexp) : option (list R) :=
  match p with
  | [] => Some []
  | e :: p' => match ceval env e, autofunc env p' with
               | Some x, Some l => Some (x :: l)
               | _, _ => None
               end
  end.

(** meta*.pyx:7-11 [autofunc_c]: [np.empty((n,n))] filled row by row. *)
Definition autofunc_c (n : nat) (p : list cexp) (env : cvar -> R) : option mat :=
  match autofunc env p with
  | Some l => Some (fun i j => vnth l (n * i + j))
  | None => None
  end.

(** The call BDB(E,mu,t,xi,eta,*X) of DKGQ.py:34 and :48, and DKT.py:31; for the membrane of triangles
    (DKT.py:39) without xi and eta, which its C code does not take. *)
Definition call_with (E mu t xi eta : R) (xl : list R) (v : cvar) : R :=
  match v with
  | VE => E
  | Vmu => mu
  | Vt => t
  | Vxi => xi
  | Veta => eta
  | Vx i => vnth xl (2 * (i - 1))
  | Vy i => vnth xl (2 * (i - 1) + 1)
  end.
