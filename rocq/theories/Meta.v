(** The symbolic scripts beside the shell kernels: beam matrices (meta/beams/beam_eular/__init__.py),
    interpolation functions (meta/interpolate/Hermite.py, Lagrange.py) and the isotropic material
    (meta/isotropy.py, material/isotropy.py).  sympy expressions in one symbol are lists of
    coefficients, lowest power first; printing and compiling are not modelled.  The decimal 0.5 of
    the scripts is one half. *)
From Coq Require Import Reals List Arith.
From Verif Require Import Base.
Import ListNotations.
Local Open Scope R_scope.

(** ** Polynomials *)
Fixpoint p_at (p : list R) (x : R) : R := match p with [] => 0 | a :: q => a + x * p_at q x end.
Fixpoint p_add (p q : list R) : list R :=
  match p, q with [], _ => q | _, [] => p | a :: p', b :: q' => (a + b) :: p_add p' q' end.
Definition p_scal (k : R) (p : list R) : list R := map (fun a => k * a) p.
Fixpoint p_mul (p q : list R) : list R :=
  match p with [] => [] | a :: p' => p_add (p_scal a q) (0 :: p_mul p' q) end.
(** [syp.diff(p,xi)]: coefficient of x^(n+k) becomes that of x^(n+k-1) *)
Fixpoint p_der_from (n : nat) (p : list R) : list R :=
  match p with [] => [] | a :: q => INR n * a :: p_der_from (S n) q end.
Definition p_der (p : list R) : list R := match p with [] => [] | _ :: q => p_der_from 1 q end.
(** [syp.integrate(p,xi)], without constant *)
Fixpoint p_int_from (n : nat) (p : list R) : list R :=
  match p with [] => [] | a :: q => a / INR n :: p_int_from (S n) q end.
Definition p_int (p : list R) : list R := 0 :: p_int_from 1 p.
(** [K=syp.integrate(K,xi); K.replace(xi,b)-K.replace(xi,a)] *)
Definition p_between (p : list R) (a b : R) : R := p_at (p_int p) b - p_at (p_int p) a.

(** ** beam_eular *)
(** lines 9-11, 61-63 *)
Definition lin_N (i : nat) : list R := match i with O => [1/2; -1/2] | _ => [1/2; 1/2] end.
(** lines 27-30 *)
Definition cub_N (l : R) (i : nat) : list R :=
  match i with
  | 0%nat => [1; 0; -3; 2]
  | 1%nat => p_scal l [0; 1; -2; 1]
  | 2%nat => [0; 0; 3; -2]
  | _ => p_scal l [0; 0; -1; 1]
  end.
(** line 45 *)
Definition cub_N3 (l : R) (i : nat) : list R :=
  match i with 0%nat => p_scal (-1) (cub_N l 0) | 1%nat => cub_N l 1 | 2%nat => p_scal (-1) (cub_N l 2) | _ => cub_N l 3 end.
(** lines 12-15; the same for torsion, lines 64-67, where the factor is inside the integral *)
Definition bK1 (E A l : R) (i j : nat) : R := 2 * E * A / l * p_between (p_mul (p_der (lin_N i)) (p_der (lin_N j))) (-1) 1.
Definition bK3 (G J l : R) (i j : nat) : R :=
  p_between (p_scal (2 * G * J / l) (p_mul (p_der (lin_N i)) (p_der (lin_N j)))) (-1) 1.
(** lines 16-18, 68-70 *)
Definition bM1 (rho A l : R) (i j : nat) : R := 2 * rho * A / l * p_between (p_mul (lin_N i) (lin_N j)) (-1) 1.
(** lines 32-36, 46-50 *)
Definition bK2 (N : nat -> list R) (E I l : R) (i j : nat) : R :=
  E * I / l^3 * p_between (p_mul (p_der (p_der (N i))) (p_der (p_der (N j)))) 0 1.
(** lines 37-40, 51-54 *)
Definition bM2 (N : nat -> list R) (rho I l : R) (i j : nat) : R :=
  rho * I / l^3 * p_between (p_mul (N i) (N j)) 0 1.
(** The loops of lines 82-101 and 112-131: [r] gives the row of entry [i]. *)
Definition put (n : nat) (r : nat -> nat) (B : nat -> nat -> R) : coo :=
  flat_map (fun i => map (fun j => (r i, r j, B i j)) (seq 0 n)) (seq 0 n).
(** lines 74-102 *)
Definition meta_K (E G A I2 I3 J l : R) : mat := coo_get
  (put 2 (fun i => i * 6)%nat (bK1 E A l)
   ++ put 4 (fun i => i / 2 * 6 + i mod 2 * 4 + 1)%nat (bK2 (cub_N l) E I2 l)
   ++ put 4 (fun i => i / 2 * 6 + i mod 2 * 2 + 2)%nat (bK2 (cub_N3 l) E I3 l)
   ++ put 2 (fun i => i * 6 + 3)%nat (bK3 G J l)).
(** lines 104-132 *)
Definition meta_M (rho A I2 I3 J l : R) : mat := coo_get
  (put 2 (fun i => i * 6)%nat (bM1 rho A l)
   ++ put 4 (fun i => i / 2 * 6 + i mod 2 * 4 + 1)%nat (bM2 (cub_N l) rho I2 l)
   ++ put 4 (fun i => i / 2 * 6 + i mod 2 * 2 + 2)%nat (bM2 (cub_N3 l) rho I3 l)
   ++ put 2 (fun i => i * 6 + 3)%nat (bM1 rho J l)).

(** ** Interpolation *)
(** Hermite.py:7-10 *)
Definition H01 (x : R) : R := 1 - 3 * x^2 + 2 * x^3.
Definition H02 (l x : R) : R := (x - 2 * x^2 + x^3) * l.
Definition H11 (x : R) : R := 3 * x^2 - 2 * x^3.
Definition H12 (l x : R) : R := (x^3 - x^2) * l.
(** Hermite.py:13-18 *)
Definition hermite1 (l xi : R) : list R := [H01 xi; H02 l xi; H11 xi; H12 l xi].
(** Hermite.py:21-41 *)
Definition hermite2 (l xi eta : R) : list R :=
  [ H01 xi * H01 eta; H11 xi * H01 eta; H01 xi * H11 eta; H11 xi * H11 eta;
    H02 l xi * H01 eta; H12 l xi * H01 eta; H02 l xi * H11 eta; H12 l xi * H11 eta;
    H01 xi * H02 l eta; H11 xi * H02 l eta; H01 xi * H12 l eta; H11 xi * H12 l eta;
    H02 l xi * H02 l eta; H12 l xi * H02 l eta; H02 l xi * H12 l eta; H12 l xi * H12 l eta ].
(** Lagrange.py:6-21 *)
Definition lag1 (x : R) : R := 1/2 * (1 - x).
Definition lag2 (x : R) : R := 1/2 * (1 + x).
Definition lagrange1 (xi : R) : list R := [lag1 xi; lag2 xi].
Definition lagrange2 (xi eta : R) : list R :=
  [lag1 xi * lag1 eta; lag1 xi * lag2 eta; lag2 xi * lag1 eta; lag2 xi * lag2 eta].

(** ** Isotropic material *)
(** meta/isotropy.py:7-20: the constants and the array D *)
Definition iso_G (E nu : R) : R := E / 2 / (1 + nu).
Definition iso_lamda (E nu : R) : R := E * nu / (1 + nu) / (1 - 2 * nu).
Definition kdelta (i j : nat) : R := if Nat.eqb i j then 1 else 0.
Definition iso_D (E nu : R) (i j k l : nat) : R :=
  2 * iso_G E nu * kdelta i k * kdelta j l + iso_lamda E nu * kdelta i j * kdelta k l.
(** lines 22-26 *)
Definition iso_eps (exx eyy ezz gxy gyz gzx : R) (i j : nat) : R :=
  nth j (nth i [[exx; gxy / 2; gzx / 2]; [gxy / 2; eyy; gyz / 2]; [gzx / 2; gyz / 2; ezz]] []) 0.
(** line 29 [np.tensordot(D,eps)], over the last two indices of D *)
Definition iso_sig (E nu : R) (eps : nat -> nat -> R) (i j : nat) : R :=
  rsum 3 (fun k => rsum 3 (fun l => iso_D E nu i j k l * eps k l)).
(** material/isotropy.py:33-37 and 39-43.  The property [D] (lines 50-54) takes arguments a
    property is never given and cannot be read. *)
Definition mat_iso_G (E mu : R) : R := E / 2 / (1 + mu).
Definition mat_iso_lamda (E mu : R) : R := E / (1 + mu) / (1 - 2 * mu).
(** material/isotropy.py:45-48 *)
Definition mat_iso_C (exx eyy ezz gxy gyz gzx : R) (i j : nat) : R :=
  nth j (nth i [[exx; gxy / 2; gzx / 2]; [gxy / 2; eyy; gyz / 2]; [gzx / 2; gyz / 2; ezz]] []) 0.
