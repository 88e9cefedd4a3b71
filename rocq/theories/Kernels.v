(** The shell kernels: the matrices the sympy scripts under meta/ derive and the elements
    integrate.  The scripts print C code for one point (E, mu, t, xi, eta, coordinates);
    the model evaluates the same expressions.  The printed C code itself is modelled in
    CText*.v; sympy's [autowrap], which printed it, is not. *)
From Coq Require Import Reals List Arith.
From Verif Require Import Base Csys Sections Element.
Import ListNotations.
Local Open Scope R_scope.

(** ** sympy expressions in xi and eta *)
(** Coordinates of the corners and constants are symbols free of xi and eta: numbers here. *)
Inductive ex : Type :=
| Cst (r : R)
| Xi
| Eta
| Add (a b : ex)
| Sub (a b : ex)
| Mul (a b : ex).
Fixpoint ev (e : ex) (xi eta : R) : R :=
  match e with
  | Cst r => r
  | Xi => xi
  | Eta => eta
  | Add a b => ev a xi eta + ev b xi eta
  | Sub a b => ev a xi eta - ev b xi eta
  | Mul a b => ev a xi eta * ev b xi eta
  end.
(** [syp.diff(f,xi)] and [syp.diff(f,eta)] *)
Fixpoint dxi (e : ex) : ex :=
  match e with
  | Cst _ => Cst 0
  | Xi => Cst 1
  | Eta => Cst 0
  | Add a b => Add (dxi a) (dxi b)
  | Sub a b => Sub (dxi a) (dxi b)
  | Mul a b => Add (Mul (dxi a) b) (Mul a (dxi b))
  end.
Fixpoint deta (e : ex) : ex :=
  match e with
  | Cst _ => Cst 0
  | Xi => Cst 0
  | Eta => Cst 1
  | Add a b => Add (deta a) (deta b)
  | Sub a b => Sub (deta a) (deta b)
  | Mul a b => Add (Mul (deta a) b) (Mul a (deta b))
  end.

(** Corner coordinates in the flattened list x1 y1 x2 y2 ...; corners count from 0 here. *)
Definition cx (xl : list R) (i : nat) : R := vnth xl (2 * i).
Definition cy (xl : list R) (i : nat) : R := vnth xl (2 * i + 1).

(** ** GQ12 (meta/membranes/GQ12/__init__.py) *)
(** lines 13-14 *)
Definition xi0 (i : nat) : R := nth i [1; 1; -1; -1] 0.
Definition eta0 (i : nat) : R := nth i [-1; 1; 1; -1] 0.
(** lines 21-26 *)
Definition gq_a1 (xl : list R) : R := rsum 4 (fun i => xi0 i * cx xl i) / 4.
Definition gq_a2 (xl : list R) : R := rsum 4 (fun i => eta0 i * cx xl i) / 4.
Definition gq_a3 (xl : list R) : R := rsum 4 (fun i => xi0 i * eta0 i * cx xl i) / 4.
Definition gq_b1 (xl : list R) : R := rsum 4 (fun i => xi0 i * cy xl i) / 4.
Definition gq_b2 (xl : list R) : R := rsum 4 (fun i => eta0 i * cy xl i) / 4.
Definition gq_b3 (xl : list R) : R := rsum 4 (fun i => xi0 i * eta0 i * cy xl i) / 4.
(** line 29 *)
Definition gq_N0 (i : nat) : ex :=
  Mul (Mul (Cst (1/4)) (Add (Cst 1) (Mul (Cst (xi0 i)) Xi))) (Add (Cst 1) (Mul (Cst (eta0 i)) Eta)).
(** the common bracket of lines 30 and 31; its first factor is the variable [xi], not [xi0[i]] *)
Definition gq_bracket (c1 c2 c3 : R) (i : nat) : ex :=
  Add (Mul (Mul (Mul Xi (Sub (Cst 1) (Mul Xi Xi))) (Cst (c1 + c3 * eta0 i))) (Add (Cst 1) (Mul (Cst (eta0 i)) Eta)))
      (Mul (Mul (Mul (Cst (eta0 i)) (Sub (Cst 1) (Mul Eta Eta))) (Cst (c2 + c3 * xi0 i))) (Add (Cst 1) (Mul (Cst (xi0 i)) Xi))).
(** lines 30-31 *)
Definition gq_Nut (xl : list R) (i : nat) : ex :=
  Mul (Cst (1/8)) (gq_bracket (gq_b1 xl) (gq_b2 xl) (gq_b3 xl) i).
Definition gq_Nvt (xl : list R) (i : nat) : ex :=
  Mul (Cst (1/8)) (Sub (Cst 0) (gq_bracket (gq_a1 xl) (gq_a2 xl) (gq_a3 xl) i)).
(** lines 33-38: the 2x12 matrix N *)
Definition gq_N (xl : list R) (r c : nat) : ex :=
  match r, (c mod 3)%nat with
  | O, O => gq_N0 (c / 3)
  | S O, S O => gq_N0 (c / 3)
  | O, S (S O) => gq_Nut xl (c / 3)
  | S O, S (S O) => gq_Nvt xl (c / 3)
  | _, _ => Cst 0
  end.
(** meta/jacobi.py:14-29 [J2D(N0,X)]; lines 51-52 *)
Definition gq_J (xl : list R) (xi eta : R) : mat := fun r k =>
  rsum 4 (fun i => ev (match r with O => dxi (gq_N0 i) | _ => deta (gq_N0 i) end) xi eta
                   * match k with O => cx xl i | _ => cy xl i end).
Definition det2 (J : mat) : R := J 0%nat 0%nat * J 1%nat 1%nat - J 0%nat 1%nat * J 1%nat 0%nat.
(** lines 68-80: [L2iso]; [inv_quick(J)] is the inverse of the 2x2 matrix J.  In sympy this
    is a quotient of expressions, so the C code divides by zero where det J is zero. *)
Definition gq_ddx (xl : list R) (xi eta : R) (f : ex) : R :=
  let J := gq_J xl xi eta in
  (J 1%nat 1%nat * ev (dxi f) xi eta - J 0%nat 1%nat * ev (deta f) xi eta) / det2 J.
Definition gq_ddy (xl : list R) (xi eta : R) (f : ex) : R :=
  let J := gq_J xl xi eta in
  (- J 1%nat 0%nat * ev (dxi f) xi eta + J 0%nat 0%nat * ev (deta f) xi eta) / det2 J.
(** line 82, meta/operator.py:26-37 [operator_dot]: 3x12 *)
Definition gq_B (xl : list R) (xi eta : R) : mat := fun r c =>
  match r with
  | O => gq_ddx xl xi eta (gq_N xl 0 c)
  | S O => gq_ddy xl xi eta (gq_N xl 1 c)
  | _ => gq_ddy xl xi eta (gq_N xl 0 c) + gq_ddx xl xi eta (gq_N xl 1 c)
  end.
(** lines 44-49: the matrix D is [planeD]; lines 83-84 *)
Definition gq12_BDB (E mu t xi eta : R) (xl : list R) : mat := fun i j =>
  t * mmul 3 (mT (gq_B xl xi eta)) (mmul 3 (planeD E mu) (gq_B xl xi eta)) i j * det2 (gq_J xl xi eta).

(** ** Plates *)
(** metaDKT/__init__.py:88-92, metaDKQ/__init__.py:117-121 *)
Definition plateD (E mu t : R) : mat := planeD (E * t^3 / 12) mu.

(** ** DKT (meta/plates/metaDKT/__init__.py) *)
(** lines 7-15: sides 23, 31, 12 carry the numbers 4, 5, 6 *)
Definition dkt_x (xl : list R) (k : nat) : R :=
  match k with 4%nat => cx xl 1 - cx xl 2 | 5%nat => cx xl 2 - cx xl 0 | _ => cx xl 0 - cx xl 1 end.
Definition dkt_y (xl : list R) (k : nat) : R :=
  match k with 4%nat => cy xl 1 - cy xl 2 | 5%nat => cy xl 2 - cy xl 0 | _ => cy xl 0 - cy xl 1 end.
(** line 17 *)
Definition dkt_l (xl : list R) (k : nat) : R := sqrt (dkt_x xl k ^ 2 + dkt_y xl k ^ 2).
(** lines 24-28 *)
Definition dkt_P (xl : list R) (k : nat) : R := -6 * dkt_x xl k / dkt_l xl k ^ 2.
Definition dkt_t (xl : list R) (k : nat) : R := -6 * dkt_y xl k / dkt_l xl k ^ 2.
Definition dkt_q (xl : list R) (k : nat) : R := 3 * dkt_x xl k * dkt_y xl k / dkt_l xl k ^ 2.
Definition dkt_r (xl : list R) (k : nat) : R := 3 * dkt_y xl k ^ 2 / dkt_l xl k ^ 2.
(** lines 35-44 *)
Definition dkt_Hxxi (xl : list R) (xi eta : R) : list R :=
  let P := dkt_P xl in let q := dkt_q xl in let r := dkt_r xl in
  [ P 6%nat * (1 - 2*xi) + (P 5%nat - P 6%nat) * eta;
    q 6%nat * (1 - 2*xi) - (q 5%nat + q 6%nat) * eta;
    -4 + 6*(xi+eta) + r 6%nat * (1 - 2*xi) - eta * (r 5%nat + r 6%nat);
    - P 6%nat * (1 - 2*xi) + eta * (P 4%nat + P 6%nat);
    q 6%nat * (1 - 2*xi) - eta * (q 6%nat - q 4%nat);
    -2 + 6*xi + r 6%nat * (1 - 2*xi) + eta * (r 4%nat - r 6%nat);
    - eta * (P 5%nat + P 4%nat);
    eta * (q 4%nat - q 5%nat);
    - eta * (r 5%nat - r 4%nat) ].
(** lines 46-56 *)
Definition dkt_Hyxi (xl : list R) (xi eta : R) : list R :=
  let t := dkt_t xl in let q := dkt_q xl in let r := dkt_r xl in
  [ t 6%nat * (1 - 2*xi) + eta * (t 5%nat - t 6%nat);
    1 + r 6%nat * (1 - 2*xi) - eta * (r 5%nat + r 6%nat);
    - q 6%nat * (1 - 2*xi) + eta * (q 5%nat + q 6%nat);
    - t 6%nat * (1 - 2*xi) + eta * (t 4%nat + t 6%nat);
    -1 + r 6%nat * (1 - 2*xi) + eta * (r 4%nat - r 6%nat);
    - q 6%nat * (1 - 2*xi) - eta * (q 4%nat - q 6%nat);
    - eta * (t 4%nat + t 5%nat);
    eta * (r 4%nat - r 5%nat);
    - eta * (q 4%nat - q 5%nat) ].
(** lines 58-68 *)
Definition dkt_Hxeta (xl : list R) (xi eta : R) : list R :=
  let P := dkt_P xl in let q := dkt_q xl in let r := dkt_r xl in
  [ - P 5%nat * (1 - 2*eta) - xi * (P 6%nat - P 5%nat);
    q 5%nat * (1 - 2*eta) - xi * (q 5%nat + q 6%nat);
    -4 + 6*(xi+eta) + r 5%nat * (1 - 2*eta) - xi * (r 5%nat + r 6%nat);
    xi * (P 4%nat + P 6%nat);
    xi * (q 4%nat - q 6%nat);
    - xi * (r 6%nat - r 4%nat);
    P 5%nat * (1 - 2*eta) - xi * (P 4%nat + P 5%nat);
    q 5%nat * (1 - 2*eta) + xi * (q 4%nat - q 5%nat);
    -2 + 6*eta + r 5%nat * (1 - 2*eta) + xi * (r 4%nat - r 5%nat) ].
(** lines 70-80 *)
Definition dkt_Hyeta (xl : list R) (xi eta : R) : list R :=
  let t := dkt_t xl in let q := dkt_q xl in let r := dkt_r xl in
  [ - t 5%nat * (1 - 2*eta) - xi * (t 6%nat - t 5%nat);
    1 + r 5%nat * (1 - 2*eta) - xi * (r 5%nat + r 6%nat);
    - q 5%nat * (1 - 2*eta) + xi * (q 5%nat + q 6%nat);
    xi * (t 4%nat + t 6%nat);
    xi * (r 4%nat - r 6%nat);
    - xi * (q 4%nat - q 6%nat);
    t 5%nat * (1 - 2*eta) - xi * (t 4%nat + t 5%nat);
    -1 + r 5%nat * (1 - 2*eta) + xi * (r 4%nat - r 5%nat);
    - q 5%nat * (1 - 2*eta) - xi * (q 4%nat - q 5%nat) ].
(** lines 82-86: 3x9, divided by x31*y12-x12*y31 *)
Definition dkt_B (xl : list R) (xi eta : R) : mat := fun r c =>
  let x31 := dkt_x xl 5 in let x12 := dkt_x xl 6 in
  let y31 := dkt_y xl 5 in let y12 := dkt_y xl 6 in
  let Hxxi := vnth (dkt_Hxxi xl xi eta) c in let Hxeta := vnth (dkt_Hxeta xl xi eta) c in
  let Hyxi := vnth (dkt_Hyxi xl xi eta) c in let Hyeta := vnth (dkt_Hyeta xl xi eta) c in
  match r with
  | O => y31 * Hxxi + y12 * Hxeta
  | S O => - x31 * Hyxi - x12 * Hyeta
  | _ => - x31 * Hxxi - x12 * Hxeta + y31 * Hyxi + y12 * Hyeta
  end / (x31 * y12 - x12 * y31).
(** line 94 *)
Definition dkt_BDB (E mu t xi eta : R) (xl : list R) : mat :=
  mmul 3 (mT (dkt_B xl xi eta)) (mmul 3 (plateD E mu t) (dkt_B xl xi eta)).

(** ** DKQ (meta/plates/metaDKQ/__init__.py) *)
(** lines 9-19: sides 12, 23, 34, 41 carry the numbers 5, 6, 7, 8 (here 0, 1, 2, 3) *)
Definition dkq_x (xl : list R) (k : nat) : R := cx xl k - cx xl (match k with 3%nat => 0%nat | _ => S k end).
Definition dkq_y (xl : list R) (k : nat) : R := cy xl k - cy xl (match k with 3%nat => 0%nat | _ => S k end).
(** line 20 *)
Definition dkq_l2 (xl : list R) (k : nat) : R := dkq_x xl k ^ 2 + dkq_y xl k ^ 2.
(** lines 28-33 *)
Definition dkq_a (xl : list R) (k : nat) : R := - dkq_x xl k / dkq_l2 xl k.
Definition dkq_b (xl : list R) (k : nat) : R := 3/4 * dkq_x xl k * dkq_y xl k / dkq_l2 xl k.
Definition dkq_c (xl : list R) (k : nat) : R := (1/4 * dkq_x xl k ^ 2 - 1/2 * dkq_y xl k ^ 2) / dkq_l2 xl k.
Definition dkq_d (xl : list R) (k : nat) : R := - dkq_y xl k / dkq_l2 xl k.
Definition dkq_e (xl : list R) (k : nat) : R := (-1/2 * dkq_x xl k ^ 2 + 1/4 * dkq_y xl k ^ 2) / dkq_l2 xl k.
(** lines 43-46 N1..N4 *)
Definition one : ex := Cst 1.
Definition dkq_N (i : nat) : ex :=
  match i with
  | 0%nat => Mul (Mul (Mul (Cst (-1/4)) (Sub one Xi)) (Sub one Eta)) (Add (Add one Xi) Eta)
  | 1%nat => Mul (Mul (Mul (Cst (-1/4)) (Add one Xi)) (Sub one Eta)) (Add (Sub one Xi) Eta)
  | 2%nat => Mul (Mul (Mul (Cst (-1/4)) (Add one Xi)) (Add one Eta)) (Sub (Sub one Xi) Eta)
  | _ => Mul (Mul (Mul (Cst (-1/4)) (Sub one Xi)) (Add one Eta)) (Sub (Add one Xi) Eta)
  end.
(** lines 51-54 N5..N8 *)
Definition dkq_M (k : nat) : ex :=
  match k with
  | 0%nat => Mul (Mul (Cst (1/2)) (Sub one (Mul Xi Xi))) (Sub one Eta)
  | 1%nat => Mul (Mul (Cst (1/2)) (Sub one (Mul Eta Eta))) (Add one Xi)
  | 2%nat => Mul (Mul (Cst (1/2)) (Sub one (Mul Xi Xi))) (Add one Eta)
  | _ => Mul (Mul (Cst (1/2)) (Sub one (Mul Eta Eta))) (Sub one Xi)
  end.
(** lines 56-86: for corner i the side after it (5, 6, 7, 8) and the side before it (8, 5, 6, 7) *)
Definition dkq_before (i : nat) : nat := match i with O => 3%nat | S k => k end.
Definition dkq_Hx (xl : list R) (c : nat) : ex :=
  let i := (c / 3)%nat in let k := i in let k' := dkq_before i in
  match (c mod 3)%nat with
  | O => Mul (Cst (3/2)) (Sub (Mul (Cst (dkq_a xl k)) (dkq_M k)) (Mul (Cst (dkq_a xl k')) (dkq_M k')))
  | S O => Add (Mul (Cst (dkq_b xl k)) (dkq_M k)) (Mul (Cst (dkq_b xl k')) (dkq_M k'))
  | _ => Sub (Sub (dkq_N i) (Mul (Cst (dkq_c xl k)) (dkq_M k))) (Mul (Cst (dkq_c xl k')) (dkq_M k'))
  end.
Definition dkq_Hy (xl : list R) (c : nat) : ex :=
  let i := (c / 3)%nat in let k := i in let k' := dkq_before i in
  match (c mod 3)%nat with
  | O => Mul (Cst (3/2)) (Sub (Mul (Cst (dkq_d xl k)) (dkq_M k)) (Mul (Cst (dkq_d xl k')) (dkq_M k')))
  | S O => Add (Add (Sub (Cst 0) (dkq_N i)) (Mul (Cst (dkq_e xl k)) (dkq_M k))) (Mul (Cst (dkq_e xl k')) (dkq_M k'))
  | _ => Sub (Sub (Cst 0) (Mul (Cst (dkq_b xl k)) (dkq_M k))) (Mul (Cst (dkq_b xl k')) (dkq_M k'))
  end.
(** lines 97-102: with x12, x34 etc.; x21 = -x12, x32 = -x23 *)
Definition dkq_J (xl : list R) (xi eta : R) : mat := fun r k =>
  let d := match k with O => dkq_x xl | _ => dkq_y xl end in
  match r with
  | O => 1/4 * (- d 0%nat + d 2%nat + eta * (d 0%nat + d 2%nat))
  | _ => 1/4 * (- d 1%nat + d 3%nat + xi * (d 0%nat + d 2%nat))
  end.
(** line 104 *)
Definition dkq_detJ (xl : list R) (xi eta : R) : R :=
  let x := cx xl in let y := cy xl in
  1/8 * ((y 3%nat - y 1%nat) * (x 2%nat - x 0%nat) - (y 2%nat - y 0%nat) * (x 3%nat - x 1%nat))
  + xi/8 * ((y 2%nat - y 3%nat) * (x 1%nat - x 0%nat) - (y 1%nat - y 0%nat) * (x 2%nat - x 3%nat))
  + eta/8 * ((y 3%nat - y 0%nat) * (x 2%nat - x 1%nat) - (y 2%nat - y 1%nat) * (x 3%nat - x 0%nat)).
(** lines 105-108: j11 = J11/detJ and j22 = J22/detJ *)
Definition dkq_j (xl : list R) (xi eta : R) : mat := fun r k =>
  let J := dkq_J xl xi eta in
  match r, k with
  | O, O => J 0%nat 0%nat / dkq_detJ xl xi eta
  | O, _ => - J 0%nat 1%nat / dkq_detJ xl xi eta
  | _, O => - J 1%nat 0%nat / dkq_detJ xl xi eta
  | _, _ => J 1%nat 1%nat / dkq_detJ xl xi eta
  end.
(** lines 110-115: 3x12 *)
Definition dkq_B (xl : list R) (xi eta : R) : mat := fun r c =>
  let j := dkq_j xl xi eta in
  let xx := ev (dxi (dkq_Hx xl c)) xi eta in let xe := ev (deta (dkq_Hx xl c)) xi eta in
  let yx := ev (dxi (dkq_Hy xl c)) xi eta in let ye := ev (deta (dkq_Hy xl c)) xi eta in
  match r with
  | O => j 0%nat 0%nat * xx + j 0%nat 1%nat * xe
  | S O => j 1%nat 0%nat * yx + j 1%nat 1%nat * ye
  | _ => j 0%nat 0%nat * yx + j 0%nat 1%nat * ye + j 1%nat 0%nat * xx + j 1%nat 1%nat * xe
  end.
(** line 147 *)
Definition dkq_BDB (E mu t xi eta : R) (xl : list R) : mat := fun i j =>
  mmul 3 (mT (dkq_B xl xi eta)) (mmul 3 (plateD E mu t) (dkq_B xl xi eta)) i j * det2 (dkq_J xl xi eta).

(** ** Integration *)
(** A quadrature scheme as a list of points xi, eta with their weights; [scheme.integrate]
    of quadpy on the unit triangle or the square [-1,1]x[-1,1] is the weighted sum.  Which
    points quadpy's [get_good_scheme] holds is not modelled: schemes are parameters. *)
Definition scheme : Type := list (R * R * R).
Definition integrate (q : scheme) (f : R -> R -> mat) : mat := fun i j =>
  lsum (map (fun p => snd p * f (fst (fst p)) (snd (fst p)) i j) q).

(** element/quad/DKGQ.py:29-54, element/tria/DKT.py:28-37 with the scheme [c2] for squares and [t2] for triangles *)
Definition code_kernels (c2 t2 : scheme) : kernels := Kernels
  (fun E mu t xl => integrate c2 (fun xi eta => gq12_BDB E mu t xi eta xl))
  (fun E mu t xl => integrate c2 (fun xi eta => dkq_BDB E mu t xi eta xl))
  (fun E mu t xl => integrate t2 (fun xi eta => dkt_BDB E mu t xi eta xl)).
