(** The thick plate TMQ: the matrices the sympy script meta/plates/TMQ/__init__.py derives, and the
    shell element TMGQ that integrates them (element/quad/TMGQ.py).  No interface call makes this
    element; it can be made by its class.  As in [Kernels], printing and compiling of the C code
    are not modelled. *)
From Coq Require Import Reals List Arith.
From Verif Require Import Base Csys Sections Element Kernels.
Import ListNotations.
Local Open Scope R_scope.

(** meta/plates/TMQ/__init__.py:17-24; sides 23, 34, 41, 12 carry the numbers 1, 2, 3, 4 (here 0, 1, 2, 3) *)
Definition tm_b (xl : list R) (k : nat) : R :=
  match k with
  | 0%nat => cy xl 1 - cy xl 2
  | 1%nat => cy xl 2 - cy xl 3
  | 2%nat => cy xl 3 - cy xl 0
  | _ => cy xl 0 - cy xl 1
  end.
Definition tm_c (xl : list R) (k : nat) : R :=
  match k with
  | 0%nat => cx xl 2 - cx xl 1
  | 1%nat => cx xl 3 - cx xl 2
  | 2%nat => cx xl 0 - cx xl 3
  | _ => cx xl 1 - cx xl 0
  end.
(** lines 26-29 *)
Definition tm_d (xl : list R) (k : nat) : R :=
  match k with
  | 0%nat => sqrt ((cx xl 1 - cx xl 2)^2 + (cy xl 1 - cy xl 2)^2)
  | 1%nat => sqrt ((cx xl 2 - cx xl 3)^2 + (cy xl 2 - cy xl 3)^2)
  | 2%nat => sqrt ((cx xl 3 - cx xl 0)^2 + (cy xl 3 - cy xl 0)^2)
  | _ => sqrt ((cx xl 0 - cx xl 1)^2 + (cy xl 0 - cy xl 1)^2)
  end.
(** lines 31-34 *)
Definition tm_delta (mu t : R) (xl : list R) (k : nat) : R :=
  (t / tm_d xl k)^2 / (5/6 * (1 - mu) + 2 * (t / tm_d xl k)^2).

(** A matrix given by its rows; entries left out are zero ([syp.zeros]). *)
Definition of_rows (rows : list (list R)) : mat := fun r c => vnth (nth r rows []) c.

(** lines 37-61: 4x12 *)
Definition tm_Gamma (mu t : R) (xl : list R) : mat :=
  let b := tm_b xl in let c := tm_c xl in let dl := tm_delta mu t xl in
  of_rows
  [ [ 0; 0; 0;
      -2 * dl 0%nat; - c 0%nat * dl 0%nat; b 0%nat * dl 0%nat;
      2 * dl 0%nat; - c 0%nat * dl 0%nat; b 0%nat * dl 0%nat;
      0; 0; 0 ];
    [ 0; 0; 0; 0; 0; 0;
      -2 * dl 1%nat; - c 1%nat * dl 1%nat; b 1%nat * dl 1%nat;
      2 * dl 1%nat; - c 1%nat * dl 1%nat; b 1%nat * dl 1%nat ];
    [ 2 * dl 2%nat; - c 2%nat * dl 2%nat; b 2%nat * dl 2%nat;
      0; 0; 0; 0; 0; 0;
      -2 * dl 2%nat; - c 2%nat * dl 2%nat; b 2%nat * dl 2%nat ];
    [ -2 * dl 3%nat; - c 3%nat * dl 3%nat; b 3%nat * dl 3%nat;
      2 * dl 3%nat; - c 3%nat * dl 3%nat; b 3%nat * dl 3%nat;
      0; 0; 0; 0; 0; 0 ] ].

(** lines 63-82: 4x4, from sides to corners *)
Definition tm_Xs (xl : list R) : mat :=
  let b := tm_b xl in let c := tm_c xl in
  of_rows
  [ [ 0; 0; - b 3%nat / (b 2%nat * c 3%nat - b 3%nat * c 2%nat); b 2%nat / (b 2%nat * c 3%nat - b 3%nat * c 2%nat) ];
    [ b 3%nat / (b 3%nat * c 0%nat - b 0%nat * c 3%nat); 0; 0; - b 0%nat / (b 3%nat * c 0%nat - b 0%nat * c 3%nat) ];
    [ - b 1%nat / (b 0%nat * c 1%nat - b 1%nat * c 0%nat); b 0%nat / (b 0%nat * c 1%nat - b 1%nat * c 0%nat); 0; 0 ];
    [ 0; - b 2%nat / (b 1%nat * c 2%nat - b 2%nat * c 1%nat); b 1%nat / (b 1%nat * c 2%nat - b 2%nat * c 1%nat); 0 ] ].
Definition tm_Ys (xl : list R) : mat :=
  let b := tm_b xl in let c := tm_c xl in
  of_rows
  [ [ 0; 0; - c 3%nat / (b 2%nat * c 3%nat - b 3%nat * c 2%nat); c 2%nat / (b 2%nat * c 3%nat - b 3%nat * c 2%nat) ];
    [ c 3%nat / (b 3%nat * c 0%nat - b 0%nat * c 3%nat); 0; 0; - c 0%nat / (b 3%nat * c 0%nat - b 0%nat * c 3%nat) ];
    [ - c 1%nat / (b 0%nat * c 1%nat - b 1%nat * c 0%nat); c 0%nat / (b 0%nat * c 1%nat - b 1%nat * c 0%nat); 0; 0 ];
    [ 0; - c 2%nat / (b 1%nat * c 2%nat - b 2%nat * c 1%nat); c 1%nat / (b 1%nat * c 2%nat - b 2%nat * c 1%nat); 0 ] ].

(** lines 100-109 *)
Definition tm_N0 (i : nat) : ex :=
  match i with
  | 0%nat => Mul (Mul (Cst (1/4)) (Sub (Cst 1) Xi)) (Sub (Cst 1) Eta)
  | 1%nat => Mul (Mul (Cst (1/4)) (Add (Cst 1) Xi)) (Sub (Cst 1) Eta)
  | 2%nat => Mul (Mul (Cst (1/4)) (Add (Cst 1) Xi)) (Add (Cst 1) Eta)
  | _ => Mul (Mul (Cst (1/4)) (Sub (Cst 1) Xi)) (Add (Cst 1) Eta)
  end.
(** lines 111-112, meta/jacobi.py:14-29 [J2D(N0,X)] *)
Definition tm_J (xl : list R) (xi eta : R) : mat := fun r k =>
  rsum 4 (fun i => ev (match r with O => dxi (tm_N0 i) | _ => deta (tm_N0 i) end) xi eta
                   * match k with O => cx xl i | _ => cy xl i end).
(** lines 114-115, the factor of [syp.eye(2)] in line 116 *)
Definition tm_C (E mu t : R) : R := E / 2 / (1 + mu) * t / (6/5).
(** lines 118-120: 2x12 *)
Definition tm_Bs (mu t : R) (xl : list R) (xi eta : R) : mat := fun r c =>
  rsum 4 (fun k => rsum 4 (fun i => ev (tm_N0 i) xi eta * (match r with O => tm_Xs xl | _ => tm_Ys xl end) i k)
                   * tm_Gamma mu t xl k c).
(** line 121 *)
Definition tm_BCBs (E mu t xi eta : R) (xl : list R) : mat := fun i j =>
  let B := tm_Bs mu t xl xi eta in
  rsum 2 (fun r => B r i * tm_C E mu t * B r j) * det2 (tm_J xl xi eta).

(** The entries of lines 124-150 for a side: of the deflections, and of the two slopes.
    The script writes the same three formulas out for every side. *)
Definition tm_aw (mu t : R) (xl : list R) (k : nat) : R :=
  3 * tm_c xl k / 2 / tm_d xl k ^ 2 * (1 - 2 * tm_delta mu t xl k).
Definition tm_ax (mu t : R) (xl : list R) (k : nat) : R :=
  (tm_b xl k ^ 2 - tm_c xl k ^ 2 / 2 * (1 - 6 * tm_delta mu t xl k)) / 2 / tm_d xl k ^ 2.
Definition tm_ay (mu t : R) (xl : list R) (k : nat) : R :=
  3 * tm_b xl k * tm_c xl k / 4 / tm_d xl k ^ 2 * (1 - 2 * tm_delta mu t xl k).
(** lines 124-150: 4x12 *)
Definition tm_alpha (mu t : R) (xl : list R) : mat :=
  let w := tm_aw mu t xl in let x := tm_ax mu t xl in let y := tm_ay mu t xl in
  of_rows
  [ [ 0; 0; 0; - w 0%nat; x 0%nat; y 0%nat; w 0%nat; x 0%nat; y 0%nat; 0; 0; 0 ];
    [ 0; 0; 0; 0; 0; 0; - w 1%nat; x 1%nat; y 1%nat; w 1%nat; x 1%nat; y 1%nat ];
    [ w 2%nat; x 2%nat; y 2%nat; 0; 0; 0; 0; 0; 0; - w 2%nat; x 2%nat; y 2%nat ];
    [ - w 3%nat; x 3%nat; y 3%nat; w 3%nat; x 3%nat; y 3%nat; 0; 0; 0; 0; 0; 0 ] ].
(** The same for lines 152-178. *)
Definition tm_bw (mu t : R) (xl : list R) (k : nat) : R :=
  3 * tm_b xl k / 2 / tm_d xl k ^ 2 * (1 - 2 * tm_delta mu t xl k).
Definition tm_by (mu t : R) (xl : list R) (k : nat) : R :=
  (tm_c xl k ^ 2 - tm_b xl k ^ 2 / 2 * (1 - 6 * tm_delta mu t xl k)) / 2 / tm_d xl k ^ 2.
(** lines 152-178: 4x12; the entries of the slope in x are those of [tm_ay] *)
Definition tm_beta (mu t : R) (xl : list R) : mat :=
  let w := tm_bw mu t xl in let x := tm_ay mu t xl in let y := tm_by mu t xl in
  of_rows
  [ [ 0; 0; 0; w 0%nat; x 0%nat; y 0%nat; - w 0%nat; x 0%nat; y 0%nat; 0; 0; 0 ];
    [ 0; 0; 0; 0; 0; 0; w 1%nat; x 1%nat; y 1%nat; - w 1%nat; x 1%nat; y 1%nat ];
    [ - w 2%nat; x 2%nat; y 2%nat; 0; 0; 0; 0; 0; 0; w 2%nat; x 2%nat; y 2%nat ];
    [ w 3%nat; x 3%nat; y 3%nat; - w 3%nat; x 3%nat; y 3%nat; 0; 0; 0; 0; 0; 0 ] ].

(** lines 180-183 N1..N4 *)
Definition tm_N (i : nat) : ex :=
  match i with
  | 0%nat => Mul (Mul (Mul (Cst (-1/4)) (Sub one Xi)) (Sub one Eta)) (Add (Add one Xi) Eta)
  | 1%nat => Mul (Mul (Mul (Cst (-1/4)) (Add one Xi)) (Sub one Eta)) (Add (Sub one Xi) Eta)
  | 2%nat => Mul (Mul (Mul (Cst (-1/4)) (Add one Xi)) (Add one Eta)) (Sub (Sub one Xi) Eta)
  | _ => Mul (Mul (Mul (Cst (-1/4)) (Sub one Xi)) (Add one Eta)) (Sub (Add one Xi) Eta)
  end.
(** lines 184-187 N5..N8 *)
Definition tm_M (k : nat) : ex :=
  match k with
  | 0%nat => Mul (Mul (Cst (1/2)) (Sub one (Mul Eta Eta))) (Add one Xi)
  | 1%nat => Mul (Mul (Cst (1/2)) (Sub one (Mul Xi Xi))) (Add one Eta)
  | 2%nat => Mul (Mul (Cst (1/2)) (Sub one (Mul Eta Eta))) (Sub one Xi)
  | _ => Mul (Mul (Cst (1/2)) (Sub one (Mul Xi Xi))) (Sub one Eta)
  end.
(** lines 210-213, [inv_quick(J)] is the inverse of the 2x2 matrix J *)
Definition tm_ddx (xl : list R) (xi eta : R) (f : ex) : R :=
  let J := tm_J xl xi eta in
  (J 1%nat 1%nat * ev (dxi f) xi eta - J 0%nat 1%nat * ev (deta f) xi eta) / det2 J.
Definition tm_ddy (xl : list R) (xi eta : R) (f : ex) : R :=
  let J := tm_J xl xi eta in
  (- J 1%nat 0%nat * ev (dxi f) xi eta + J 0%nat 0%nat * ev (deta f) xi eta) / det2 J.
(** lines 205-217, 245-250: 3x12; [N] is the unit matrix times N1..N4 *)
Definition tm_Nrow (r c : nat) : ex := if Nat.eqb (c mod 3) r then tm_N (c / 3) else Cst 0.
Definition tm_H0 (xl : list R) (xi eta : R) : mat := fun r c =>
  match r with
  | O => tm_ddx xl xi eta (tm_Nrow 1 c)
  | S O => tm_ddy xl xi eta (tm_Nrow 2 c)
  | _ => tm_ddy xl xi eta (tm_Nrow 1 c) + tm_ddx xl xi eta (tm_Nrow 2 c)
  end.
(** lines 219-243, 252-258: 3x4 *)
Definition tm_H1 (xl : list R) (xi eta : R) : mat := fun r k =>
  match r with O => tm_ddx xl xi eta (tm_M k) | S O => 0 | _ => tm_ddy xl xi eta (tm_M k) end.
Definition tm_H2 (xl : list R) (xi eta : R) : mat := fun r k =>
  match r with O => 0 | S O => tm_ddy xl xi eta (tm_M k) | _ => tm_ddx xl xi eta (tm_M k) end.
(** line 266: 3x12 *)
Definition tm_Bb (mu t : R) (xl : list R) (xi eta : R) : mat := fun r c =>
  - (tm_H0 xl xi eta r c + mmul 4 (tm_H1 xl xi eta) (tm_alpha mu t xl) r c
     + mmul 4 (tm_H2 xl xi eta) (tm_beta mu t xl) r c).
(** lines 260-264 D is [plateD]; line 268 *)
Definition tm_BDBb (E mu t xi eta : R) (xl : list R) : mat := fun i j =>
  mmul 3 (mT (tm_Bb mu t xl xi eta)) (mmul 3 (plateD E mu t) (tm_Bb mu t xl xi eta)) i j * det2 (tm_J xl xi eta).

(** element/quad/TMGQ.py:44-65, element/quad/TMQ.py:16-54: bending and shear with the same scheme *)
Definition tmq_K (c2 : scheme) (E mu t : R) (xl : list R) : mat := fun i j =>
  integrate c2 (fun xi eta => tm_BCBs E mu t xi eta xl) i j + integrate c2 (fun xi eta => tm_BDBb E mu t xi eta xl) i j.
(** element/quad/TMGQ.py:15-75 differs from element/quad/DKGQ.py:15-64 in the kernel of the plate only. *)
Definition tmgq_kernels (c2 t2 : scheme) : kernels :=
  Kernels (k_gq12 (code_kernels c2 t2)) (tmq_K c2) (k_dkt (code_kernels c2 t2)).
Definition tmgq_K (c2 t2 : scheme) (s : shell) : mat := shell_K (tmgq_kernels c2 t2) s.
