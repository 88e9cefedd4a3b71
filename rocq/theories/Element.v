(** Model of /repo/hyperstatic/core/fe_model/node.py and
    /repo/hyperstatic/core/fe_model/element/{__init__,line/__init__,line/beam,
    line/simple_beam,tria/__init__,tria/DKT,quad/__init__,quad/DKGQ}.py. *)
From Coq Require Import Reals Lra List String Arith Bool.
From Verif Require Import Base Csys Sections.
Import ListNotations.
Local Open Scope R_scope.

(** ** Nodes *)

(** node.py:8-14; [n_csys] holds the origin (= location) and the axes. *)
Record node : Type := Node { n_name : string; n_csys : csys; n_mass : list R }.

Definition mk_node (name : string) (x y z : R) : option node :=
  match cartesian (V3 x y z) (V3 (x+1) y z) (V3 x (y+1) z) with
  | None => None
  | Some c => Some (Node name c [0;0;0;0;0;0])
  end.

(** node.py:32-34 *)
Definition n_loc (n : node) : vec3 := cs_O (n_csys n).
(** node.py:56-58 *)
Definition set_mass (m : list R) (n : node) : node := Node (n_name n) (n_csys n) m.

(** [T[:3,:3]=T[3:6,3:6]=...=V]: block-diagonal matrix with 3x3 blocks [V]
    (node.py:67-70, line/__init__.py:38-41, DKT.py:58-62, DKGQ.py:66-70). *)
Definition blockdiag (V : mat) : mat :=
  fun i j => if Nat.eqb (i / 3) (j / 3) then V (i mod 3)%nat (j mod 3)%nat else 0.

(** node.py:60-70 *)
Definition node_T (n : node) : mat := blockdiag (cs_T (n_csys n)).
(** node.py:84-85 *)
Definition node_M (n : node) : mat := fun i j => if Nat.eqb i j then vnth (n_mass n) i else 0.

(** ** Line elements *)

(** line/__init__.py:11-20 [Line.__init__]; [None] when the coordinate system
    cannot be built. *)
Definition line_csys (s e : vec3) : option csys :=
  let o := vdiv (vadd s e) 2 in
  let d := vsub s e in
  let pt2 := if Rltb (Rmax (Rabs (vx d)) (Rabs (vy d))) abs_tol
             then vadd o (V3 1 0 0) else vadd o (V3 0 0 1) in
  cartesian o e pt2.

(** Data of a line element: section of a [Beam] (line/beam.py:13-19) or the
    constants of a [SimpleBeam] (line/simple_beam.py:24-35). *)
Inductive bprop : Type :=
| PSection (s : bsection)
| PSimple (E mu A I2 I3 J rho : R).

(** The end nodes are kept by value: of a node object only the mass can change
    after creation, and elements never read it. Simplification: [__rotation] and
    [__offset] are never read by the core. *)
Record beam : Type := Beam {
  b_name : string; b_ni : node; b_nj : node; b_csys : csys;
  b_rel : list bool; b_prop : bprop }.

Definition no_releases : list bool := repeat false 12.

Definition mk_beam (name : string) (ni nj : node) (p : bprop) : option beam :=
  match line_csys (n_loc ni) (n_loc nj) with
  | None => None
  | Some c => Some (Beam name ni nj c no_releases p)
  end.

(** line/__init__.py:31-34 *)
Definition b_length (b : beam) : R := norm (vsub (n_loc (b_ni b)) (n_loc (b_nj b))).
(** line/__init__.py:37-41 *)
Definition beam_T (b : beam) : mat := blockdiag (cs_T (b_csys b)).

(** beam.py:39-45 / simple_beam.py:57-64: the constants used by [integrate_K] *)
Definition bp_E (p : bprop) := match p with PSection s => m_E (s_mat s) | PSimple E _ _ _ _ _ _ => E end.
Definition bp_mu (p : bprop) := match p with PSection s => m_mu (s_mat s) | PSimple _ mu _ _ _ _ _ => mu end.
Definition bp_G (p : bprop) :=
  match p with PSection s => mat_G (s_mat s) | PSimple E mu _ _ _ _ _ => E / 2 / (1 + mu) end.
Definition bp_A (p : bprop) := match p with PSection s => s_A s | PSimple _ _ A _ _ _ _ => A end.
Definition bp_I2 (p : bprop) := match p with PSection s => s_I22 s | PSimple _ _ _ I2 _ _ _ => I2 end.
Definition bp_I3 (p : bprop) := match p with PSection s => s_I33 s | PSimple _ _ _ _ I3 _ _ => I3 end.
Definition bp_J (p : bprop) := match p with PSection s => s_J s | PSimple _ _ _ _ _ J _ => J end.
Definition bp_rho (p : bprop) := match p with PSection s => m_rho (s_mat s) | PSimple _ _ _ _ _ _ rho => rho end.

(** one triplet (row, column, value) *)
Notation tri r c v := (r%nat, c%nat, v%R) (only parsing).

(** beam.py:47-99: the triplets of the 12x12 local stiffness matrix of [Beam]. *)
Definition beam_K_data (E G A I2 I3 J l : R) : coo :=
  [ (tri 0 0 (E*A / l)); (tri 0 6 (-E*A / l)); (tri 6 0 (-E*A / l));
    (tri 1 1 (12 * E*I3 / l / l / l));
    (tri 1 5 (6 * E*I3 / l / l)); (tri 5 1 (6 * E*I3 / l / l));
    (tri 1 7 (-12 * E*I3 / l / l / l)); (tri 7 1 (-12 * E*I3 / l / l / l));
    (tri 1 11 (6 * E*I3 / l / l)); (tri 11 1 (6 * E*I3 / l / l));
    (tri 2 2 (12 * E*I2 / l / l / l));
    (tri 2 4 (-6 * E*I2 / l / l)); (tri 4 2 (-6 * E*I2 / l / l));
    (tri 2 8 (-12 * E*I2 / l / l / l)); (tri 8 2 (-12 * E*I2 / l / l / l));
    (tri 2 10 (-6 * E*I2 / l / l)); (tri 10 2 (-6 * E*I2 / l / l));
    (tri 3 3 (G*J / l)); (tri 3 9 (-G*J / l)); (tri 9 3 (-G*J / l));
    (tri 4 4 (4 * E*I2 / l));
    (tri 4 8 (6 * E*I2 / l / l)); (tri 8 4 (6 * E*I2 / l / l));
    (tri 4 10 (2 * E*I2 / l)); (tri 10 4 (2 * E*I2 / l));
    (tri 5 5 (4 * E*I3 / l));
    (tri 5 7 (-6 * E*I3 / l / l)); (tri 7 5 (-6 * E*I3 / l / l));
    (tri 5 11 (2 * E*I3 / l)); (tri 11 5 (2 * E*I3 / l));
    (tri 6 6 (E*A / l));
    (tri 7 7 (12 * E*I3 / l / l / l));
    (tri 7 11 (-6 * E*I3 / l / l)); (tri 11 7 (-6 * E*I3 / l / l));
    (tri 8 8 (12 * E*I2 / l / l / l));
    (tri 8 10 (6 * E*I2 / l / l)); (tri 10 8 (6 * E*I2 / l / l));
    (tri 9 9 (G*J / l));
    (tri 10 10 (4 * E*I2 / l));
    (tri 11 11 (4 * E*I3 / l)) ].

(** simple_beam.py:67-119: the triplets of the local stiffness matrix of [SimpleBeam]. *)
Definition simple_K_data (E G A I2 I3 J l : R) : coo :=
  [ (tri 0 0 (E*A / l)); (tri 0 6 (-E*A / l)); (tri 6 0 (-E*A / l));
    (tri 1 1 (12 * E*I3 / l / l / l));
    (tri 1 5 (6 * E*I3 / l / l)); (tri 5 1 (6 * E*I3 / l / l));
    (tri 1 7 (-12 * E*I3 / l / l / l)); (tri 7 1 (-12 * E*I3 / l / l / l));
    (tri 1 11 (6 * E*I3 / l / l)); (tri 11 1 (6 * E*I3 / l / l));
    (tri 2 2 (12 * E*I2 / l / l / l));
    (tri 2 4 (-6 * E*I2 / l / l)); (tri 4 2 (-6 * E*I2 / l / l));
    (tri 2 8 (-12 * E*I2 / l / l / l)); (tri 8 2 (-12 * E*I2 / l / l / l));
    (tri 2 10 (-6 * E*I2 / l / l)); (tri 10 2 (-6 * E*I2 / l / l));
    (tri 3 3 (G*J / l)); (tri 3 9 (-G*J / l)); (tri 9 3 (-G*J / l));
    (tri 4 4 (4 * E*I2 / l));
    (tri 4 8 (6 * E*I2 / l / l)); (tri 8 4 (6 * E*I2 / l / l));
    (tri 4 10 (2 * E*I2 / l)); (tri 10 4 (2 * E*I2 / l));
    (tri 5 5 (4 * E*I3 / l));
    (tri 5 7 (-6 * E*I3 / l / l)); (tri 7 5 (-6 * E*I3 / l / l));
    (tri 5 11 (2 * E*I3 / l)); (tri 11 5 (2 * E*I3 / l));
    (tri 6 6 (E*A / l));
    (tri 7 7 (12 * E*I3 / l / l / l));
    (tri 7 11 (-6 * E*I3 / l / l)); (tri 11 7 (-6 * E*I3 / l / l));
    (tri 8 8 (12 * E*I2 / l / l / l));
    (tri 8 10 (6 * E*I2 / l / l)); (tri 10 8 (6 * E*I2 / l / l));
    (tri 9 9 (G*J / l));
    (tri 10 10 (4 * E*I2 / l));
    (tri 11 11 (4 * E*I3 / l)) ].

(** [csr_matrix((data,(row,col)))] *)
Definition beam_K_mat (E G A I2 I3 J l : R) : mat := coo_get (beam_K_data E G A I2 I3 J l).
Definition simple_K_mat (E G A I2 I3 J l : R) : mat := coo_get (simple_K_data E G A I2 I3 J l).

(** beam.py:38-105, simple_beam.py:54-125 [integrate_K]; mu = -1 is a
    ZeroDivisionError in G.  The length is never 0 for an element that could be
    built. *)
Definition beam_K (b : beam) : option mat :=
  let p := b_prop b in
  if Reqb (1 + bp_mu p) 0 then None
  else Some ((match p with PSection _ => beam_K_mat | PSimple _ _ _ _ _ _ _ => simple_K_mat end)
               (bp_E p) (bp_G p) (bp_A p) (bp_I2 p) (bp_I3 p) (bp_J p) (b_length b)).

(** beam.py:155-159 [Beam] lumped mass matrix (the default, the only one used by
    [assemble_M]). *)
Definition is_rot (i : nat) : bool := existsb (Nat.eqb i) [3;4;5;9;10;11]%nat.
Definition lumped_M (rho A l : R) : mat :=
  fun i j => if Nat.eqb i j then (if is_rot i then 1 / 1000000000000 else rho*A*l/2) else 0.
(** simple_beam.py:176-180 [SimpleBeam] lumped mass matrix. *)
Definition simple_lumped_M (rho A l : R) : mat :=
  fun i j => if Nat.eqb i j then (if is_rot i then 1 / 1000000000000 else rho*A*l/2) else 0.
Definition beam_M (b : beam) : mat :=
  (match b_prop b with PSection _ => lumped_M | PSimple _ _ _ _ _ _ _ => simple_lumped_M end)
    (bp_rho (b_prop b)) (bp_A (b_prop b)) (b_length b).

(** beam.py:113-152, simple_beam.py:134-173: consistent mass matrix.  The
    assignments to distinct positions are listed as triplets; each is then
    multiplied by rho*A*l/420. *)
Definition consistent_M_data (A J l : R) : coo :=
  [ (tri 0 0 (140)); (tri 0 6 (70));
    (tri 1 1 (156)); (tri 1 5 (22*l)); (tri 5 1 (22*l)); (tri 1 7 (54)); (tri 7 1 (54)); (tri 1 11 (-13*l)); (tri 11 1 (-13*l));
    (tri 2 2 (156)); (tri 2 4 (-22*l)); (tri 4 2 (-22*l)); (tri 2 8 (54)); (tri 8 2 (54)); (tri 2 10 (13*l)); (tri 10 2 (13*l));
    (tri 3 3 (140*J/A)); (tri 3 9 (70*J/A)); (tri 9 3 (70*J/A));
    (tri 4 4 (4*l*l)); (tri 4 8 (-13*l)); (tri 8 4 (-13*l)); (tri 4 10 (-3*l*l)); (tri 10 4 (-3*l*l));
    (tri 5 5 (4*l*l)); (tri 5 7 (13*l)); (tri 7 5 (13*l)); (tri 5 11 (-3*l*l)); (tri 11 5 (-3*l*l));
    (tri 6 6 (140)); (tri 7 7 (156)); (tri 7 11 (-22*l)); (tri 11 7 (-22*l));
    (tri 8 8 (156)); (tri 8 10 (22*l)); (tri 10 8 (22*l)); (tri 9 9 (140*J/A)); (tri 10 10 (4*l*l)); (tri 11 11 (4*l*l)) ].
Definition consistent_M (rho A J l : R) : mat :=
  fun i j => coo_get (consistent_M_data A J l) i j * (rho*A*l / 420).

(** beam.py:175-185, simple_beam.py:194-204 [interpolate] (textually identical) *)
Definition interpolate (l xi : R) : list R :=
  let Na1 := 1/2*(1-xi) in
  let Na2 := 1/2*(1+xi) in
  let Nb1 := 1-3*xi^2+2*xi^3 in
  let Nb2 := (xi-2*xi^2+xi^3)*l in
  let Nb3 := 3*xi^2-2*xi^3 in
  let Nb4 := (xi^3-xi^2)*l in
  let Nt1 := 1/2*(1-xi) in
  let Nt2 := 1/2*(1+xi) in
  [Na1;Na2;Nb1;Nb2;Nb3;Nb4;-Nb1;Nb2;-Nb3;Nb4;Nt1;Nt2].

(** beam.py:187-197, simple_beam.py:206-216 [interpolate1] *)
Definition interpolate1 (l xi : R) : list R :=
  let Na1 := -(1/2) in
  let Na2 := 1/2 in
  let Nb1 := -6*xi+6*xi^2 in
  let Nb2 := (1-4*xi+3*xi^2)*l in
  let Nb3 := 6*xi-6*xi^2 in
  let Nb4 := (3*xi^2-2*xi)*l in
  let Nt1 := -(1/2)*xi in
  let Nt2 := 1/2*xi in
  map (fun v => v * (1/l)) [Na1;Na2;Nb1;Nb2;Nb3;Nb4;-Nb1;Nb2;-Nb3;Nb4;Nt1;Nt2].

(** beam.py:199-205, simple_beam.py:218-224 [static_condensate]: every released n
    computes k_ afresh from the original k, so only the last one survives.  A zero
    pivot divides by zero; the sparse quotient is then inf/nan, in Coq an
    unspecified real: theorems about released beams assume a non-zero pivot. *)
Definition condensate (rel : list bool) (k : mat) : mat :=
  fold_left (fun k_ n => if nth n rel false
                         then (fun i j => k i j - k i n * k n j / k n n) else k_)
            (seq 0 12) k.

(** beam.py:207-214, simple_beam.py:226-233 [static_condensate_f] *)
Definition condensate_f (rel : list bool) (r : list R) (k : mat) : list R :=
  fold_left (fun r_ n => if nth n rel false
                         then map (fun i => nth i r 0 - nth n r 0 * k n i / k n n) (seq 0 12) else r_)
            (seq 0 12) r.

(** ** Shell elements *)

(** quad/__init__.py:9-34 and tria/__init__.py:9-26.  Nodes by value as above. *)
Record shell : Type := Shell {
  sh_name : string; sh_nodes : list node; sh_sec : ssection; sh_csys : csys; sh_area : R }.

Definition det3 (a b c : vec3) : R := dot3 a (cross b c).
Definition ones : vec3 := V3 1 1 1.

(** tria/__init__.py:14-17, quad/__init__.py:11-14 (shown without the leading blank
    line): unit normal of the plane through the first three nodes. A zero normal
    (three points in a line) gives NaN axes in python, which the constructor accepts. *)
Definition shell_normal (pi pj pk : vec3) : vec3 :=
  let n := cross (vsub pi pj) (vsub pj pk) in vdiv n (norm n).

(** tria/__init__.py:11-22: only +z is treated specially, -z reaches
    [create_by_normal] with a parallel guide. *)
Definition tria_csys (pi pj pk : vec3) : option csys :=
  let o := V3 ((vx pi + vx pj + vx pk)/3) ((vy pi + vy pj + vy pk)/3) ((vz pi + vz pj + vz pk)/3) in
  let n := shell_normal pi pj pk in
  if Rltb (norm (vsub n (V3 0 0 1))) abs_tol
  then create_by_normal o n (V3 0 1 0)
  else create_by_normal o n (V3 0 0 1).

(** tria/__init__.py:24-26 *)
Definition tria_area (pi pj pk : vec3) : R :=
  1/2 * det3 ones (vsub pj pi) (vsub pk pi).

(** quad/__init__.py:10-19 *)
Definition quad_csys (pi pj pk pl : vec3) : option csys :=
  let o := vdiv (vadd (vadd (vadd pi pj) pk) pl) 4 in
  let n := shell_normal pi pj pk in
  if (Rltb (norm (vsub n (V3 0 0 1))) abs_tol || Rltb (norm (vadd n (V3 0 0 1))) abs_tol)%bool
  then create_by_normal o n (V3 0 1 0)
  else create_by_normal o n (V3 0 0 1).

(** quad/__init__.py:22-34 *)
Definition quad_area (pi pj pk pl : vec3) : R :=
  (1/2 * det3 ones (vsub pj pi) (vsub pk pi)
   + 1/2 * det3 ones (vsub pl pi) (vsub pk pi)
   + 1/2 * det3 ones (vsub pl pi) (vsub pj pi)
   + 1/2 * det3 ones (vsub pl pi) (vsub pj pi)) / 4.

Definition mk_tria (name : string) (sec : ssection) (ni nj nk : node) : option shell :=
  match tria_csys (n_loc ni) (n_loc nj) (n_loc nk) with
  | None => None
  | Some c => Some (Shell name [ni;nj;nk] sec c (tria_area (n_loc ni) (n_loc nj) (n_loc nk)))
  end.

Definition mk_quad (name : string) (sec : ssection) (ni nj nk nl : node) : option shell :=
  match quad_csys (n_loc ni) (n_loc nj) (n_loc nk) (n_loc nl) with
  | None => None
  | Some c => Some (Shell name [ni;nj;nk;nl] sec c
                      (quad_area (n_loc ni) (n_loc nj) (n_loc nk) (n_loc nl)))
  end.

(** DKT.py:58-62, DKGQ.py:66-70 *)
Definition shell_T (s : shell) : mat := blockdiag (cs_T (sh_csys s)).

(** [X.dot(V.T)[:,:2]]: local in-plane coordinates, flattened (DKT.py:19-24,
    DKGQ.py:15-22; the latter subtracts the origin first). *)
Definition local_xy (V : csys) (p : vec3) : list R := [dot3 p (cs_x V); dot3 p (cs_y V)].

(** Compiled kernels (metaGQ12, metaDKQ, metaDKT integrated over the element): taken
    as arbitrary functions of (E, mu, t, coordinates). *)
Record kernels : Type := Kernels {
  k_gq12 : R -> R -> R -> list R -> mat;   (* DKGQ.py:29-41: 12x12 membrane matrix *)
  k_dkq : R -> R -> R -> list R -> mat;    (* DKGQ.py:43-54: 12x12 plate matrix *)
  k_dkt : R -> R -> R -> list R -> mat }.  (* DKT.py:28-37: 9x9, before the factor 2*area *)

(** meta/membranes/T9/__init__.py:12-41 (and the generated metaT9 C code, which
    agrees): the strain matrix of the triangle.  [b] is used for both derivatives in
    line 31, so rows 0 and 1 coincide up to the column shift; [c] (line 27) is never
    used.  xl = [x1;y1;x2;y2;x3;y3]. *)
Definition t9_area (xl : list R) : R :=
  let x i := vnth xl (2*i)%nat in let y i := vnth xl (2*i+1)%nat in
  ((x 1%nat * y 2%nat - x 2%nat * y 1%nat) - (x 0%nat * y 2%nat - x 2%nat * y 0%nat)
   + (x 0%nat * y 1%nat - x 1%nat * y 0%nat)) / 2.
Definition t9_b (xl : list R) (i : nat) : R :=
  let y i := vnth xl (2*i+1)%nat in
  match i with O => y 1%nat - y 2%nat | S O => y 2%nat - y 0%nat | _ => y 0%nat - y 1%nat end.
(** B = L2 N, a 3x6 matrix: rows d/dxi of u, d/deta of v, d/deta u + d/dxi v. *)
Definition t9_B (xl : list R) : mat := fun r c =>
  let g := 1/2/t9_area xl * t9_b xl (c / 2)%nat in
  match r, (c mod 2)%nat with
  | O, O => g | O, _ => 0
  | S O, O => 0 | S O, _ => g
  | _, _ => g
  end.
(** T9/__init__.py:33-38 plane-stress matrix *)
Definition planeD (E mu : R) : mat := fun r c =>
  match r, c with
  | O, O => 1 * (E/(1-mu^2)) | S O, S O => 1 * (E/(1-mu^2)) | S (S O), S (S O) => (1-mu)/2 * (E/(1-mu^2))
  | O, S O => mu * (E/(1-mu^2)) | S O, O => mu * (E/(1-mu^2)) | _, _ => 0
  end.
Definition t9_BDB (E mu : R) (xl : list R) : mat :=
  mmul 3 (mT (t9_B xl)) (mmul 3 (planeD E mu) (t9_B xl)).

(** numpy slice assignment K[r0:r0+h, c0:c0+w] = M[mr:mr+h, mc:mc+w] *)
Definition assign (r0 h c0 w : nat) (M : mat) (mr mc : nat) (K : mat) : mat := fun r c =>
  if (Nat.leb r0 r && Nat.ltb r (r0 + h) && Nat.leb c0 c && Nat.ltb c (c0 + w))%bool
  then M (mr + (r - r0))%nat (mc + (c - c0))%nat else K r c.
Definition pairs (n : nat) : list (nat * nat) := list_prod (seq 0 n) (seq 0 n).

Definition zero_mat : mat := fun _ _ => 0.

(** DKT.py:40-45: the loops placing the plate (3 dofs per node, at 2..4) and membrane
    (2 dofs per node, at 0..1) blocks, assignment by assignment. *)
Definition place_tria (Km Kp : mat) : mat :=
  fold_left (fun K ij => let i := fst ij in let j := snd ij in
    assign (i*6) 2 (j*6) 2 Km (i*2) (j*2)
   (assign (i*6+2) 3 (j*6+2) 3 Kp (i*3) (j*3) K)) (pairs 3) zero_mat.

(** DKGQ.py:56-63: plate block at 2..4, membrane block at 0, 1 and 5. *)
Definition place_quad (Km Kp : mat) : mat :=
  fold_left (fun K ij => let i := fst ij in let j := snd ij in
    assign (i*6+5) 1 (j*6+5) 1 Km (i*3+2) (j*3+2)
   (assign (i*6) 2 (j*6+5) 1 Km (i*3) (j*3+2)
   (assign (i*6+5) 1 (j*6) 2 Km (i*3+2) (j*3)
   (assign (i*6) 2 (j*6) 2 Km (i*3) (j*3)
   (assign (i*6+2) 3 (j*6+2) 3 Kp (i*3) (j*3) K))))) (pairs 4) zero_mat.

(** DKGQ.py:14-64 [integrate_K] (24x24) *)
Definition quad_K (ker : kernels) (s : shell) : mat :=
  let E := m_E (ss_mat (sh_sec s)) in
  let mu := m_mu (ss_mat (sh_sec s)) in
  let t := ss_t (sh_sec s) in
  let xl := flat_map (fun n => local_xy (sh_csys s) (vsub (n_loc n) (cs_O (sh_csys s)))) (sh_nodes s) in
  let ty := ss_type (sh_sec s) in
  let Km := if (String.eqb ty "membrane" || String.eqb ty "shell")%bool
            then k_gq12 ker E mu t xl else zero_mat in
  let Kp := if (String.eqb ty "plate" || String.eqb ty "shell")%bool
            then k_dkq ker E mu t xl else zero_mat in
  place_quad Km Kp.

(** DKT.py:17-55 [integrate_K] (18x18); [ele_type] is ignored. *)
Definition tria_K (ker : kernels) (s : shell) : mat :=
  let E := m_E (ss_mat (sh_sec s)) in
  let mu := m_mu (ss_mat (sh_sec s)) in
  let t := ss_t (sh_sec s) in
  let xl := flat_map (fun n => local_xy (sh_csys s) (n_loc n)) (sh_nodes s) in
  let Kp := fun i j => 2 * sh_area s * k_dkt ker E mu t xl i j in
  let Km := fun i j => 2 * t * sh_area s * t9_BDB E mu xl i j in
  place_tria Km Kp.

(** model.py:327-329 dispatches on the class of the element: quads have 4 nodes. *)
Definition shell_K (ker : kernels) (s : shell) : mat :=
  if Nat.eqb (List.length (sh_nodes s)) 4 then quad_K ker s else tria_K ker s.
