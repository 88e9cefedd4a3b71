(** Vocabulary for the statements about the assembled system. *)
From Coq Require Import Reals List String Arith Bool.
From Verif Require Import Base Csys Sections Element Load FeModel Assembly Solver Post Api SpecApi SpecGeom SpecBeam SpecShell SpecKernel.
Import ListNotations.
Local Open Scope R_scope.

(** ** Member axes from the end points: x from start to end, y upwards (global Z; for
    vertical members global X), z completing the triple. *)
Definition unit3 (v : vec3) : vec3 := vscale (/ sqrt (vx v ^ 2 + vy v ^ 2 + vz v ^ 2)) v.
Definition up_for (p q : vec3) : vec3 :=
  if Rlt_dec (plan_offset p q) (1 / 1000000000) then V3 1 0 0 else V3 0 0 1.
Definition axis_x (p q : vec3) : vec3 := unit3 (vsub q p).
Definition axis_z (p q : vec3) : vec3 := unit3 (cross (axis_x p q) (up_for p q)).
Definition axis_y (p q : vec3) : vec3 := cross (axis_z p q) (axis_x p q).

(** ** Elements of a model *)
(** The number of a node, 0 if there is none. *)
Definition num (m : fem) (k : string) : nat := match dget k (f_hnode m) with Some i => i | None => O end.
Definition beam_ends (m : fem) (b : beam) (x : nat -> R) : ends :=
  ends_at x (num m (n_name (b_ni b))) (num m (n_name (b_nj b))).
(** Stiffness constants of a beam: modulus times area etc.; G = E / (2 (1 + mu)). *)
Definition props (p : bprop) : stiff :=
  match p with
  | PSection s => Stiff (m_E (s_mat s) * s_A s) (m_E (s_mat s) / (2 * (1 + m_mu (s_mat s))) * s_J s)
                        (m_E (s_mat s) * s_I22 s) (m_E (s_mat s) * s_I33 s)
  | PSimple E mu A I2 I3 J _ => Stiff (E * A) (E / (2 * (1 + mu)) * J) (E * I2) (E * I3)
  end.
(** Work of the forces of a beam deformed by [x] on the displacements [y]. *)
Definition beam_work (m : fem) (x y : nat -> R) (b : beam) : R :=
  let p := n_loc (b_ni b) in let q := n_loc (b_nj b) in
  member_work (props (b_prop b)) (distance p q)
    (ends_along (axis_x p q) (axis_y p q) (axis_z p q) (beam_ends m b x))
    (ends_along (axis_x p q) (axis_y p q) (axis_z p q) (beam_ends m b y)).

(** Components of the nodal values of a shell in its axes, six per node. *)
Definition axis_of (c : csys) (i : nat) : vec3 := match i with O => cs_x c | S O => cs_y c | _ => cs_z c end.
Definition shell_values (m : fem) (s : shell) (x : nat -> R) (r : nat) : R :=
  let k := match nth_error (sh_nodes s) (r / 6) with Some n => num m (n_name n) | None => O end in
  let a := (r mod 6)%nat in
  if Nat.ltb a 3 then dot3 (axis_of (sh_csys s) a) (disp_at x k)
  else dot3 (axis_of (sh_csys s) (a - 3)) (rot_at x k).
Definition shell_work (ker : kernels) (m : fem) (x y : nat -> R) (s : shell) : R :=
  let n := (6 * List.length (sh_nodes s))%nat in
  rsum n (fun r => rsum n (fun c => shell_values m s x r * shell_K ker s r c * shell_values m s y c)).

(** Node number [i] is an end of the beam / a corner of the shell. *)
Definition beam_at (m : fem) (i : nat) (b : beam) : bool :=
  (Nat.eqb i (num m (n_name (b_ni b))) || Nat.eqb i (num m (n_name (b_nj b))))%bool.
Definition shell_at (m : fem) (i : nat) (s : shell) : bool :=
  existsb (fun n => Nat.eqb i (num m (n_name n))) (sh_nodes s).

(** ** The assembled matrices of a state *)
Definition stiffness (ext : externals) (w : world) : option coo :=
  bindO (read_asb w) (fun a => assemble_K (x_ker ext) a).
Definition mass_matrix (w : world) : option coo := bindO (read_asb w) (fun a => assemble_M a None).
Definition assembled_model (w : world) : option fem := option_map a_model (read_asb w).
Definition size (m : fem) : nat := (6 * List.length (f_nodes m))%nat.
(** x' K y and (K y) at one equation *)
Definition form (n : nat) (K : coo) (x y : nat -> R) : R :=
  rsum n (fun p => x p * rsum n (fun q => coo_get K p q * y q)).
Definition row (n : nat) (K : coo) (y : nat -> R) (q : nat) : R := rsum n (fun p => coo_get K q p * y p).
(** unit displacement of one equation *)
Definition unit_at (q : nat) : nat -> R := fun i => if Nat.eqb i q then 1 else 0.

(** Compiled shell kernels return symmetric / positive semidefinite matrices. *)
Definition symmetric_upto (n : nat) (A : mat) : Prop := forall i j, (i < n)%nat -> (j < n)%nat -> A i j = A j i.
Definition psd_upto (n : nat) (A : mat) : Prop :=
  forall x, 0 <= rsum n (fun i => rsum n (fun j => x i * A i j * x j)).
Record symmetric_kernels (k : kernels) : Prop := {
  sk_gq12 : forall E mu t xl, symmetric_upto 12 (k_gq12 k E mu t xl);
  sk_dkq : forall E mu t xl, symmetric_upto 12 (k_dkq k E mu t xl);
  sk_dkt : forall E mu t xl, symmetric_upto 9 (k_dkt k E mu t xl) }.
(** Semidefinite for admissible materials and thicknesses and, in quadrilaterals, convex corners. *)
Record psd_kernels (k : kernels) : Prop := {
  pk_gq12 : forall E mu t xl, 0 <= E -> -1 < mu < 1 -> 0 <= t -> convex4 xl -> psd_upto 12 (k_gq12 k E mu t xl);
  pk_dkq : forall E mu t xl, 0 <= E -> -1 < mu < 1 -> 0 <= t -> convex4 xl -> psd_upto 12 (k_dkq k E mu t xl);
  pk_dkt : forall E mu t xl, 0 <= E -> -1 < mu < 1 -> 0 <= t -> psd_upto 9 (k_dkt k E mu t xl) }.

(** ** Rigid motions of the whole model: node [i] sits at [p] *)
Definition rigid_motion (m : fem) (t w : vec3) (x : nat -> R) : Prop :=
  forall k n, In (k, n) (f_nodes m) ->
    disp_at x (num m k) = moved t w (n_loc n) /\ rot_at x (num m k) = w.

(** Force and moment that the nodal forces [f] exert on node number [i]; resultants of
    all nodal forces of a model (moments about the origin). *)
Definition vsum (l : list vec3) : vec3 := fold_right vadd zero3 l.
Definition resultant_force (m : fem) (f : nat -> R) : vec3 :=
  vsum (map (fun kn => disp_at f (num m (fst kn))) (f_nodes m)).
Definition resultant_moment (m : fem) (f : nat -> R) : vec3 :=
  vsum (map (fun kn => vadd (cross (n_loc (snd kn)) (disp_at f (num m (fst kn)))) (rot_at f (num m (fst kn)))) (f_nodes m)).

(** Members with non-negative constants. *)
Definition props_nonneg (p : bprop) : Prop :=
  match p with
  | PSection s => 0 <= m_E (s_mat s) /\ -1 < m_mu (s_mat s) /\ 0 <= s_A s /\ 0 <= s_I22 s /\ 0 <= s_I33 s /\ 0 <= s_J s
  | PSimple E mu A I2 I3 J _ => 0 <= E /\ -1 < mu /\ 0 <= A /\ 0 <= I2 /\ 0 <= I3 /\ 0 <= J
  end.
(** Shells with a non-negative thickness and an admissible material; the attributed
    area of a triangle must not be negative (see C45), and the corners of a
    quadrilateral must be convex in its axes (C77: plane quadrilaterals are). *)
Definition in_axes (s : shell) : list R :=
  flat_map (fun n => [plane_x (cs_O (sh_csys s)) (cs_x (sh_csys s)) (n_loc n);
                      plane_x (cs_O (sh_csys s)) (cs_y (sh_csys s)) (n_loc n)]) (sh_nodes s).
Definition shell_admissible (s : shell) : Prop :=
  0 <= ss_t (sh_sec s) /\ 0 <= m_E (ss_mat (sh_sec s)) /\ -1 < m_mu (ss_mat (sh_sec s)) < 1
  /\ (List.length (sh_nodes s) = 3%nat -> 0 <= sh_area s)
  /\ (List.length (sh_nodes s) = 4%nat -> convex4 (in_axes s)).

(** Poisson's ratio of a member. *)
Definition poisson (p : bprop) : R := match p with PSection s => m_mu (s_mat s) | PSimple _ mu _ _ _ _ _ => mu end.

(** Shells of a model: admissible section, plane quadrilaterals, triangles of non-negative stored area *)
Definition shell_fit (s : shell) : Prop :=
  0 <= ss_t (sh_sec s) /\ 0 <= m_E (ss_mat (sh_sec s)) /\ -1 < m_mu (ss_mat (sh_sec s)) < 1
  /\ match map n_loc (sh_nodes s) with [a; b; c; d] => plane_quad a b c d | _ => 0 <= sh_area s end.

(** A rotation r without a part that turns a shell with a membrane in its own plane. *)
Definition has_membrane (s : shell) : bool :=
  (Nat.eqb (List.length (sh_nodes s)) 3 || String.eqb (ss_type (sh_sec s)) "membrane" || String.eqb (ss_type (sh_sec s)) "shell")%bool.
Definition unturned (r : vec3) (s : shell) : Prop :=
  has_membrane s = true ->
  match map n_loc (sh_nodes s) with a :: b :: c :: _ => dot3 (normal3 a b c) r = 0 | _ => True end.
Definition proper_shape (s : shell) : Prop :=
  match map n_loc (sh_nodes s) with [a; b; c; d] => plane_quad a b c d | [a; b; c] => triangle a b c | _ => True end.
(** Corners of a triangle along its axes, about the origin of space. *)
Definition along_axes (s : shell) : list R :=
  flat_map (fun n => [dot3 (n_loc n) (cs_x (sh_csys s)); dot3 (n_loc n) (cs_y (sh_csys s))]) (sh_nodes s).
(** Sections with a membrane part, with a plate part. *)
Definition with_membrane (s : shell) : R := if (String.eqb (ss_type (sh_sec s)) "membrane" || String.eqb (ss_type (sh_sec s)) "shell")%bool then 1 else 0.
Definition with_plate (s : shell) : R := if (String.eqb (ss_type (sh_sec s)) "plate" || String.eqb (ss_type (sh_sec s)) "shell")%bool then 1 else 0.

(** The constants of a section, given directly. *)
Definition constants (s : bsection) : bprop :=
  PSimple (m_E (s_mat s)) (m_mu (s_mat s)) (s_A s) (s_I22 s) (s_I33 s) (s_J s) (m_rho (s_mat s)).

(** Sections that have a membrane part, a plate part. *)
Definition membrane_part (sec : ssection) : bool := (String.eqb (ss_type sec) "membrane" || String.eqb (ss_type sec) "shell")%bool.
Definition plate_part (sec : ssection) : bool := (String.eqb (ss_type sec) "plate" || String.eqb (ss_type sec) "shell")%bool.

(** Element forces of a triangle with corners ni, nj, nk under an in-plane displacement field. *)
Definition corner_x (s : shell) (ni nj nk : node) (i : nat) : R := dot3 (n_loc (nth i [ni; nj; nk] ni)) (cs_x (sh_csys s)).
Definition corner_y (s : shell) (ni nj nk : node) (i : nat) : R := dot3 (n_loc (nth i [ni; nj; nk] ni)) (cs_y (sh_csys s)).
Definition tri_field (s : shell) (ni nj nk : node) (u v : R -> R -> R) : nat -> R :=
  plane_field (corner_x s ni nj nk) (corner_y s ni nj nk) u v.
Definition tri_force (ker : kernels) (s : shell) (ni nj nk : node) (u v : R -> R -> R) : nat -> R :=
  elem_force 18 (shell_K ker s) (tri_field s ni nj nk u v).
