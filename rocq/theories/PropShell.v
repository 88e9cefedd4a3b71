(** Properties C47, C48: shell element matrices.
    Only statements, each closed by a lemma proved elsewhere, with the assumptions it
    rests on and an instance of its hypotheses. *)
From Coq Require Import Reals Lra Lia List String Arith Bool ZArith Sorting.Permutation Sorting.Sorted.
From Verif Require Import Base BaseFacts Csys CsysFacts Sections Element Load FeModel Assembly Solver Post Api SpecGeom SpecBeam SpecAsm SpecShell ShellFacts ShellGeom Demo ShellProofs.
Import ListNotations.
Local Open Scope string_scope.
Local Open Scope list_scope.
Local Open Scope R_scope.

(** C47 for quadrilaterals. The entries of the membrane matrix stand at the equations 0, 1, 5
    of the corner pair, those of the plate at 2, 3, 4, and nothing couples the two; the
    parts present follow from the section type. *)
Theorem C47_quad ker name sec ni nj nk nl s : mk_quad name sec ni nj nk nl = Some s ->
  let E := m_E (ss_mat sec) in let mu := m_mu (ss_mat sec) in let t := ss_t sec in
  let x n := plane_x (cs_O (sh_csys s)) (cs_x (sh_csys s)) (n_loc n) in
  let y n := plane_x (cs_O (sh_csys s)) (cs_y (sh_csys s)) (n_loc n) in
  let xl := [x ni; y ni; x nj; y nj; x nk; y nk; x nl; y nl] in
  let K := shell_K ker s in
  forall i j a b, (i < 4)%nat -> (j < 4)%nat -> (a < 3)%nat -> (b < 3)%nat ->
  K (membrane3_dof i a) (membrane3_dof j b)
    = (if membrane_part sec then k_gq12 ker E mu t xl (3 * i + a)%nat (3 * j + b)%nat else 0)
  /\ K (plate_dof i a) (plate_dof j b)
    = (if plate_part sec then k_dkq ker E mu t xl (3 * i + a)%nat (3 * j + b)%nat else 0)
  /\ K (membrane3_dof i a) (plate_dof j b) = 0 /\ K (plate_dof i a) (membrane3_dof j b) = 0.
Proof. exact (c47_quad ker name sec ni nj nk nl s). Qed.
Print Assumptions C47_quad.
Example C47_quad_example : exists s, mk_quad "q" unit_sec (node_at "A" 0 0 0) (node_at "B" 1 0 0) (node_at "C" 1 1 0) (node_at "D" 0 1 0) = Some s.
Proof. apply example_quad. Qed.

(** C47 for triangles. The membrane (two per corner) stands at 0, 1, the plate at 2, 3, 4,
    nothing couples them, and the drilling equations 5 are empty. *)
Theorem C47_tria ker name sec ni nj nk s : mk_tria name sec ni nj nk = Some s ->
  let E := m_E (ss_mat sec) in let mu := m_mu (ss_mat sec) in let t := ss_t sec in
  let x n := dot3 (n_loc n) (cs_x (sh_csys s)) in
  let y n := dot3 (n_loc n) (cs_y (sh_csys s)) in
  let xl := [x ni; y ni; x nj; y nj; x nk; y nk] in
  let K := shell_K ker s in
  forall i j a b a' b', (i < 3)%nat -> (j < 3)%nat -> (a < 3)%nat -> (b < 3)%nat -> (a' < 2)%nat -> (b' < 2)%nat ->
  K (membrane2_dof i a') (membrane2_dof j b') = 2 * t * sh_area s * t9_BDB E mu xl (2 * i + a')%nat (2 * j + b')%nat
  /\ K (plate_dof i a) (plate_dof j b) = 2 * sh_area s * k_dkt ker E mu t xl (3 * i + a)%nat (3 * j + b)%nat
  /\ K (membrane2_dof i a') (plate_dof j b) = 0 /\ K (plate_dof i a) (membrane2_dof j b') = 0
  /\ (forall q, (q < 18)%nat -> K (6 * i + 5)%nat q = 0 /\ K q (6 * i + 5)%nat = 0).
Proof. exact (c47_tria ker name sec ni nj nk s). Qed.
Print Assumptions C47_tria.
Example C47_tria_example : exists s, mk_tria "t" unit_sec (node_at "A" 0 0 0) (node_at "B" 1 0 0) (node_at "C" 0 1 0) = Some s.
Proof. destruct (example_tria unit_sec) as (s & E & _). exists s. exact E. Qed.

(** C47. The element matrix is symmetric if the compiled kernels are (the triangle's membrane
    always is). *)
Theorem C47_symmetric ker s : symmetric_kernels ker -> List.length (sh_nodes s) = 3%nat \/ List.length (sh_nodes s) = 4%nat ->
  symmetric_upto (6 * List.length (sh_nodes s)) (shell_K ker s).
Proof. exact (c47_symmetric ker s). Qed.
Print Assumptions C47_symmetric.
Example C47_symmetric_example : symmetric_kernels id_ker /\ exists s, mk_quad "q" unit_sec (node_at "A" 0 0 0) (node_at "B" 1 0 0) (node_at "C" 1 1 0) (node_at "D" 0 1 0) = Some s
  /\ List.length (sh_nodes s) = 4%nat.
Proof. split; [exact id_ker_symmetric|]. destruct (example_quad unit_sec) as (s & E). exists s. split; [exact E|]. rewrite (proj1 (mk_quad_some _ _ _ _ _ _ _ E)). reflexivity. Qed.

(** C47. And positive semidefinite if they are.  Through the assembly: C22, C23. *)
Theorem C47_psd ker s : psd_kernels ker -> shell_admissible s -> List.length (sh_nodes s) = 3%nat \/ List.length (sh_nodes s) = 4%nat ->
  psd_upto (6 * List.length (sh_nodes s)) (shell_K ker s).
Proof. exact (c47_psd ker s). Qed.
Print Assumptions C47_psd.
Example C47_psd_example : psd_kernels id_ker /\ exists s, shell_admissible s /\ List.length (sh_nodes s) = 3%nat.
Proof.
  split; [exact id_ker_psd|]. destruct (example_tria unit_sec) as (s & E & A). exists s.
  destruct (mk_tria_some _ _ _ _ _ _ E) as (N & S). rewrite N. split; [|reflexivity].
  unfold shell_admissible. rewrite S, A, N. cbn [List.length]. split; [cbn; lra|]. split; [cbn; lra|]. split; [cbn; lra|]. split; [intros _; lra|intros HL; discriminate HL].
Qed.

(** C48. Translations in the plane cause no force in the triangle.  Missing: the in-plane
    rotation (see C48_rotation_refuted). *)
Theorem C48_translation_partial ker name sec ni nj nk s tx ty : mk_tria name sec ni nj nk = Some s ->
  forall r, (r < 18)%nat -> tri_force ker s ni nj nk (fun _ _ => tx) (fun _ _ => ty) r = 0.
Proof. exact (c48_translation_partial ker name sec ni nj nk s tx ty). Qed.
Print Assumptions C48_translation_partial.
Example C48_translation_example : exists s, mk_tria "t" unit_sec (node_at "A" 0 0 0) (node_at "B" 1 0 0) (node_at "C" 0 1 0) = Some s
  /\ forall r, (r < 18)%nat -> tri_force id_ker s (node_at "A" 0 0 0) (node_at "B" 1 0 0) (node_at "C" 0 1 0) (fun _ _ => 5) (fun _ _ => 7) r = 0.
Proof. destruct (example_tria unit_sec) as (s & E & _). exists s. split; [exact E|]. exact (C48_translation_partial id_ker _ _ _ _ _ s 5 7 E). Qed.

(** C48. The work of the forces under an in-plane rotation, for every triangle. *)
Theorem C48_rotation_work ker name sec ni nj nk s th : mk_tria name sec ni nj nk = Some s -> triangle (n_loc ni) (n_loc nj) (n_loc nk) ->
  let E := m_E (ss_mat sec) in let mu := m_mu (ss_mat sec) in
  let u := (fun _ y => - th * y) in let v := (fun x _ => th * x) in
  rsum 18 (fun r => tri_field s ni nj nk u v r * tri_force ker s ni nj nk u v r)
  = 2 * ss_t sec * sh_area s * (E / (1 - mu^2) * (1 + (1 - mu) / 2)) * th^2.
Proof. exact (c48_rotation ker name sec ni nj nk s th). Qed.
Print Assumptions C48_rotation_work.
Example C48_rotation_work_example : exists s, mk_tria "t" unit_sec (node_at "A" 0 0 0) (node_at "B" 1 0 0) (node_at "C" 0 1 0) = Some s
  /\ triangle (V3 0 0 0) (V3 1 0 0) (V3 0 1 0).
Proof. destruct (example_tria unit_sec) as (s & E & _). exists s. split; [exact E|exact unit_triangle]. Qed.

(** C48. Every triangle with nonzero stored area, thickness and E answers an in-plane rotation
    with a force (the shape functions use b for both derivatives). *)
Theorem C48_rotation_force ker name sec ni nj nk s th : mk_tria name sec ni nj nk = Some s -> triangle (n_loc ni) (n_loc nj) (n_loc nk) ->
  ss_t sec <> 0 -> sh_area s <> 0 -> m_E (ss_mat sec) <> 0 -> -1 < m_mu (ss_mat sec) < 1 -> th <> 0 ->
  exists r, (r < 18)%nat /\ tri_force ker s ni nj nk (fun _ y => - th * y) (fun x _ => th * x) r <> 0.
Proof. exact (c48_rotation_force ker name sec ni nj nk s th). Qed.
Print Assumptions C48_rotation_force.
Example C48_rotation_force_example : exists s, mk_tria "t" unit_sec (node_at "A" 0 0 0) (node_at "B" 1 0 0) (node_at "C" 0 1 0) = Some s
  /\ sh_area s <> 0 /\ triangle (V3 0 0 0) (V3 1 0 0) (V3 0 1 0).
Proof. destruct (example_tria unit_sec) as (s & E & A). exists s. split; [exact E|]. rewrite A. split; [lra|exact unit_triangle]. Qed.

(** C48. So the property is refuted for rotations. *)
Theorem C48_rotation_refuted ker : exists s ni nj nk th, mk_tria "t" unit_sec ni nj nk = Some s /\ triangle (n_loc ni) (n_loc nj) (n_loc nk)
  /\ exists r, (r < 18)%nat /\ tri_force ker s ni nj nk (fun _ y => - th * y) (fun x _ => th * x) r <> 0.
Proof. exact (c48_rotation_refuted ker). Qed.
Print Assumptions C48_rotation_refuted.


(** C48. Nor does the triangle resist a uniform stretch along its local y axis. *)
Theorem C48_stretch_no_force ker name sec ni nj nk s k : mk_tria name sec ni nj nk = Some s ->
  forall r, (r < 18)%nat -> tri_force ker s ni nj nk (fun _ _ => 0) (fun _ y => k * y) r = 0.
Proof. exact (c48_stretch ker name sec ni nj nk s k). Qed.
Print Assumptions C48_stretch_no_force.
Example C48_stretch_example : exists s, mk_tria "t" unit_sec (node_at "A" 0 0 0) (node_at "B" 1 0 0) (node_at "C" 0 1 0) = Some s
  /\ forall r, (r < 18)%nat -> tri_force id_ker s (node_at "A" 0 0 0) (node_at "B" 1 0 0) (node_at "C" 0 1 0) (fun _ _ => 0) (fun _ y => 5 * y) r = 0.
Proof. destruct (example_tria unit_sec) as (s & E & _). exists s. split; [exact E|]. exact (C48_stretch_no_force id_ker _ _ _ _ _ s 5 E). Qed.
