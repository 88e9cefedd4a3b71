(** The compiled shell kernels are the matrices that the scripts derive.
    Only statements, each closed by a lemma proved elsewhere, with the assumptions it
    rests on and an instance of its hypotheses. *)
From Coq Require Import Reals Lra Lia List String Arith Bool ZArith Sorting.Permutation Sorting.Sorted.
From Verif Require Import Base Csys Sections Element Kernels CText CTextT9 CTextDKT CTextGQ12 CTextDKQ CTextShell SpecGeom SpecShell SpecAsm SpecKernel Demo Demo2 ShellDemo ShellProofs KernelProofs KernelProofs2 KernelProofs3 KernelProofs4 KernelProofs5 KernelProofs6 PropKernel CTextProofs CTextMain.
Import ListNotations.
Local Open Scope string_scope.
Local Open Scope list_scope.
Local Open Scope R_scope.

(** C120. The C code of the T9 membrane, with an element of nonzero area and a Poisson's ratio other than 1 or -1,
    divides by nothing that is zero and gives B^T D B as the script derives it. *)
Theorem C120_t9 E mu t xi eta xl : mu^2 <> 1 -> turn xl 0 1 2 <> 0 ->
  exists K, autofunc_c 6 ct9_code (call_with E mu t xi eta xl) = Some K
  /\ forall i j, (i < 6)%nat -> (j < 6)%nat -> K i j = t9_BDB E mu xl i j.
Proof. exact (c120_t9 E mu t xi eta xl). Qed.
Print Assumptions C120_t9.
Example C120_t9_example : exists K, autofunc_c 6 ct9_code (call_with 6 (1/2) 1 0 0 [0; 0; 1; 0; 0; 1]) = Some K
  /\ K 0%nat 0%nat = 10 /\ K 0%nat 1%nat = 6 /\ K 1%nat 0%nat = 6.
Proof.
  destruct (C120_t9 6 (1/2) 1 0 0 [0; 0; 1; 0; 0; 1]) as (K & E & H); [lra|unfold turn, at_x, at_y; cbn [nth Nat.mul Nat.add]; lra|].
  exists K. split; [exact E|]. rewrite !H by lia.
  repeat split; rewrite t9_form; unfold t9_B, t9_b, t9_area, vnth; cbn; field.
Qed.

(** C120. Likewise the DKT plate. *)
Theorem C120_dkt E mu t xi eta xl : mu^2 <> 1 -> turn xl 0 1 2 <> 0 ->
  exists K, autofunc_c 9 cdkt_code (call_with E mu t xi eta xl) = Some K
  /\ forall i j, (i < 9)%nat -> (j < 9)%nat -> K i j = dkt_BDB E mu t xi eta xl i j.
Proof. exact (c120_dkt E mu t xi eta xl). Qed.
Print Assumptions C120_dkt.
Example C120_dkt_example : (1/4)^2 <> 1 /\ turn [0; 0; 3; 1; 1; 2] 0 1 2 <> 0.
Proof. split; [lra|]. unfold turn, at_x, at_y; cbn [nth Nat.mul Nat.add]. lra. Qed.

(** C120. In a triangle without area, or with a Poisson's ratio of 1 or -1, both divide by zero. *)
Theorem C120_degenerate_triangle E mu t xi eta xl : mu^2 = 1 \/ turn xl 0 1 2 = 0 ->
  autofunc_c 6 ct9_code (call_with E mu t xi eta xl) = None
  /\ autofunc_c 9 cdkt_code (call_with E mu t xi eta xl) = None.
Proof. exact (c120_degenerate_triangle E mu t xi eta xl). Qed.
Print Assumptions C120_degenerate_triangle.
Example C120_degenerate_triangle_example : autofunc_c 6 ct9_code (call_with 6 (1/2) 1 0 0 [0; 0; 1; 1; 2; 2]) = None
  /\ autofunc_c 9 cdkt_code (call_with 6 (1/2) 1 0 0 [0; 0; 1; 1; 2; 2]) = None.
Proof. apply C120_degenerate_triangle. right. unfold turn, at_x, at_y; cbn [nth Nat.mul Nat.add]. ring. Qed.

(** C120. The C code of the GQ12 membrane, anywhere in an element without re-entrant corner. *)
Theorem C120_gq12 E mu t xi eta xl : mu^2 <> 1 -> convex4 xl -> -1 <= xi <= 1 -> -1 <= eta <= 1 ->
  exists K, autofunc_c 12 cgq_code (call_with E mu t xi eta xl) = Some K
  /\ forall i j, (i < 12)%nat -> (j < 12)%nat -> K i j = gq12_BDB E mu t xi eta xl i j.
Proof. exact (c120_gq12 E mu t xi eta xl). Qed.
Print Assumptions C120_gq12.
Example C120_gq12_example : exists K, autofunc_c 12 cgq_code (call_with 2 (1/4) 1 (1/2) (-1/3) trapezoid) = Some K.
Proof. destruct (C120_gq12 2 (1/4) 1 (1/2) (-1/3) trapezoid) as (K & E & _); try lra; [exact trapezoid_convex|]. now exists K. Qed.

(** C120. And of the DKQ plate. *)
Theorem C120_dkq E mu t xi eta xl : mu^2 <> 1 -> convex4 xl -> -1 <= xi <= 1 -> -1 <= eta <= 1 ->
  exists K, autofunc_c 12 cdkq_code (call_with E mu t xi eta xl) = Some K
  /\ forall i j, (i < 12)%nat -> (j < 12)%nat -> K i j = dkq_BDB E mu t xi eta xl i j.
Proof. exact (c120_dkq E mu t xi eta xl). Qed.
Print Assumptions C120_dkq.
Example C120_dkq_example : exists K, autofunc_c 12 cdkq_code (call_with 2 (1/4) 1 (1/2) (-1/3) trapezoid) = Some K.
Proof. destruct (C120_dkq 2 (1/4) 1 (1/2) (-1/3) trapezoid) as (K & E & _); try lra; [exact trapezoid_convex|]. now exists K. Qed.

(** C120. Where the Jacobian vanishes, or with a Poisson's ratio of 1 or -1, they divide by zero. *)
Theorem C120_degenerate_quad E mu t xi eta xl :
  (mu^2 = 1 \/ det2 (gq_J xl xi eta) = 0 -> autofunc_c 12 cgq_code (call_with E mu t xi eta xl) = None)
  /\ (mu^2 = 1 \/ dkq_detJ xl xi eta = 0 -> autofunc_c 12 cdkq_code (call_with E mu t xi eta xl) = None).
Proof. exact (c120_degenerate_quad E mu t xi eta xl). Qed.
Print Assumptions C120_degenerate_quad.
(** In a butterfly the Jacobian vanishes inside. *)
Example C120_degenerate_quad_example : autofunc_c 12 cgq_code (call_with 2 (1/4) 1 0 0 [0; 0; 1; 0; 0; 1; 1; 1]) = None.
Proof. apply C120_degenerate_quad. right. unfold det2, gq_J; cbn -[Rdiv]. field. Qed.

(** C120. So a quadrilateral built from the compiled kernels has the stiffness that the other theorems are about. *)
Theorem C120_quad c2 t2 nm sec a b c d s : inside_square c2 -> m_mu (ss_mat sec) ^ 2 <> 1 ->
  mk_quad nm sec a b c d = Some s -> plane_quad (n_loc a) (n_loc b) (n_loc c) (n_loc d) ->
  exists K, shell_K_c c2 t2 s = Some K
  /\ forall i j, (i < 24)%nat -> (j < 24)%nat -> K i j = shell_K (code_kernels c2 t2) s i j.
Proof. exact (c120_quad c2 t2 nm sec a b c d s). Qed.
Print Assumptions C120_quad.
Example C120_quad_example : exists s K, mk_quad "q" unit_sec n1 n2 n3 n4 = Some s /\ shell_K_c gauss2 tri_mid s = Some K.
Proof.
  destruct C74_element_example as (s & E & P & _). exists s.
  destruct (C120_quad gauss2 tri_mid "q" unit_sec n1 n2 n3 n4 s gauss2_inside ltac:(cbn; lra) E P) as (K & H & _). exists K. now split.
Qed.

(** C120. And a triangle. *)
Theorem C120_tria c2 t2 nm sec a b c s : m_mu (ss_mat sec) ^ 2 <> 1 ->
  mk_tria nm sec a b c = Some s -> triangle (n_loc a) (n_loc b) (n_loc c) ->
  exists K, shell_K_c c2 t2 s = Some K
  /\ forall i j, (i < 18)%nat -> (j < 18)%nat -> K i j = shell_K (code_kernels c2 t2) s i j.
Proof. exact (c120_tria c2 t2 nm sec a b c s). Qed.
Print Assumptions C120_tria.
Example C120_tria_example : exists s K, mk_tria "t" unit_sec (node_at "A" 0 0 0) (node_at "B" 1 0 0) (node_at "C" 0 1 0) = Some s /\ shell_K_c gauss2 tri_mid s = Some K.
Proof.
  destruct (example_tria unit_sec) as (s & E & _). exists s.
  destruct (C120_tria gauss2 tri_mid _ unit_sec _ _ _ s ltac:(cbn; lra) E unit_triangle) as (K & H & _). exists K. now split.
Qed.
