(** C116 to C118: the modes of a modal case.
    Only statements, each closed by a lemma proved elsewhere, with the assumptions it
    rests on and an instance of its hypotheses. *)
From Coq Require Import Reals Lra Lia List String Arith Bool ZArith Sorting.Permutation Sorting.Sorted.
From Verif Require Import Base BaseFacts Csys Element Load FeModel Assembly Solver Post Api SpecApi SpecElim SpecSolve SpecGeom SpecAsm SpecMass SpecStatics Demo SolveDemo Dynamic SpecDyn DynProofs DynDemo SpecModal ModalProofs SpecModal2 ModalProofs2 ElimFacts ModalDemo.
Import ListNotations.
Local Open Scope string_scope.
Local Open Scope list_scope.
Local Open Scope R_scope.

(** C116. Every mode that a modal case stores stands for a displacement of the free equations that is not zero; in it
    the elastic forces are the stored eigenvalue times the forces of inertia: they do the same work on every
    displacement that the supports permit. *)
Theorem C116_modes ext ops eigsh a c st modes o : never_readds_nodes ext ops -> let w := final ext init (ops ++ [OpAssemble]) in
  exact_eigen eigsh -> read_asb w = Some a -> solve_eigen (x_ker ext) eigsh a c st = Some (modes, o) ->
  forall i lambda x, nth_error o i = Some lambda -> nth_error modes i = Some x ->
  (exists U, shape_of ext w c x U) /\ forall U, shape_of ext w c x U ->
    (exists q, (q < equations w)%nat /\ U q <> 0) /\ forall v, permitted ext w c v -> energy ext w v U = lambda * inertia w v U.
Proof. exact (m116_modes ext ops eigsh a c st modes o). Qed.
Print Assumptions C116_modes.
Example C116_modes_example : let w := final tip_solver init (demo_ops ++ [OpAssemble]) in
  shape_of tip_solver w "C" twist about_x /\ forall v, permitted tip_solver w "C" v -> energy tip_solver w v about_x = 500000000000 * inertia w v about_x.
Proof.
  split; [exact twist_shape|].
  exact (proj2 (proj2 (C116_modes tip_solver demo_ops two_modes demo_asm "C" (Modal 2 None) _ _ demo_ops_fresh (trial_eigens_exact _) demo_end_asb demo_two 1%nat _ twist eq_refl eq_refl) about_x twist_shape)).
Qed.

(** C116. Two modes with different eigenvalues are orthogonal, with the mass matrix as with the stiffness matrix. *)
Theorem C116_orthogonal ext ops eigsh a c st modes o : never_readds_nodes ext ops -> let w := final ext init (ops ++ [OpAssemble]) in
  exact_eigen eigsh -> read_asb w = Some a -> solve_eigen (x_ker ext) eigsh a c st = Some (modes, o) -> symmetric_elements ext w ->
  forall i j lambda mu x y U V, nth_error o i = Some lambda -> nth_error modes i = Some x -> nth_error o j = Some mu -> nth_error modes j = Some y ->
  shape_of ext w c x U -> shape_of ext w c y V -> lambda <> mu -> inertia w U V = 0 /\ energy ext w U V = 0.
Proof. exact (m116_orthogonal ext ops eigsh a c st modes o). Qed.
Print Assumptions C116_orthogonal.
Example C116_orthogonal_example : let w := final tip_solver init (demo_ops ++ [OpAssemble]) in inertia w along_x about_x = 0 /\ energy tip_solver w along_x about_x = 0.
Proof.
  apply (C116_orthogonal tip_solver demo_ops two_modes demo_asm "C" (Modal 2 None) _ _ demo_ops_fresh (trial_eigens_exact _) demo_end_asb demo_two demo_end_symmetric 0%nat 1%nat 2 500000000000 axial twist along_x about_x eq_refl eq_refl eq_refl eq_refl axial_shape twist_shape). lra.
Qed.

(** C116. The eigenvalues of a stable structure are positive, and so is the inertia of each mode; without stability,
    the eigenvalue of a mode that moves mass is not negative, and zero exactly if the mode strains nothing. *)
Theorem C116_positive ext ops eigsh a c st modes o : never_readds_nodes ext ops -> let w := final ext init (ops ++ [OpAssemble]) in
  exact_eigen eigsh -> read_asb w = Some a -> solve_eigen (x_ker ext) eigsh a c st = Some (modes, o) -> elastic ext w -> massive w ->
  forall i lambda x U, nth_error o i = Some lambda -> nth_error modes i = Some x -> shape_of ext w c x U ->
  (stable ext w c -> 0 < lambda /\ 0 < inertia w U U) /\ (0 < inertia w U U -> 0 <= lambda /\ (lambda = 0 <-> energy ext w U U = 0)).
Proof. exact (m116_positive ext ops eigsh a c st modes o). Qed.
Print Assumptions C116_positive.
Example C116_positive_example : let w := final tip_solver init (demo_ops ++ [OpAssemble]) in 0 < inertia w about_x about_x.
Proof.
  exact (proj2 (proj1 (C116_positive tip_solver demo_ops two_modes demo_asm "C" (Modal 2 None) _ _ demo_ops_fresh (trial_eigens_exact _) demo_end_asb demo_two demo_end_elastic demo_end_massive 1%nat _ twist about_x eq_refl eq_refl twist_shape) demo_end_stable)).
Qed.

(** C116. A combination of modes with different eigenvalues has the sum of the energies of its parts, of both kinds. *)
Theorem C116_combined ext ops eigsh a c st modes o : never_readds_nodes ext ops -> let w := final ext init (ops ++ [OpAssemble]) in
  exact_eigen eigsh -> read_asb w = Some a -> solve_eigen (x_ker ext) eigsh a c st = Some (modes, o) -> symmetric_elements ext w ->
  forall n lambda x U k, NoDup (firstn n o) ->
  (forall i, (i < n)%nat -> nth_error o i = Some (lambda i) /\ nth_error modes i = Some (x i) /\ shape_of ext w c (x i) (U i)) ->
  let v := fun q => rsum n (fun i => k i * U i q) in
  inertia w v v = rsum n (fun i => k i * k i * inertia w (U i) (U i))
  /\ energy ext w v v = rsum n (fun i => k i * k i * (lambda i * inertia w (U i) (U i))).
Proof. exact (m116_combined ext ops eigsh a c st modes o). Qed.
Print Assumptions C116_combined.
Example C116_combined_example : let w := final tip_solver init (demo_ops ++ [OpAssemble]) in let v := fun q => 3 * along_x q + 4 * about_x q in
  inertia w v v = 9 * inertia w along_x along_x + 16 * inertia w about_x about_x.
Proof.
  intros w v.
  pose (lambda := fun i : nat => match i with O => 2 | _ => 500000000000 end). pose (x := fun i : nat => match i with O => axial | _ => twist end).
  pose (U := fun i : nat => match i with O => along_x | _ => about_x end). pose (k := fun i : nat => match i with O => 3 | _ => 4 end).
  destruct (C116_combined tip_solver demo_ops two_modes demo_asm "C" (Modal 2 None) _ _ demo_ops_fresh (trial_eigens_exact _) demo_end_asb demo_two demo_end_symmetric 2%nat lambda x U k) as (I & _).
  - cbn [firstn]. constructor; [cbn [In]; intros [H|[]]; lra|]. constructor; [intros []|constructor].
  - intros i Hi. destruct i as [|[|i]]; [| |lia].
    + split; [reflexivity|]. split; [reflexivity|exact axial_shape].
    + split; [reflexivity|]. split; [reflexivity|exact twist_shape].
  - fold w in I. cbn [rsum] in I.
    assert (E : inertia w v v = inertia w (fun q => 0 + k 0%nat * U 0%nat q + k 1%nat * U 1%nat q) (fun q => 0 + k 0%nat * U 0%nat q + k 1%nat * U 1%nat q)).
    { unfold inertia, work_of. apply rsum_ext. intros q _. unfold v, k, U. f_equal; [|ring]. apply rsum_ext. intros p _. ring. }
    rewrite E, I. unfold k, U. ring.
Qed.

(** C117. Participating masses: the masses that the first n modes take part with in a translation never add up to more
    than the mass that the supports leave free to move, and so never to more than the mass of the structure. *)
Theorem C117_mass ext ops eigsh a c st modes o : never_readds_nodes ext ops -> let w := final ext init (ops ++ [OpAssemble]) in
  exact_eigen eigsh -> read_asb w = Some a -> solve_eigen (x_ker ext) eigsh a c st = Some (modes, o) ->
  symmetric_elements ext w -> elastic ext w -> massive w -> stable ext w c ->
  forall n lambda U m t r v, first_modes ext w c modes o n lambda U -> assembled_model w = Some m -> rigid_motion m t zero3 r ->
  permitted ext w c v -> (forall q, (q < equations w)%nat -> ~ restrained_for ext w c q -> v q = r q) ->
  rsum n (fun i => inertia w r (U i) ^ 2 / inertia w (U i) (U i)) <= inertia w v v /\ inertia w v v <= mass_along m t.
Proof. exact (m117_mass ext ops eigsh a c st modes o). Qed.
Print Assumptions C117_mass.
Example C117_mass_example : let w := final tip_solver init (demo_ops ++ [OpAssemble]) in
  rsum 2 (fun i => inertia w shifted_x (two_shapes i) ^ 2 / inertia w (two_shapes i) (two_shapes i)) <= inertia w along_x along_x /\ inertia w along_x along_x <= mass_along demo_fem (V3 1 0 0).
Proof.
  exact (C117_mass tip_solver demo_ops two_modes demo_asm "C" (Modal 2 None) _ _ demo_ops_fresh (trial_eigens_exact _) demo_end_asb demo_two demo_end_symmetric demo_end_elastic demo_end_massive demo_end_stable 2%nat two_values two_shapes demo_fem (V3 1 0 0) shifted_x along_x
    demo_end_first demo_end_model shifted_rigid (proj1 axial_shape) along_x_left).
Qed.

(** C117. The part of a static answer that the first n modes carry never takes up more work of the loads than the whole
    answer. *)
Theorem C117_static ext ops eigsh a c st modes o : never_readds_nodes ext ops -> let w := final ext init (ops ++ [OpAssemble]) in
  exact_eigen eigsh -> read_asb w = Some a -> solve_eigen (x_ker ext) eigsh a c st = Some (modes, o) ->
  symmetric_elements ext w -> elastic ext w -> massive w -> stable ext w c ->
  forall n lambda U s, first_modes ext w c modes o n lambda U -> solved ext w s -> same_supports ext w c s ->
  rsum n (fun i => work_of w (load_at w s) (U i) ^ 2 / (lambda i * inertia w (U i) (U i))) <= work_of w (load_at w s) (solution ext w s).
Proof. exact (m117_static ext ops eigsh a c st modes o). Qed.
Print Assumptions C117_static.
Example C117_static_example : let w := final tip_solver init (demo_ops ++ [OpAssemble]) in
  rsum 2 (fun i => work_of w (load_at w "C") (two_shapes i) ^ 2 / (two_values i * inertia w (two_shapes i) (two_shapes i))) <= work_of w (load_at w "C") (solution tip_solver w "C").
Proof.
  exact (C117_static tip_solver demo_ops two_modes demo_asm "C" (Modal 2 None) _ _ demo_ops_fresh (trial_eigens_exact _) demo_end_asb demo_two demo_end_symmetric demo_end_elastic demo_end_massive demo_end_stable 2%nat two_values two_shapes "C"
    demo_end_first demo_end_solved (fun q => iff_refl _)).
Qed.

(** C118. If a modal case is answered, with an eigensolver that like eigsh answers fewer modes than there are
    equations, there are as many eigenvalues as asked for but at most as many as equations the table of the model
    leaves free, and fewer than the case leaves free.
    Missing: all of them cannot be had, see C118_refuted. *)
Theorem C118_count_partial ext ops eigsh a c st modes o F G : never_readds_nodes ext ops -> let w := final ext init (ops ++ [OpAssemble]) in
  answers_fewer eigsh -> read_asb w = Some a -> solve_eigen (x_ker ext) eigsh a c st = Some (modes, o) ->
  lists_free (equations w) (restrained_for ext w c) F -> lists_free (equations w) (restrained_globally ext w) G ->
  List.length o = Nat.min (ms_n st) (List.length G) /\ (List.length o < List.length F)%nat.
Proof. exact (m118_count ext ops eigsh a c st modes o F G). Qed.
Print Assumptions C118_count_partial.
Example C118_count_example : (Nat.min 2 6 < 6)%nat /\ List.length [2; 500000000000] = Nat.min 2 6.
Proof.
  assert (G : lists_free (equations (final tip_solver init (demo_ops ++ [OpAssemble]))) (restrained_globally tip_solver (final tip_solver init (demo_ops ++ [OpAssemble]))) [6;7;8;9;10;11]%nat).
  { apply (lists_free_ext _ (restrained_for tip_solver (final tip_solver init (demo_ops ++ [OpAssemble])) "C")); [intros q _; apply demo_end_globally|exact demo_end_free]. }
  destruct (C118_count_partial tip_solver demo_ops two_modes demo_asm "C" (Modal 2 None) _ _ _ _ demo_ops_fresh (trial_eigens_fewer _) demo_end_asb demo_two demo_end_free G) as (E & L).
  rewrite E in L. exact (conj L E).
Qed.

(** C118. Asking for as many modes as there are or more fails, in every structure whose modal case has the supports of
    the model. *)
Theorem C118_all ext ops eigsh a c st F : never_readds_nodes ext ops -> let w := final ext init (ops ++ [OpAssemble]) in
  answers_fewer eigsh -> read_asb w = Some a -> lists_free (equations w) (restrained_for ext w c) F ->
  (forall q, (q < equations w)%nat -> restrained_for ext w c q <-> restrained_globally ext w q) -> (List.length F <= ms_n st)%nat ->
  solve_eigen (x_ker ext) eigsh a c st = None.
Proof. exact (m118_all ext ops eigsh a c st F). Qed.
Print Assumptions C118_all.
Example C118_all_example : solve_eigen zero_ker two_modes demo_asm "C" (Modal 7 None) = None.
Proof.
  apply (C118_all tip_solver demo_ops two_modes demo_asm "C" (Modal 7 None) [6;7;8;9;10;11]%nat demo_ops_fresh (trial_eigens_fewer _) demo_end_asb demo_end_free); [|cbn; lia].
  intros q _. apply demo_end_globally.
Qed.

(** C118. Refuted: a case that asks for more modes than there are is not answered with those that there are. *)
Theorem C118_refuted : exists ext ops a c n F, never_readds_nodes ext ops /\ let w := final ext init (ops ++ [OpAssemble]) in
  read_asb w = Some a /\ stable ext w c /\ lists_free (equations w) (restrained_for ext w c) F
  /\ (exists eigsh modes o, exact_eigen eigsh /\ answers_fewer eigsh /\ solve_eigen (x_ker ext) eigsh a c (Modal n None) = Some (modes, o))
  /\ forall k eigsh, (List.length F <= k)%nat -> answers_fewer eigsh -> solve_eigen (x_ker ext) eigsh a c (Modal k None) = None.
Proof. exact m118_refuted. Qed.
Print Assumptions C118_refuted.
Example C118_refuted_example : lists_free (equations (final tip_solver init (demo_ops ++ [OpAssemble]))) (restrained_for tip_solver (final tip_solver init (demo_ops ++ [OpAssemble])) "C") [6;7;8;9;10;11]%nat.
Proof. exact demo_end_free. Qed.
