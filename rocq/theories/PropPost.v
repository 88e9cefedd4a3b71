(** Properties C30-C32, C40 (whole model), C41, C42, C61: load queries, mass, results, merging of nodes.
    Only statements, each closed by a lemma proved elsewhere, with the assumptions it
    rests on and an instance of its hypotheses. *)
From Coq Require Import Reals Lra Lia List String Arith Bool ZArith Sorting.Permutation Sorting.Sorted.
From Verif Require Import Base BaseFacts Csys Sections Element Load FeModel Assembly Solver Post Api SpecApi ApiFacts WfFacts HidFacts ApiProofs1 SpecGeom SpecBeam SpecAsm SpecLoad AsmFacts AsmProofs CsysFacts Demo AsmTotal AsmProofs2 SpecSolve AsmSolve SolveDemo AsmSolve2 SpecPost PostProofs PostDemo LoadQueries SpecMass MassProofs MergeProofs.
Import ListNotations.
Local Open Scope string_scope.
Local Open Scope list_scope.
Local Open Scope R_scope.

(** C30. A distributed load set on a beam is read back with each of its eight values in
    place, whatever is set afterwards other than a distributed load on the same beam. *)
Theorem C30_distributed p b pi pj qi2 qj2 qi3 qj3 ti tj later :
  (forall c, In c later -> ~ line_load_on b c) ->
  exists v, pat_get_distributed (pat_run (PLineLoad b pi pj qi2 qj2 qi3 qj3 ti tj :: later) p) b = Some v
  /\ List.length v = 12%nat
  /\ nth 0 v 0 = pi /\ nth 1 v 0 = qi2 /\ nth 2 v 0 = qi3 /\ nth 3 v 0 = ti /\ nth 4 v 0 = 0 /\ nth 5 v 0 = 0
  /\ nth 6 v 0 = pj /\ nth 7 v 0 = qj2 /\ nth 8 v 0 = qj3 /\ nth 9 v 0 = tj /\ nth 10 v 0 = 0 /\ nth 11 v 0 = 0.
Proof. exact (c30_line p b pi pj qi2 qj2 qi3 qj3 ti tj later). Qed.
Print Assumptions C30_distributed.
Example C30_example : forall c, In c [PNodalLoad "A" (1, 0, 0, 0, 0, 0); PPointLoad "b" (1, 2, 3, 0, 0, 0) (1/2); PLineLoad "c" 1 1 1 1 1 1 1 1] -> ~ line_load_on "b" c.
Proof. intros c [<-|[<-|[<-|[]]]]; cbn; try tauto. discriminate. Qed.

(** C30. Refuted for concentrated loads: after set_beam_load_conc the query answers None, or
    the 12 values of a distributed load. *)
Theorem C30_concentrated_refuted b F r : exists p, pat_get_concentrated (pat_run [PPointLoad b F r] p) b = None
  /\ exists q v, pat_get_concentrated (pat_run [PPointLoad b F r] q) b = Some v /\ List.length v = 12%nat.
Proof. exact (c30_refuted b F r). Qed.
Print Assumptions C30_concentrated_refuted.
(* existential: the witness is part of the statement *)

(** C31. For every case reachable through the API the table exists; a node no pattern loads
    has no entry and no load; otherwise the entry lacks exactly the contribution of the
    first pattern that loads the node.  Missing: that contribution. *)
Theorem C31_table_partial ext ops c lc : let w := final ext init ops in
  dget c (k_cases (w_core w)) = Some lc ->
  exists t, case_nodal_f_dict (k_heap (w_core w)) lc = Some t
  /\ forall n, exists v, case_load w c n = Some v /\ List.length v = 6%nat
     /\ ((forall fp, In fp (applied_in (k_heap (w_core w)) lc) -> ~ loads_node n (snd fp)) ->
         dget n t = None /\ v = zeros 6)
     /\ (forall pre f p post, applied_in (k_heap (w_core w)) lc = pre ++ (f, p) :: post ->
         (forall fp, In fp pre -> ~ loads_node n (snd fp)) -> loads_node n p ->
         exists e, dget n t = Some e /\ List.length e = 6%nat
           /\ forall i, nth i v 0 = nth i e 0 + f * load_entry (p_nodal p) n i).
Proof. exact (c31_table_partial ext ops c lc). Qed.
Print Assumptions C31_table_partial.
Example C31_example ext : let w := final ext init demo in dget "C" (k_cases (w_core w)) = Some demo_case
  /\ applied_in (k_heap (w_core w)) demo_case = [] ++ (2, demo_pat) :: [] /\ loads_node "B" demo_pat.
Proof. cbv zeta. rewrite demo_final. split; [reflexivity|]. split; [reflexivity|]. cbn. now left. Qed.

(** C31. Refuted: pattern P puts 1 on node A and has factor 2; the query answers 2, the
    table 0. *)
Theorem C31_refuted ext : exists ops c lc n t e v, let w := final ext init ops in
  dget c (k_cases (w_core w)) = Some lc /\ case_nodal_f_dict (k_heap (w_core w)) lc = Some t
  /\ dget n t = Some e /\ case_load w c n = Some v /\ e <> v.
Proof. exact (c31_refuted ext). Qed.
Print Assumptions C31_refuted.
(* existential: the witness is part of the statement *)

(** C32. If the history is accepted, it has one row per step of the longest curve and row t
    is the load at step t; all curves of patterns loading the node have that length.
    Missing: curves of a single sample beside longer ones (see C32_refuted). *)
Theorem C32_rows_partial heap c n rows L : NoDup (map fst (c_factor c)) -> longest c L ->
  (forall k p factor values, history_of heap c k p factor values -> loads_node n p -> List.length values <> 1%nat \/ L = 1%nat) ->
  case_nodal_f_history heap c n = Some rows ->
  List.length rows = L
  /\ (forall t, (t < L)%nat -> case_nodal_f heap c n t = Some (nth t rows []))
  /\ (forall k p factor values, history_of heap c k p factor values -> loads_node n p -> List.length values = L).
Proof. exact (c32_rows_partial heap c n rows L). Qed.
Print Assumptions C32_rows_partial.
Example C32_example : let P := pat_run [PNodalLoad "A" (1, 0, 0, 0, 0, 0)] (new_pattern "P") in
  let c := case_add_pattern "P" 0 2 (Some ([0; 1], [3; 4])) (new_case KStatic "S") in
  NoDup (map fst (c_factor c)) /\ longest c 2
  /\ (forall k p factor values, history_of [P] c k p factor values -> loads_node "A" p -> List.length values <> 1%nat \/ 2%nat = 1%nat)
  /\ exists rows, case_nodal_f_history [P] c "A" = Some rows /\ nth 0 (nth 1 rows []) 0 = 8.
Proof.
  cbv zeta. split; [repeat constructor; cbn; tauto|]. split; [split; [|split]|split].
  - cbn. intros k cv [E|[]]. injection E as <- <-. cbn. lia.
  - discriminate.
  - intros _. exists "P", ([0; 1], [3; 4]). split; [cbn; auto|reflexivity].
  - intros k p factor values (Hk & a & times & _ & _ & C) _. left. cbn in Hk. destruct Hk as [E|[]]. injection E as <- <-.
    cbn in C. injection C as _ <-. cbn. lia.
  - eexists. split; [reflexivity|]. cbn. ring.
Qed.

(** C32. A case whose patterns exist and whose curves for this node all have the same length
    gets a history. *)
Theorem C32_defined heap c n L : NoDup (map fst (c_factor c)) -> longest c L ->
  (forall k v, In (k, v) (c_factor c) -> exists p values, history_of heap c k p v values /\ (loads_node n p -> List.length values = L)) ->
  exists rows, case_nodal_f_history heap c n = Some rows.
Proof. exact (c32_defined heap c n L). Qed.
Print Assumptions C32_defined.
Example C32_defined_example : let P := pat_run [PNodalLoad "A" (1, 0, 0, 0, 0, 0)] (new_pattern "P") in
  let c := case_add_pattern "P" 0 2 (Some ([0; 1], [3; 4])) (new_case KStatic "S") in
  forall k v, In (k, v) (c_factor c) -> exists p values, history_of [P] c k p v values /\ (loads_node "A" p -> List.length values = 2%nat).
Proof.
  cbv zeta. intros k v [E|[]]. injection E as <- <-. do 2 eexists. split.
  - split; [cbn; auto|]. do 2 eexists. split; [reflexivity|]. split; reflexivity.
  - reflexivity.
Qed.

(** C32. A pattern that loads the node and whose curve is shorter than the longest (and is not
    a single sample) makes the history fail. *)
Theorem C32_rejected heap c n k p factor values L : NoDup (map fst (c_factor c)) -> longest c L ->
  history_of heap c k p factor values -> loads_node n p -> List.length values <> L -> List.length values <> 1%nat ->
  case_nodal_f_history heap c n = None.
Proof. exact (c32_rejected heap c n k p factor values L). Qed.
Print Assumptions C32_rejected.
Example C32_rejected_example : let P := pat_run [PNodalLoad "A" (1, 0, 0, 0, 0, 0)] (new_pattern "P") in
  let c := case_add_pattern "P" 0 2 (Some ([0; 1], [3; 4])) (case_add_pattern "Q" 0 1 (Some ([0; 1; 2], [5; 6; 7])) (new_case KStatic "S")) in
  longest c 3 /\ history_of [P] c "P" P 2 [3; 4] /\ loads_node "A" P.
Proof.
  cbv zeta. split; [split; [|split]|split].
  - cbn. intros k cv [E|[E|[]]]; injection E as <- <-; cbn; lia.
  - discriminate.
  - intros _. exists "Q", ([0; 1; 2], [5; 6; 7]). split; [cbn; auto|reflexivity].
  - split; [cbn; auto|]. exists 0%nat, [0; 1]. repeat split; reflexivity.
  - cbn. now left.
Qed.

(** C32. Refuted with a single-sample curve beside a longer one: the history repeats the
    sample for every step, the load at step 1 does not exist. *)
Theorem C32_refuted : exists heap c n rows L, NoDup (map fst (c_factor c)) /\ longest c L
  /\ (forall k p factor values, history_of heap c k p factor values -> six_wide p)
  /\ case_nodal_f_history heap c n = Some rows /\ List.length rows = L
  /\ exists t, (t < L)%nat /\ case_nodal_f heap c n t = None.
Proof. exact c32_refuted. Qed.
Print Assumptions C32_refuted.
(* existential: the witness is part of the statement *)

(** C40 (whole model). The mass matrix is the nodal masses on their own equations plus half
    of each member's mass at its ends and 1e-12 in their rotations. *)
Theorem C40_inertia ext ops w m M x y : w = final ext init ops ->
  assembled_model w = Some m -> mass_matrix w = Some M ->
  form (size m) M x y = lsum (map (node_inertia m x y) (f_nodes m)) + lsum (map (member_inertia m x y) (dvals (f_beams m))).
Proof. exact (c40_inertia ext ops w m M x y). Qed.
Print Assumptions C40_inertia.
Example C40_inertia_example ext : let w := final ext init demo in assembled_model w = Some demo_fem /\ exists M, mass_matrix w = Some M.
Proof.
  cbv zeta. assert (E : assembled_model (final ext init demo) = Some demo_fem) by (rewrite demo_final; reflexivity).
  split; [exact E|]. apply (c40_defined ext demo _ demo_fem eq_refl (demo_fresh_nodes ext) E).
Qed.

(** C40 (whole model). The mass matrix is symmetric. *)
Theorem C40_symmetric ext ops w m M : w = final ext init ops ->
  assembled_model w = Some m -> mass_matrix w = Some M -> forall i j, coo_get M i j = coo_get M j i.
Proof. exact (c40_symmetric ext ops w m M). Qed.
Print Assumptions C40_symmetric.
Example C40_symmetric_example ext : exists M, mass_matrix (final ext init demo) = Some M /\ forall i j, coo_get M i j = coo_get M j i.
Proof.
  destruct (C40_inertia_example ext) as (E & M & HM). exists M. split; [exact HM|]. exact (C40_symmetric ext demo _ demo_fem M eq_refl E HM).
Qed.

(** C40 (whole model). With nodal masses and densities that are not negative no motion has
    negative kinetic energy. *)
Theorem C40_nonneg ext ops w m M : w = final ext init ops ->
  assembled_model w = Some m -> mass_matrix w = Some M ->
  (forall k n i, In (k, n) (f_nodes m) -> 0 <= nth i (n_mass n) 0) ->
  (forall k b, In (k, b) (f_beams m) -> 0 <= density (b_prop b) * area (b_prop b)) ->
  forall x, 0 <= form (size m) M x x.
Proof. exact (c40_nonneg ext ops w m M). Qed.
Print Assumptions C40_nonneg.
Example C40_nonneg_example : (forall k n i, In (k, n) (f_nodes demo_fem) -> 0 <= nth i (n_mass n) 0)
  /\ (forall k b, In (k, b) (f_beams demo_fem) -> 0 <= density (b_prop b) * area (b_prop b)).
Proof.
  split.
  - intros k n i [E|[E|[]]]; injection E as <- <-; do 6 (destruct i as [|i]; [cbn; lra|]); destruct i; cbn; lra.
  - intros k b [E|[]]. injection E as <- <-. cbn. lra.
Qed.

(** C40 (whole model). A translation of all nodes gets the masses of all members times t.t
    plus the nodal masses along it. *)
Theorem C40_translation ext ops w m M t x : w = final ext init ops -> never_readds_nodes ext ops ->
  assembled_model w = Some m -> mass_matrix w = Some M -> rigid_motion m t zero3 x ->
  form (size m) M x x = lsum (map (node_mass_along t) (f_nodes m)) + lsum (map member_mass (dvals (f_beams m))) * dot3 t t.
Proof. exact (c40_translation ext ops w m M t x). Qed.
Print Assumptions C40_translation.
Example C40_translation_example : rigid_motion demo_fem (V3 1 2 3) zero3 (fun q => nth (q mod 6) [1; 2; 3; 0; 0; 0] 0)
  /\ lsum (map member_mass (dvals (f_beams demo_fem))) = 1.
Proof.
  split.
  - intros k n [E|[E|[]]]; injection E as <- <-; (split; apply vec3_eq; cbn; ring).
  - cbn. unfold member_mass. change (n_loc (b_ni demo_beam)) with (V3 0 0 0). change (n_loc (b_nj demo_beam)) with (V3 1 0 0). rewrite demo_dist. cbn. ring.
Qed.

(** C40 (whole model). The mass matrix of an assembled model always exists. *)
Theorem C40_defined ext ops w m : w = final ext init ops -> never_readds_nodes ext ops ->
  assembled_model w = Some m -> exists M, mass_matrix w = Some M.
Proof. exact (c40_defined ext ops w m). Qed.
Print Assumptions C40_defined.
Example C40_defined_example ext : exists M, mass_matrix (final ext init demo) = Some M.
Proof. exact (C40_defined ext demo _ demo_fem eq_refl (demo_fresh_nodes ext) (proj1 (C40_inertia_example ext))). Qed.

(** C41. For a member whose start is numbered before its end, five of the six values at the
    end and three at the start are those of the node.  Missing: axial displacement and
    twist at the start, the sign of the third displacement, members numbered the other way
    round (see C41_wrong). *)
Theorem C41_ends_partial ext ops a d b bm c : never_readds_nodes ext ops ->
  let w := final ext init ops in
  read_asb w = Some a -> read_disp w c = Some d -> List.length d = size (a_model a) ->
  dget b (f_beams (a_model a)) = Some bm ->
  let m := a_model a in let e := member_ends m bm (fun q => nth q d 0) in
  (num m (n_name (b_ni bm)) < num m (n_name (b_nj bm)))%nat ->
  exists v0 v1, deformation ext w b 0 c = Some v0 /\ deformation ext w b 1 c = Some v1
  /\ nth 1 v0 0 = vy (d_i e) /\ nth 4 v0 0 = vz (r_i e) /\ nth 5 v0 0 = vy (r_i e)
  /\ nth 0 v1 0 = vx (d_j e) /\ nth 1 v1 0 = vy (d_j e) /\ nth 3 v1 0 = vx (r_j e)
  /\ nth 4 v1 0 = vz (r_j e) /\ nth 5 v1 0 = vy (r_j e).
Proof. exact (c41_ends_partial ext ops a d b bm c). Qed.
Print Assumptions C41_ends_partial.
Example C41_example : exists ops a d bm, let w := final tip_solver init ops in
  never_readds_nodes tip_solver ops /\ read_asb w = Some a /\ read_disp w "C" = Some d /\ List.length d = size (a_model a)
  /\ dget "b" (f_beams (a_model a)) = Some bm /\ nth 6 d 0 = 2
  /\ (num (a_model a) (n_name (b_ni bm)) < num (a_model a) (n_name (b_nj bm)))%nat.
Proof.
  exists (demo ++ [OpSolveStatic "C"]), demo_asm, [0;0;0;0;0;0; 2;0;0;0;0;0], demo_beam. cbv zeta.
  split; [apply guarded_app; split; [apply demo_fresh_nodes|cbn; tauto]|]. destruct demo_solved_world as (K & ->).
  repeat (split; [reflexivity|]). cbn. lia.
Qed.

(** C41. What is answered instead, for every member: the axial displacement and twist at the
    start are the averages of the ends, the third displacement has the opposite sign, and
    the ends are swapped if the start is numbered after the end. *)
Theorem C41_wrong ext ops a d b bm c : never_readds_nodes ext ops ->
  let w := final ext init ops in
  read_asb w = Some a -> read_disp w c = Some d -> List.length d = size (a_model a) ->
  dget b (f_beams (a_model a)) = Some bm ->
  let m := a_model a in let e := member_ends m bm (fun q => nth q d 0) in
  exists v0 v1, deformation ext w b 0 c = Some v0 /\ deformation ext w b 1 c = Some v1
  /\ nth 0 v0 0 = (vx (d_i e) + vx (d_j e)) / 2 /\ nth 3 v0 0 = (vx (r_i e) + vx (r_j e)) / 2
  /\ ((num m (n_name (b_ni bm)) < num m (n_name (b_nj bm)))%nat -> nth 2 v0 0 = - vz (d_i e) /\ nth 2 v1 0 = - vz (d_j e))
  /\ ((num m (n_name (b_nj bm)) < num m (n_name (b_ni bm)))%nat ->
       v1 = [ vx (d_i e); vy (d_i e); - vz (d_i e); vx (r_i e); vz (r_i e); vy (r_i e) ]
       /\ nth 1 v0 0 = vy (d_j e) /\ nth 2 v0 0 = - vz (d_j e) /\ nth 4 v0 0 = vz (r_j e) /\ nth 5 v0 0 = vy (r_j e)).
Proof. exact (c41_wrong ext ops a d b bm c). Qed.
Print Assumptions C41_wrong.
Example C41_wrong_example : exists v0, deformation tip_solver (final tip_solver init (demo ++ [OpSolveStatic "C"])) "b" 0 "C" = Some v0
  /\ nth 0 v0 0 = (vx (d_i (member_ends demo_fem demo_beam (fun q => nth q [0;0;0;0;0;0; 2;0;0;0;0;0] 0)))
                  + vx (d_j (member_ends demo_fem demo_beam (fun q => nth q [0;0;0;0;0;0; 2;0;0;0;0;0] 0)))) / 2.
Proof.
  assert (F : never_readds_nodes tip_solver (demo ++ [OpSolveStatic "C"])) by (apply guarded_app; split; [apply demo_fresh_nodes|cbn; tauto]).
  destruct (C41_wrong tip_solver (demo ++ [OpSolveStatic "C"]) demo_asm [0;0;0;0;0;0; 2;0;0;0;0;0] "b" demo_beam "C" F) as (v0 & v1 & H0 & _ & H & _);
    try (destruct demo_solved_world as (K & ->); reflexivity); try reflexivity.
  exists v0. split; [exact H0|exact H].
Qed.

(** C41. Refuted: the fixed end B of a bar numbered against its direction is shown to move
    by 2. *)
Theorem C41_refuted : exists ext ops b s e c v, never_readds_nodes ext ops
  /\ let w := final ext init ops in
     answer ext w (OpBeamNodeNames b) = RNames [s; e]
     /\ answer ext w (OpNodalDisp e c) = RVec [0;0;0;0;0;0]
     /\ answer ext w (OpBeamDeformation b 1 c) = RVec v /\ nth 0 v 0 = 2.
Proof. exact c41_refuted. Qed.
Print Assumptions C41_refuted.
(* existential: the witness is part of the statement *)

(** C42. The displacement query of the i-th node returns the six stored values 6i..6i+5. *)
Theorem C42_block ext ops n i c a d : never_readds_nodes ext ops ->
  let w := final ext init ops in
  read_asb w = Some a -> read_disp w c = Some d -> nth_error (model_node_names (a_model a)) i = Some n ->
  exists v, answer ext w (OpNodalDisp n c) = RVec v /\ block_of i d v.
Proof. exact (c42_block ext ops n i c a d). Qed.
Print Assumptions C42_block.
Example C42_example : exists ops a d, let w := final tip_solver init ops in
  never_readds_nodes tip_solver ops /\ read_asb w = Some a /\ read_disp w "C" = Some d
  /\ nth_error (model_node_names (a_model a)) 1 = Some "B" /\ answer tip_solver w (OpNodalDisp "B" "C") = RVec [2;0;0;0;0;0].
Proof.
  exists (demo ++ [OpSolveStatic "C"]), demo_asm, [0;0;0;0;0;0; 2;0;0;0;0;0]. cbv zeta.
  split; [apply guarded_app; split; [apply demo_fresh_nodes|cbn; tauto]|]. destruct demo_solved_world as (K & ->).
  repeat (split; [reflexivity|]). reflexivity.
Qed.

(** C42. A name that is not a node has no displacement. *)
Theorem C42_unknown ext w n c a : read_asb w = Some a -> dget n (f_hnode (a_model a)) = None ->
  answer ext w (OpNodalDisp n c) = RNone.
Proof. exact (c42_unknown ext w n c a). Qed.
Print Assumptions C42_unknown.
Example C42_unknown_example : read_asb demo_world = Some demo_asm /\ dget "X" (f_hnode (a_model demo_asm)) = None.
Proof. split; reflexivity. Qed.

(** C42. The table of all displacements lists the nodes in order, and each entry is what the
    single query returns. *)
Theorem C42_all ext w c t : answer ext w (OpAllNodalDisp c) = RDict t ->
  answer ext w OpNodeNames = RNames (map fst t)
  /\ forall n v, In (n, v) t -> answer ext w (OpNodalDisp n c) = RVec v.
Proof. exact (c42_all ext w c t). Qed.
Print Assumptions C42_all.
Example C42_all_example : exists ops, answer tip_solver (final tip_solver init ops) (OpAllNodalDisp "C")
  = RDict [("A", [0;0;0;0;0;0]); ("B", [2;0;0;0;0;0])].
Proof. exists (demo ++ [OpSolveStatic "C"]). destruct demo_solved_world as (K & ->). reflexivity. Qed.

(** C42. The table exists when every single query answers. *)
Theorem C42_all_answers ext w c l a : answer ext w OpNodeNames = RNames l -> read_asb w = Some a ->
  (forall n, In n l -> exists v, answer ext w (OpNodalDisp n c) = RVec v) ->
  exists t, answer ext w (OpAllNodalDisp c) = RDict t.
Proof. exact (c42_all_answers ext w c l a). Qed.
Print Assumptions C42_all_answers.
Example C42_all_answers_example : exists t, answer tip_solver (final tip_solver init (demo ++ [OpSolveStatic "C"])) (OpAllNodalDisp "C") = RDict t.
Proof.
  destruct demo_solved_world as (K & E). apply (C42_all_answers tip_solver _ "C" ["A"; "B"] demo_asm); try (rewrite E; reflexivity).
  rewrite E. intros n [<-|[<-|[]]]; eexists; reflexivity.
Qed.

(** C61. After any sequence of additions with the duplicate check two nodes of different
    names are at least 1e-9 apart. *)
Theorem C61_apart l : exists m, add_merged l new_fem = Some m
  /\ forall k1 k2 n1 n2, k1 <> k2 -> dget k1 (f_nodes m) = Some n1 -> dget k2 (f_nodes m) = Some n2 ->
     1 / 1000000000 <= distance (n_loc n1) (n_loc n2).
Proof. exact (c61_apart l). Qed.
Print Assumptions C61_apart.
Example C61_example : add_merged [("A", (0, 0, 0)); ("B", (0, 0, 0)); ("A", (1, 0, 0))] new_fem <> None.
Proof. destruct (c61_apart [("A", (0, 0, 0)); ("B", (0, 0, 0)); ("A", (1, 0, 0))]) as (m & -> & _). discriminate. Qed.

(** C61. The answer is always a number, and it is the number of a node less than 1e-9 from
    the requested place: the new one, exactly there, or one of an unchanged model. *)
Theorem C61_answer l k x y z m : add_merged l new_fem = Some m ->
  exists hid m' k' n, model_add_node k x y z true m = Some (hid, m')
  /\ dget k' (f_hnode m') = Some hid /\ dget k' (f_nodes m') = Some n
  /\ distance (n_loc n) (V3 x y z) < 1 / 1000000000
  /\ ((k' = k /\ n_loc n = V3 x y z) \/ m' = m).
Proof. exact (c61_answer l k x y z m). Qed.
Print Assumptions C61_answer.
Example C61_answer_example : exists m, add_merged [("A", (0, 0, 0)); ("B", (1, 0, 0))] new_fem = Some m
  /\ exists hid m' k' n, model_add_node "C" 1 0 0 true m = Some (hid, m') /\ dget k' (f_hnode m') = Some hid
     /\ dget k' (f_nodes m') = Some n /\ distance (n_loc n) (V3 1 0 0) < 1 / 1000000000.
Proof.
  destruct (c61_apart [("A", (0, 0, 0)); ("B", (1, 0, 0))]) as (m & H & _). exists m. split; [exact H|].
  destruct (C61_answer _ "C" 1 0 0 m H) as (hid & m' & k' & n & H1 & H2 & H3 & H4 & _). exists hid, m', k', n. auto.
Qed.

(** C61. Refuted if "within the tolerance" is meant per coordinate: the check measures the
    distance, so two nodes 0.9e-9 apart in each coordinate stay separate. *)
Theorem C61_per_coordinate_refuted : exists l m k1 k2 n1 n2, add_merged l new_fem = Some m /\ k1 <> k2
  /\ dget k1 (f_nodes m) = Some n1 /\ dget k2 (f_nodes m) = Some n2
  /\ Rabs (vx (n_loc n1) - vx (n_loc n2)) < 1 / 1000000000 /\ Rabs (vy (n_loc n1) - vy (n_loc n2)) < 1 / 1000000000
  /\ Rabs (vz (n_loc n1) - vz (n_loc n2)) < 1 / 1000000000.
Proof. exact c61_cube_refuted. Qed.
Print Assumptions C61_per_coordinate_refuted.
(* existential: the witness is part of the statement *)
