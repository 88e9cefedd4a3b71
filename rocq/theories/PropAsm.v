(** Properties C21-C24: the assembled stiffness.
    Only statements, each closed by a lemma proved elsewhere, with the assumptions it
    rests on and an instance of its hypotheses. *)
From Coq Require Import Reals Lra Lia List String Arith Bool ZArith Sorting.Permutation Sorting.Sorted.
From Verif Require Import Base BaseFacts Csys Sections Element Load FeModel Assembly Solver Post Api SpecApi SpecGeom CsysFacts SpecBeam SpecAsm AsmProofs AsmProofs2 Demo Demo2.
Import ListNotations.
Local Open Scope string_scope.
Local Open Scope list_scope.
Local Open Scope R_scope.

(** C21. The assembled stiffness is defined for every reachable assembly whose members have
    mu <> -1 (the code divides by 1 + mu). *)
Theorem C21_defined ext ops w m : w = final ext init ops -> never_readds_nodes ext ops ->
  assembled_model w = Some m ->
  (forall k b, In (k, b) (f_beams m) -> 1 + poisson (b_prop b) <> 0) ->
  exists K, stiffness ext w = Some K.
Proof. exact (c21_defined ext ops w m). Qed.
Print Assumptions C21_defined.
Example C21_example ext : let w := final ext init demo in
  w = demo_world /\ never_readds_nodes ext demo /\ assembled_model w = Some demo_fem /\ exists K, stiffness ext w = Some K.
Proof.
  cbv zeta.   rewrite demo_final. split; [reflexivity|]. split; [apply demo_fresh_nodes|]. split; [reflexivity|].
  apply (c21_defined ext demo _ demo_fem); [symmetry; apply demo_final|apply demo_fresh_nodes|reflexivity|].
  intros k b [H|[]]. injection H as <- <-. cbn. lra.
Qed.

(** C21. x' K y is the sum of the energies of the members, each computed from the end
    points, the constants and the end displacements in member axes (shells: their own
    element matrix in shell axes). *)
Theorem C21_energy ext ops w m K x y : w = final ext init ops ->
  assembled_model w = Some m -> stiffness ext w = Some K ->
  form (size m) K x y = lsum (map (beam_work m x y) (dvals (f_beams m)))
                      + lsum (map (shell_work (x_ker ext) m x y) (dvals (f_shells m))).
Proof. exact (c21_energy ext ops w m K x y). Qed.
Print Assumptions C21_energy.
Example C21_energy_example ext : exists K, stiffness ext (final ext init demo) = Some K
  /\ form (size demo_fem) K (unit_at 6) (unit_at 6) = beam_work demo_fem (unit_at 6) (unit_at 6) demo_beam.
Proof.
  destruct (C21_example ext) as (E & _ & M & K & HK). exists K. split; [exact HK|].
  rewrite (C21_energy ext demo _ demo_fem K (unit_at 6) (unit_at 6) eq_refl M HK). cbn. ring.
Qed.

(** C21. (K y) at an equation collects the contributions of the elements attached to that
    node only. *)
Theorem C21_row ext ops w m K y q : w = final ext init ops ->
  assembled_model w = Some m -> stiffness ext w = Some K ->
  row (size m) K y q
  = lsum (map (beam_work m (unit_at q) y) (filter (beam_at m (q / 6)) (dvals (f_beams m))))
  + lsum (map (shell_work (x_ker ext) m (unit_at q) y) (filter (shell_at m (q / 6)) (dvals (f_shells m)))).
Proof. exact (c21_row ext ops w m K y q). Qed.
Print Assumptions C21_row.
Example C21_row_example ext y : exists K, stiffness ext (final ext init demo) = Some K
  /\ row (size demo_fem) K y 7 = beam_work demo_fem (unit_at 7) y demo_beam.
Proof.
  destruct (C21_example ext) as (E & _ & M & K & HK). exists K. split; [exact HK|].
  rewrite (C21_row ext demo _ demo_fem K y 7 eq_refl M HK). cbn. ring.
Qed.

(** C22. The assembled stiffness is symmetric (shells: if their compiled kernels are). *)
Theorem C22_symmetric ext ops w m K : w = final ext init ops ->
  assembled_model w = Some m -> stiffness ext w = Some K ->
  f_shells m = [] \/ symmetric_kernels (x_ker ext) ->
  forall p q, coo_get K p q = coo_get K q p.
Proof. exact (c22_symmetric ext ops w m K). Qed.
Print Assumptions C22_symmetric.
Example C22_example : f_shells demo_fem = [] /\ symmetric_kernels zero_ker.
Proof. split; [reflexivity|]. constructor; intros; intros i j _ _; reflexivity. Qed.

(** C22. Symmetrising before the solve changes nothing. *)
Theorem C22_symmetrise ext ops w m K : w = final ext init ops ->
  assembled_model w = Some m -> stiffness ext w = Some K ->
  f_shells m = [] \/ symmetric_kernels (x_ker ext) ->
  forall p q, coo_get (symmetrise K) p q = coo_get K p q.
Proof. exact (c22_symmetrise ext ops w m K). Qed.
Print Assumptions C22_symmetrise.
Example C22_symmetrise_example ext : exists K, stiffness ext (final ext init demo) = Some K
  /\ forall p q, coo_get (symmetrise K) p q = coo_get K p q.
Proof.
  destruct (C21_example ext) as (E & _ & M & K & HK). exists K. split; [exact HK|].
  exact (C22_symmetrise ext demo _ demo_fem K eq_refl M HK (or_introl (proj1 C22_example))).
Qed.

(** C23. The assembled stiffness is positive semidefinite. *)
Theorem C23_psd ext ops w m K : w = final ext init ops ->
  assembled_model w = Some m -> stiffness ext w = Some K ->
  (forall k b, In (k, b) (f_beams m) -> props_nonneg (b_prop b)) ->
  f_shells m = [] \/ psd_kernels (x_ker ext) /\ (forall k s, In (k, s) (f_shells m) -> shell_admissible s) ->
  forall x, 0 <= form (size m) K x x.
Proof. exact (c23_psd ext ops w m K). Qed.
Print Assumptions C23_psd.
Example C23_example : (forall k b, In (k, b) (f_beams demo_fem) -> props_nonneg (b_prop b)) /\ f_shells demo_fem = [].
Proof. split; [|reflexivity]. intros k b [H|[]]. injection H as <- <-. cbn. lra. Qed.

(** C24. A rigid motion of all nodes meets no resistance (beam models). *)
Theorem C24_no_force ext ops w m K t r x : w = final ext init ops -> never_readds_nodes ext ops ->
  assembled_model w = Some m -> stiffness ext w = Some K -> f_shells m = [] ->
  rigid_motion m t r x -> forall q, row (size m) K x q = 0.
Proof. exact (c24_no_force ext ops w m K t r x). Qed.
Print Assumptions C24_no_force.
Example C24_example : exists x, rigid_motion demo_fem (V3 1 2 3) (V3 4 5 6) x.
Proof.
  exists (fun q => nth q [1;2;3;4;5;6; 1;8;-2;4;5;6] 0). intros k n [H|[H|[]]]; injection H as <- <-;
  split; apply vec3_eq; cbn; ring.
Qed.

(** C24. The nodal forces of any deformation balance (beam models). *)
Theorem C24_balance ext ops w m K : w = final ext init ops -> never_readds_nodes ext ops ->
  assembled_model w = Some m -> stiffness ext w = Some K -> f_shells m = [] ->
  forall y, resultant_force m (row (size m) K y) = zero3 /\ resultant_moment m (row (size m) K y) = zero3.
Proof. exact (c24_balance ext ops w m K). Qed.
Print Assumptions C24_balance.
Example C24_balance_example ext : exists K, stiffness ext (final ext init demo) = Some K
  /\ forall y, resultant_force demo_fem (row (size demo_fem) K y) = zero3 /\ resultant_moment demo_fem (row (size demo_fem) K y) = zero3.
Proof.
  destruct (C21_example ext) as (E & F & M & K & HK). exists K. split; [exact HK|].
  exact (C24_balance ext demo _ demo_fem K eq_refl F M HK eq_refl).
Qed.
