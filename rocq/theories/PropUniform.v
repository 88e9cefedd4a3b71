(** C142: uniformly accelerated motions under Newmark's method.
    Only statements, each closed by a lemma proved elsewhere, with the assumptions it
    rests on and an instance of its hypotheses. *)
From Coq Require Import Reals Lra Lia List String Arith Bool ZArith Sorting.Permutation Sorting.Sorted.
From Verif Require Import Base BaseFacts Csys Sections Element Load FeModel Assembly Solver Post Api SpecAsm SpecSolve Dynamic SpecDyn DynProofs DynDemo SpecEnergy EnergyProofs EnergyDemo SpecSuper SuperProofs SuperDemo DriveDemo DelayProofs SpecUniform UniformProofs.
Import ListNotations.
Local Open Scope string_scope.
Local Open Scope list_scope.
Local Open Scope R_scope.

(** C142. A uniformly accelerated motion is followed exactly by Newmark's method, at every step, if beta is one half or the motion has a
    constant velocity.  What is missing: all other motions and values of beta, see the theorem below. *)
Theorem C142_partial : forall N solve K M C beta gamma T0 T1 T F u v a s out, exact_linear solve ->
  0 < beta -> 0 <= gamma -> T0 < T1 -> inertial N M -> psd_upto N K -> psd_upto N C ->
  (forall i, (i < N)%nat -> (1 - 2 * beta) * a i = 0) ->
  newmark N solve K M C beta gamma (T0 :: T1 :: T) F s = Some out -> moves_at N u v a 0 s -> drives N M C K u v a (T1 - T0) F ->
  forall n t r, nth_error out n = Some (t, r) -> moves_at N u v a (INR n * (T1 - T0)) r.
Proof. exact c142_newmark. Qed.
Print Assumptions C142_partial.
Example C142_partial_example : exists o t s, newmark 1 divide one one zero_mat (1/4) (1/2) [0;1] [unit_force; fun _ => 2] (Motion none unit_force none) = Some o
  /\ nth_error o 2 = Some (t, s) /\ mu_ s 0%nat = 2 /\ mv_ s 0%nat = 1 /\ ma_ s 0%nat = 0.
Proof.
  destruct (newmark_any unit_force (fun _ => 2) (Motion none unit_force none)) as (t1 & z1 & t2 & z2 & E). eexists. exists t2, z2. split; [exact E|]. split; [reflexivity|].
  assert (P : moves_at 1 none unit_force none (INR 2 * (1 - 0)) z2).
  { refine (C142_partial 1 divide one one zero_mat (1/4) (1/2) 0 1 [] _ none unit_force none _ _ divide_exact ltac:(lra) ltac:(lra) ltac:(lra) one_inertial one_psd none_psd _ E _ _ 2%nat t2 z2 eq_refl).
    - intros i _. unfold none. ring.
    - intros i _. unfold accelerated, none, unit_force. cbn [mu_ mv_ ma_]. apply f_equal2; [apply f_equal2|reflexivity]; field.
    - intros k g Q i _. destruct k as [|[|k]]; cbn [nth_error] in Q; [| |destruct k; discriminate]; injection Q as <-; cbn [rsum INR]; unfold none, unit_force, one, zero_mat; field. }
  pose proof (P 0%nat ltac:(lia)) as Q. unfold accelerated, none, unit_force in Q. cbn [INR] in Q. injection Q as Q1 Q2 Q3. repeat split; [rewrite Q1; field|rewrite Q2; ring|exact Q3].
Qed.

(** C142 is false of the code with the default beta of one quarter: a mass on a spring that starts with the acceleration one under the load
    that keeps this acceleration is found at another place after one step. *)
Theorem C142_refuted : exists N solve K M C gamma T F u v a s out t r, exact_linear solve
  /\ 0 <= gamma /\ inertial N M /\ psd_upto N K /\ psd_upto N C
  /\ newmark N solve K M C (1/4) gamma (0 :: 1 :: T) F s = Some out /\ moves_at N u v a 0 s /\ drives N M C K u v a (1 - 0) F
  /\ nth_error out 1 = Some (t, r) /\ ~ moves_at N u v a (INR 1 * (1 - 0)) r.
Proof. exact c142_refuted. Qed.
Print Assumptions C142_refuted.

