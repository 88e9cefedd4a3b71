(** C141: a structure in balance with a constant load stays as it is.
    Only statements, each closed by a lemma proved elsewhere, with the assumptions it
    rests on and an instance of its hypotheses. *)
From Coq Require Import Reals Lra Lia List String Arith Bool ZArith Sorting.Permutation Sorting.Sorted.
From Verif Require Import Base BaseFacts Csys Sections Element Load FeModel Assembly Solver Post Api SpecAsm SpecSolve Dynamic SpecDyn DynProofs DynDemo SpecEnergy EnergyProofs EnergyDemo SpecSuper SuperProofs SuperDemo DriveDemo DelayProofs SpecStand StandProofs.
Import ListNotations.
Local Open Scope string_scope.
Local Open Scope list_scope.
Local Open Scope R_scope.

(** C141. With Newmark's method a structure at rest whose displacements balance a constant load stays as it is. *)
Theorem C141_newmark : forall N solve K M C beta gamma T0 T1 T F f s out, exact_linear solve ->
  0 < beta -> 0 <= gamma -> T0 < T1 -> inertial N M -> psd_upto N K -> psd_upto N C ->
  newmark N solve K M C beta gamma (T0 :: T1 :: T) F s = Some out -> in_balance N K f s -> constant_load N f F ->
  forall n t r, nth_error out n = Some (t, r) -> same_motion N r s.
Proof. exact c141_newmark. Qed.
Print Assumptions C141_newmark.
Example C141_newmark_example : exists o t s, newmark 1 divide one one zero_mat (1/4) (1/2) [0;1] [unit_force; unit_force] (Motion unit_force none none) = Some o
  /\ nth_error o 2 = Some (t, s) /\ mu_ s 0%nat = 1 /\ mv_ s 0%nat = 0 /\ ma_ s 0%nat = 0.
Proof.
  destruct (newmark_any unit_force unit_force (Motion unit_force none none)) as (t1 & z1 & t2 & z2 & E). eexists. exists t2, z2. split; [exact E|]. split; [reflexivity|].
  refine (C141_newmark 1 divide one one zero_mat (1/4) (1/2) 0 1 [] _ unit_force _ _ divide_exact ltac:(lra) ltac:(lra) ltac:(lra) one_inertial one_psd none_psd E _ _ 2%nat t2 z2 eq_refl 0%nat ltac:(lia)).
  - split; [|split]; intros i _; [|reflexivity..]. cbn [rsum mu_]. unfold one, unit_force. ring.
  - intros k g Q. destruct k as [|[|k]]; cbn [nth_error] in Q; [| |destruct k; discriminate]; injection Q as <-; reflexivity.
Qed.

(** C141. The same with Wilson's method. *)
Theorem C141_wilson : forall N solve K M C beta gamma theta T0 T1 T F f s out, exact_linear solve ->
  0 < beta -> 0 <= gamma -> 0 < theta -> T0 < T1 -> inertial N M -> psd_upto N K -> psd_upto N C ->
  wilson N solve K M C beta gamma theta (T0 :: T1 :: T) F s = Some out -> in_balance N K f s -> constant_load N f F ->
  forall n t r, nth_error out n = Some (t, r) -> same_motion N r s.
Proof. exact c141_wilson. Qed.
Print Assumptions C141_wilson.
Example C141_wilson_example : exists o t s, wilson 1 divide one one zero_mat (1/6) (1/2) (7/5) [0;1] [unit_force; unit_force] (Motion unit_force none none) = Some o
  /\ nth_error o 2 = Some (t, s) /\ mu_ s 0%nat = 1 /\ mv_ s 0%nat = 0 /\ ma_ s 0%nat = 0.
Proof.
  destruct (wilson_any unit_force unit_force (Motion unit_force none none)) as (t1 & z1 & t2 & z2 & E). eexists. exists t2, z2. split; [exact E|]. split; [reflexivity|].
  refine (C141_wilson 1 divide one one zero_mat (1/6) (1/2) (7/5) 0 1 [] _ unit_force _ _ divide_exact ltac:(lra) ltac:(lra) ltac:(lra) ltac:(lra) one_inertial one_psd none_psd E _ _ 2%nat t2 z2 eq_refl 0%nat ltac:(lia)).
  - split; [|split]; intros i _; [|reflexivity..]. cbn [rsum mu_]. unfold one, unit_force. ring.
  - intros k g Q. destruct k as [|[|k]]; cbn [nth_error] in Q; [| |destruct k; discriminate]; injection Q as <-; reflexivity.
Qed.
