(** C137: sampled curves and the number of steps of a case.
    Only statements, each closed by a lemma proved elsewhere, with the assumptions it
    rests on and an instance of its hypotheses. *)
From Coq Require Import Reals Lra Lia List String Arith Bool ZArith Sorting.Permutation Sorting.Sorted.
From Verif Require Import Base BaseFacts Load Curve SpecCurve CurveProofs.
Import ListNotations.
Local Open Scope string_scope.
Local Open Scope list_scope.
Local Open Scope R_scope.

(** C137. A sine curve of n samples has n of them for every step other than 0, the k-th being A sin(w k dt + phi) at the time k dt, and
    none larger than the amplitude; a number of samples below zero gives none. *)
Theorem C137_sin : forall A w phi dt n, dt <> 0 -> exists c, curve_sin A w phi dt n = Some c
  /\ samples (fun t => A * sin (w * t + phi)) dt (Z.to_nat n) c /\ forall y, In y (snd c) -> Rabs y <= Rabs A.
Proof. exact c137_sin. Qed.
Print Assumptions C137_sin.
Example C137_sin_example : exists c, curve_sin 10 1 0 (1/10) 100 = Some c /\ List.length (snd c) = 100%nat /\ nth_error (snd c) 7 = Some (10 * sin (1 * (INR 7 * (1/10)) + 0)).
Proof.
  destruct (C137_sin 10 1 0 (1/10) 100 ltac:(lra)) as (c & E & (_ & L & S) & _). exists c. split; [exact E|]. change (Z.to_nat 100) with 100%nat in *.
  split; [exact L|]. exact (proj2 (S 7%nat ltac:(lia))).
Qed.

(** C137. The same for cosine curves; they are sine curves a quarter of a period ahead. *)
Theorem C137_cos : forall A w phi dt n, dt <> 0 -> exists c, curve_cos A w phi dt n = Some c
  /\ samples (fun t => A * cos (w * t + phi)) dt (Z.to_nat n) c /\ curve_sin A w (phi + PI / 2) dt n = Some c.
Proof. exact c137_cos. Qed.
Print Assumptions C137_cos.
Example C137_cos_example : exists c, curve_cos 10 1 0 (1/10) 100 = Some c /\ curve_sin 10 1 (0 + PI / 2) (1/10) 100 = Some c /\ nth_error (snd c) 0 = Some (10 * cos (1 * (INR 0 * (1/10)) + 0)).
Proof.
  destruct (C137_cos 10 1 0 (1/10) 100 ltac:(lra)) as (c & E & (_ & _ & S) & Q). exists c. split; [exact E|]. split; [exact Q|].
  change (Z.to_nat 100) with 100%nat in *. exact (proj2 (S 0%nat ltac:(lia))).
Qed.

(** C137. The number of steps of a load case, which direct integration runs through, is the number of values of its shortest curve; there
    is none only for a case without curves. *)
Theorem C137_steps : forall c, match snd (case_max_min_step c) with None => c_curve c = [] | Some m => least_values c m end.
Proof. exact c137_steps. Qed.
Print Assumptions C137_steps.
Example C137_steps_example : exists s t, curve_sin 1 1 0 (1/5) 30 = Some s /\ curve_cos 1 2 0 (1/5) 20 = Some t
  /\ snd (case_max_min_step (case_add_pattern "Q" 1 1 (Some t) (case_add_pattern "P" 0 1 (Some s) (new_case KStatic "C")))) = Some 20%nat.
Proof.
  destruct (C137_sin 1 1 0 (1/5) 30 ltac:(lra)) as (s & E & (_ & L & _) & _). destruct (C137_cos 1 2 0 (1/5) 20 ltac:(lra)) as (t & E' & (_ & L' & _) & _).
  change (Z.to_nat 30) with 30%nat in *. change (Z.to_nat 20) with 20%nat in *.
  exists s, t. split; [exact E|]. split; [exact E'|].
  pose proof (C137_steps (case_add_pattern "Q" 1 1 (Some t) (case_add_pattern "P" 0 1 (Some s) (new_case KStatic "C")))) as H.
  destruct (snd (case_max_min_step _)) as [m|]; [|discriminate H]. destruct H as ((v & [<-|[<-|[]]] & Q) & A); cbn [fst snd] in Q.
  - pose proof (A ("Q", t) (or_intror (or_introl eq_refl))) as B. cbn [snd] in B. lia.
  - f_equal. lia.
Qed.
