(** Property C54: the design spectra.
    Only statements, each closed by a lemma proved elsewhere, with the assumptions it
    rests on and an instance of its hypotheses. *)
From Coq Require Import Reals Lra Lia List String Arith Bool ZArith Sorting.Permutation Sorting.Sorted.
From Verif Require Import Base Spectrum SpecSpectrum SpectrumProofs.
Import ListNotations.
Local Open Scope string_scope.
Local Open Scope list_scope.
Local Open Scope R_scope.

(** C54. The two implementations agree at every period. *)
Theorem C54_agree alpha Tg xi t : 0 <= xi -> 0 <= t -> gb50010_at alpha Tg xi t = gb50011_at alpha Tg xi t.
Proof. exact (c54_agree alpha Tg xi t). Qed.
Print Assumptions C54_agree.
Example C54_agree_example : gb50010_at (8/100) (35/100) (5/100) 1 = gb50011_at (8/100) (35/100) (5/100) 1.
Proof. apply C54_agree; lra. Qed.

(** C54. And so do the tables they build with the same step (the second one ends before 6 s). *)
Theorem C54_tables alpha Tg xi : 0 <= xi -> firstn 600 (gb50010 alpha Tg xi) = gb50011 alpha Tg xi (6/600).
Proof. exact (c54_samples alpha Tg xi). Qed.
Print Assumptions C54_tables.
Example C54_tables_example : firstn 600 (gb50010 (8/100) (35/100) (5/100)) = gb50011 (8/100) (35/100) (5/100) (6/600).
Proof. apply C54_tables; lra. Qed.

(** C54. The first table has the 601 periods from 0 to 6 s in steps of 0.01 s, and the ordinates of the
    second curve. *)
Theorem C54_table alpha Tg xi k t y : 0 <= xi -> (nth_error (gb50010 alpha Tg xi) k = Some (t, y) <-> (k <= 600)%nat /\ t = INR k / 100 /\ y = gb50011_at alpha Tg xi t).
Proof. exact (c54_table alpha Tg xi k t y). Qed.
Print Assumptions C54_table.
Example C54_table_example : nth_error (gb50010 (8/100) (35/100) (5/100)) 600 = Some (INR 600 / 100, gb50011_at (8/100) (35/100) (5/100) (INR 600 / 100)).
Proof. apply C54_table; [lra|]. split; [apply Nat.le_refl|auto]. Qed.

(** C54. The second has exactly the multiples of the step below 6 s, for every step. *)
Theorem C54_table_step alpha Tg zeta dt k t y : 0 < dt ->
  (nth_error (gb50011 alpha Tg zeta dt) k = Some (t, y) <-> INR k * dt < 6 /\ t = INR k * dt /\ y = gb50011_at alpha Tg zeta t).
Proof. exact (c54_table_step alpha Tg zeta dt k t y). Qed.
Print Assumptions C54_table_step.
Example C54_table_step_example : nth_error (gb50011 (8/100) (35/100) (5/100) 4) 1 = Some (INR 1 * 4, gb50011_at (8/100) (35/100) (5/100) (INR 1 * 4))
  /\ nth_error (gb50011 (8/100) (35/100) (5/100) 4) 2 = None.
Proof.
  split; [apply C54_table_step; [lra|]; split; [cbn; lra|auto]|].
  destruct (nth_error (gb50011 (8/100) (35/100) (5/100) 4) 2) as [[t y]|] eqn:E; [|reflexivity]. apply C54_table_step in E; [|lra]. cbn in E. lra.
Qed.

(** C54. Both curves are continuous from 0 on if the characteristic period is at least 0.1 s. *)
Theorem C54_continuous alpha Tg xi : 0 <= xi -> 1/10 <= Tg -> continuous_curve (gb50010_at alpha Tg xi) /\ continuous_curve (gb50011_at alpha Tg xi).
Proof. exact (c54_continuous alpha Tg xi). Qed.
Print Assumptions C54_continuous.
Example C54_continuous_example : continuity_pt (gb50011_at (8/100) (35/100) (5/100)) (5 * (35/100)).
Proof. apply (C54_continuous (8/100) (35/100) (5/100)); lra. Qed.

(** C54. Below that they jump at 0.1 s. *)
Theorem C54_short_refuted : exists alpha Tg xi, 0 < alpha /\ 0 < Tg /\ 0 < xi /\ ~ continuity_pt (gb50011_at alpha Tg xi) (1/10).
Proof. exact c54_short_refuted. Qed.
Print Assumptions C54_short_refuted.


(** C54. The ordinates are positive over the range of the tables. *)
Theorem C54_positive alpha Tg xi t : 0 < alpha -> 0 < Tg -> 0 <= xi -> 0 <= t <= 6 -> 0 < gb50011_at alpha Tg xi t.
Proof. exact (c54_positive alpha Tg xi t). Qed.
Print Assumptions C54_positive.
Example C54_positive_example : 0 < gb50011_at (8/100) (35/100) (1/100) 6.
Proof. apply C54_positive; lra. Qed.

(** C54. From 0.1 s on the curve never rises. *)
Theorem C54_falls alpha Tg xi : 0 <= alpha -> 0 < Tg -> 0 <= xi -> falls_from (1/10) (gb50011_at alpha Tg xi).
Proof. exact (c54_falls alpha Tg xi). Qed.
Print Assumptions C54_falls.
Example C54_falls_example : gb50011_at (8/100) (35/100) (5/100) 3 <= gb50011_at (8/100) (35/100) (5/100) (1/2).
Proof. apply C54_falls; lra. Qed.

(** C54. No ordinate exceeds the plateau. *)
Theorem C54_peak alpha Tg xi t : 0 <= alpha -> 0 < Tg -> 0 <= xi -> 0 <= t -> gb50011_at alpha Tg xi t <= gb_eta2 xi * alpha.
Proof. exact (c54_peak alpha Tg xi t). Qed.
Print Assumptions C54_peak.
Example C54_peak_example : gb50011_at (8/100) (35/100) (5/100) 0 <= gb_eta2 (5/100) * (8/100).
Proof. apply C54_peak; lra. Qed.
