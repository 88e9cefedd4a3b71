(** Vocabulary for the statements about design spectra. *)
From Coq Require Import Reals.
Local Open Scope R_scope.

(** A curve is continuous if it is at every period from 0 on. *)
Definition continuous_curve (f : R -> R) : Prop := forall t, 0 <= t -> continuity_pt f t.
Definition falls_from (c : R) (f : R -> R) : Prop := forall s t, c <= s -> s <= t -> f t <= f s.
