(** Vocabulary for the statements about earthquake records and their spectra. *)
From Coq Require Import Reals List.
From Verif Require Import Base.
Import ListNotations.
Local Open Scope R_scope.

(** The largest absolute value of a record *)
Definition peak (l : list R) (m : R) : Prop :=
  (exists x, In x l /\ Rabs x = m) /\ forall x, In x l -> Rabs x <= m.
(** The largest value *)
Definition top (l : list R) (m : R) : Prop := In m l /\ forall x, In x l -> x <= m.

(** The motion [x] of an oscillator of circular frequency [w] and damping ratio [z] under [p]
    per unit of mass *)
Definition oscillates (w z : R) (p x : R -> R) : Prop :=
  exists v a, (forall t, derivable_pt_lim x t (v t)) /\ (forall t, derivable_pt_lim v t (a t)) /\
    forall t, a t + 2 * z * w * v t + w * w * x t = p t.
(** Its motion after a unit impulse at time 0 *)
Definition impulse (w z s : R) : R :=
  exp (- z * w * s) * sin (w * sqrt (1 - z * z) * s) / (w * sqrt (1 - z * z)).
(** The answers to the impulses of a record sampled with step [dt], at sample [k] *)
Definition superposed (h : R -> R) (dt : R) (p : list R) (k : nat) : R :=
  rsum (S k) (fun i => nth i p 0 * dt * h (INR k * dt - INR i * dt)).

(** Its steady motion under [w^2 A cos (f t + phi)], that is, measured by the static answer *)
Definition steady (w z A f phi t : R) : R :=
  let r := f / w in
  A * ((1 - r * r) * cos (f * t + phi) + 2 * z * r * sin (f * t + phi)) /
  ((1 - r * r) * (1 - r * r) + 2 * z * r * (2 * z * r)).

(** Instants and periods with a fixed step *)
Definition instants (n : nat) (dt : R) : list R := map (fun k => INR k * dt) (seq 0 n).

(** A curve is continuous at every point of a set. *)
Definition continuous_on (D : R -> Prop) (f : R -> R) : Prop := forall t, D t -> continuity_pt f t.

(** A sum of harmonics: amplitude, number of cycles in [N] samples, phase *)
Definition harmonics (N : nat) (hs : list (R * nat * R)) (m : nat) : R :=
  lsum (map (fun '(A, j, phi) => A * cos (2 * PI * INR j * INR m / INR N + phi)) hs).
(** The sum of the steady motions under each of them, scaled by [c] *)
Definition steady_sum (w z c dt : R) (N : nat) (hs : list (R * nat * R)) (n : nat) : R :=
  lsum (map (fun '(A, j, phi) => steady w z (c * A) (2 * PI * INR j / (INR N * dt)) phi (INR n * dt)) hs).
Definition cycles_below (N : nat) (hs : list (R * nat * R)) : Prop :=
  Forall (fun '(A, j, phi) => 2 * j < N)%nat hs.

(** The sum of squared differences between an ordinate and a target over the samples
    [i0 .. i1-1] *)
Definition squared_sum (i0 i1 : nat) (ordinate target : nat -> R) : R :=
  rsum (i1 - i0) (fun k => (ordinate (i0 + k)%nat - target (i0 + k)%nat) * (ordinate (i0 + k)%nat - target (i0 + k)%nat)).
(** [e] is that sum over the samples of the range [lo, hi] but the last *)
Definition compared (ordinates : list R) (target : nat -> R) (dt : R) (n : nat) (lo hi e : R) : Prop :=
  exists i0 i1, (i0 <= i1 < n)%nat /\
    (forall i, (i < n)%nat -> (lo <= INR i * dt <= hi <-> (i0 <= i <= i1)%nat)) /\
    e = squared_sum i0 i1 (fun i => nth i ordinates 0) target.
