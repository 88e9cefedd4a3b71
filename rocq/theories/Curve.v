(** Model of /repo/hyperstatic/common/curve.py: sampled curves.  [np.arange(0,stop,step)]
    answers ceil(stop/step) numbers k*step and raises for the step 0.  Numbers are reals: in
    floating point n*dt/dt may come out above n and [arange] then answers one number more. *)
From Coq Require Import Reals List String Arith Bool ZArith.
From Verif Require Import Base.
Import ListNotations.
Local Open Scope R_scope.

(** the smallest whole number not below [r] *)
Definition ceiling (r : R) : Z := (1 - up (- r))%Z.
(** curve.py:28 and 34: [np.arange(0,n*dt,dt)] *)
Definition arange (stop step : R) : option (list R) :=
  if Reqb step 0 then None
  else Some (map (fun k => INR k * step) (seq 0 (Z.to_nat (ceiling (stop / step))))).
(** curve.py:5-9 and 23-24: a curve is its two rows; the name is read by nothing. *)
Definition sampled : Type := (list R * list R)%type.
(** curve.py:26-30 *)
Definition curve_sin (A w phi dt : R) (n : Z) : option sampled :=
  bindO (arange (IZR n * dt) dt) (fun x => Some (x, map (fun t => A * sin (w * t + phi)) x)).
(** curve.py:32-36 *)
Definition curve_cos (A w phi dt : R) (n : Z) : option sampled :=
  bindO (arange (IZR n * dt) dt) (fun x => Some (x, map (fun t => A * cos (w * t + phi)) x)).
