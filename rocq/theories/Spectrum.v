(** Model of the design spectra: /repo/hyperstatic/app/design/GB/seismic/spectrum.py
    (class [GB50010]) and /repo/hyperstatic/app/seismic/wave2spec.py
    ([GB50011_spectrum]). *)
From Coq Require Import Reals List Arith ZArith.
From Verif Require Import Base.
Import ListNotations.
Local Open Scope R_scope.

(** spectrum.py:13 and wave2spec.py:132.  Python raises for a zero denominator
    ([xi = -0.05]); the model is meaningful for other ratios. *)
Definition gb_gamma (xi : R) : R := 9/10 + (5/100 - xi) / (3/10 + 6 * xi).
(** spectrum.py:14-15, wave2spec.py:133-134 *)
Definition gb_eta1 (xi : R) : R :=
  let e := 2/100 + (5/100 - xi) / (4 + 32 * xi) in if Rltb 0 e then e else 0.
(** spectrum.py:16-17, wave2spec.py:135-136 *)
Definition gb_eta2 (xi : R) : R :=
  let e := 1 + (5/100 - xi) / (8/100 + 16/10 * xi) in if Rltb (55/100) e then e else 55/100.

(** [np.interp(t,[x0,x1],[y0,y1])] with [x0 < x1]: constant outside the interval *)
Definition interp2 (x0 x1 y0 y1 t : R) : R :=
  if Rltb t x0 then y0 else if Rltb x1 t then y1 else y0 + (y1 - y0) / (x1 - x0) * (t - x0).

(** spectrum.py:21-28, one period *)
Definition gb50010_at (alpha_max Tg xi t : R) : R :=
  if Rltb t (1/10) then interp2 0 (1/10) (45/100 * alpha_max) (gb_eta2 xi * alpha_max) t
  else if Rltb t Tg then gb_eta2 xi * alpha_max
  else if Rltb t (5 * Tg) then Rpower (Tg / t) (gb_gamma xi) * gb_eta2 xi * alpha_max
  else (gb_eta2 xi * Rpower (2/10) (gb_gamma xi) - gb_eta1 xi * (t - 5 * Tg)) * alpha_max.
(** wave2spec.py:137-145, one period *)
Definition gb50011_at (alpha_max Tg zeta t : R) : R :=
  if Rltb t (1/10) then 45/100 * alpha_max + (gb_eta2 zeta - 45/100) * alpha_max / (1/10) * t
  else if Rltb t Tg then gb_eta2 zeta * alpha_max
  else if Rltb t (5 * Tg) then Rpower (Tg / t) (gb_gamma zeta) * gb_eta2 zeta * alpha_max
  else (gb_eta2 zeta * Rpower (2/10) (gb_gamma zeta) - gb_eta1 zeta * (t - 5 * Tg)) * alpha_max.

(** spectrum.py:18-29: periods and ordinates; [np.linspace(0,6,601)] *)
Definition gb50010 (alpha_max Tg xi : R) : list (R * R) :=
  map (fun k => let t := INR k * (6 / 600) in (t, gb50010_at alpha_max Tg xi t)) (seq 0 601).
(** wave2spec.py:131 and 146: [np.arange(0,6,dt)] has the multiples of dt below 6 (for
    [dt > 0], in exact arithmetic); [n] is [ceil(6/dt)]. *)
Definition gb50011 (alpha_max Tg zeta dt : R) : list (R * R) :=
  map (fun k => let t := INR k * dt in (t, gb50011_at alpha_max Tg zeta t)) (seq 0 (Z.to_nat (- Int_part (- (6 / dt))))).
