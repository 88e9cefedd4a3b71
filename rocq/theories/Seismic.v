(** Model of the tools for earthquake records: /repo/hyperstatic/app/seismic/wave2spec.py
    (scaling, response spectra by convolution and by Fourier transform, envelope),
    wave_selection.py ([select]) and the envelope and power spectrum of spec2wave.py.

    Simplifications.  Numbers are real.  [read_wave] (wave2spec.py:21-36) answers the numbers
    of the file, one per line; the model is given those numbers.  Where numpy answers nan or
    inf the model answers [None].  Plotting and printing are left out. *)
From Coq Require Import Reals List Arith ZArith String.
From Verif Require Import Base Spectrum.
Import ListNotations.
Local Open Scope R_scope.

(** [max] and [np.max]: raise on an empty list. *)
Definition max_of (l : list R) : option R :=
  match l with [] => None | x :: r => Some (fold_left Rmax r x) end.

(** wave2spec.py:38-40.  A largest value of zero raises ZeroDivisionError. *)
Definition amptitude (wave : list R) (a_max : R) : option (list R) :=
  bindO (max_of wave) (fun m =>
    if Reqb m 0 then None else Some (map (fun i => i * a_max / m) wave)).

(** wave2spec.py:53 and 97, spec2wave.py:71: scaling and conversion from cm/s2 to m/s2 *)
Definition scale_record (ag : list R) (a_max : R) : option (list R) :=
  bindO (max_of ag) (fun m =>
    if Reqb m 0 then None else Some (map (fun i => (1/100) * i * a_max / m) ag)).

(** [np.arange(dt,6.0+dt,dt)] (wave2spec.py:56, 98) in exact arithmetic, [dt > 0] *)
Definition period_count (dt : R) : nat := Z.to_nat (- Int_part (- (6 / dt))).
Definition periods (dt : R) : list R := map (fun k => dt + INR k * dt) (seq 0 (period_count dt)).

(** [convolve(p,q)[:len(t)]] of wave2spec.py:80, entry [k]: the full convolution; [q] has the
    length of [t], entries beyond the ends count as zero *)
Definition conv_at (p q : list R) (k : nat) : R :=
  rsum (S k) (fun i => vnth p i * vnth q (k - i)).

(** wave2spec.py:70-83.  [None]: fewer than two instants, or no oscillation ([zeta^2 >= 1]
    or a zero frequency), where numpy answers nan or inf. *)
Definition duhamel (w zeta : R) (t p : list R) : option (list R * list R * list R) :=
  if Nat.ltb (List.length t) 2 then None else
  let dt := (vnth t (List.length t - 1) - vnth t 0) / INR (List.length t - 1) in
  if Rltb (zeta * zeta) 1 then
    let w_ := w * sqrt (1 - zeta * zeta) in
    if Reqb w_ 0 then None else
    let q := map (fun s => exp (- zeta * w_ * s) * sin (w_ * s)) t in
    let Sd := map (fun k => 1 / w_ * conv_at p q k * dt) (seq 0 (List.length t)) in
    let Sv := map (fun x => x * w_) Sd in
    let Sa := map (fun x => x * w_) Sv in
    Some (Sa, Sv, Sd)
  else None.

(** wave2spec.py:62-67, one period *)
Definition spectrum_at (ag t : list R) (xi T : R) : option (R * R * R) :=
  bindO (duhamel (2 * PI / T) xi t ag) (fun '(Sa, Sv, Sd) =>
  bindO (max_of Sa) (fun a => bindO (max_of Sv) (fun v => bindO (max_of Sd) (fun d =>
    Some (a / (98/10), v, d))))).

(** wave2spec.py:42-68: periods, and for each the ordinates of acceleration, velocity and
    displacement.  A step that is not positive is left out. *)
Definition wave2spectrum (file : list R) (dt xi a_max : R) : option (list R * list (R * R * R)) :=
  if Rltb 0 dt then
    bindO (scale_record file a_max) (fun ag =>
    let t := map (fun k => INR k * dt) (seq 0 (List.length ag)) in
    bindO (mapM (spectrum_at ag t xi) (periods dt)) (fun s => Some (periods dt, s)))
  else None.

(** Complex numbers as pairs *)
Definition cpx : Type := (R * R)%type.
Definition cmul (a b : cpx) : cpx :=
  (fst a * fst b - snd a * snd b, fst a * snd b + snd a * fst b).
(** 1 over a complex number *)
Definition cinv (a : cpx) : cpx :=
  (fst a / (fst a * fst a + snd a * snd a), - snd a / (fst a * fst a + snd a * snd a)).

(** the angle [2 pi k n / N] *)
Definition turn (N k n : nat) : R := 2 * PI * INR k * INR n / INR N.
(** [fft(a,N)] (wave2spec.py:120), entry [k]: the record is cut or padded to [N] samples *)
Definition fft_at (N : nat) (a : list R) (k : nat) : cpx :=
  (rsum N (fun m => vnth a m * cos (turn N k m)), - rsum N (fun m => vnth a m * sin (turn N k m))).
(** [ifft(z,N).real] (wave2spec.py:123), entry [n] *)
Definition ifft_real_at (N : nat) (z : nat -> cpx) (n : nat) : R :=
  1 / INR N * rsum N (fun k => fst (z k) * cos (turn N k n) - snd (z k) * sin (turn N k n)).
(** [fftfreq(N,d=dt)], entry [k] *)
Definition fftfreq_at (N : nat) (dt : R) (k : nat) : R :=
  (if Nat.ltb k ((N + 1) / 2) then INR k else INR k - INR N) / (INR N * dt).

(** the denominator of [H] (wave2spec.py:122) *)
Definition h_den (w wd xi : R) : cpx := (1 - (w / wd) * (w / wd), 2 * xi * (w / wd)).
(** wave2spec.py:120-123: the record filtered by [H] *)
Definition fft_response (N : nat) (ag : list R) (dt xi wd : R) (n : nat) : R :=
  let af := fun k => (fst (fft_at N ag k) / INR N, snd (fft_at N ag k) / INR N) in
  let H := fun k => cinv (h_den (2 * PI * fftfreq_at N dt k) wd xi) in
  ifft_real_at N (fun k => cmul (af k) (H k)) n * INR N.
(** wave2spec.py:117-124.  [None]: [1 <= xi] (the power is complex or zero), or a zero
    denominator. *)
Definition max_response (N : nat) (ag : list R) (dt xi T : R) : option R :=
  if Rltb xi 1 then
    let wn := 2 * PI / T in
    let wd := sqrt (1 - xi) * wn in
    if existsb (fun k => let d := h_den (2 * PI * fftfreq_at N dt k) wd xi in
                         andb (Reqb (fst d) 0) (Reqb (snd d) 0)) (seq 0 N) then None
    else bindO (max_of (map (fft_response N ag dt xi wd) (seq 0 N))) (fun m => Some (m / (98/10)))
  else None.
(** wave2spec.py:99, 113-114: [nex2pow(256)*16] *)
Definition nfft : nat := (256 * 16)%nat.
(** wave2spec.py:86-126; [samples] is [nfft] in the code *)
Definition fft2spec_n (samples : nat) (file : list R) (dt xi a_max : R) : option (list R * list R) :=
  if Rltb 0 dt then
    bindO (scale_record file a_max) (fun ag =>
    bindO (mapM (max_response samples ag dt xi) (periods dt)) (fun Sa => Some (periods dt, Sa)))
  else None.
Definition fft2spec : list R -> R -> R -> R -> option (list R * list R) := fft2spec_n nfft.

(** wave2spec.py:148-160 *)
Definition envelope (t : R) : R :=
  if Rltb t 4 then t * t / (4 * 4)
  else if Rltb t 15 then 1
  else if Rltb t 40 then exp (- (15/100) * (t - 15))
  else 0.
(** spec2wave.py:25-34 *)
Definition envelope2 (t : R) : R :=
  if andb (Rltb 0 t) (negb (Rltb 10 t)) then (t / 10) * (t / 10)
  else if andb (Rltb 10 t) (Rltb t 20) then 1
  else exp (- (1/10) * (t - 20)).
(** spec2wave.py:41: the power spectrum for a given ordinate [st] of the target spectrum.
    The logarithms are those of the standard library; the model is meaningful where their
    arguments are positive. *)
Definition power (zeta r td st wk : R) : R :=
  zeta / (PI * wk) * (st * st) / ln (- PI * ln ((1 - r) / (wk * td))).

(** wave_selection.py:3 *)
Definition square_err (x y : list R) : R :=
  lsum (map (fun '(a, b) => (a - b) * (a - b)) (combine x y)).

(** A record file of wave_selection.py: its name, the step written at the end of the name
    (lines 18-19) and its samples. *)
Record wavefile := WaveFile { wf_name : string; wf_dt : R; wf_samples : list R }.

(** wave_selection.py:30-33: the error over the sensitive range.  The slices end before the
    last index.  [None]: no period in the range (IndexError), or lengths that differ. *)
Definition range_error (Sa : list R) (s : list (R * R)) (lo hi : R) : option R :=
  let domain := filter (fun i => let t := fst (nth i s (0, 0)) in
                                 andb (negb (Rltb t lo)) (negb (Rltb hi t))) (seq 0 (List.length s)) in
  match domain with
  | [] => None
  | d0 :: _ =>
      let d1 := last domain d0 in
      let x := firstn (d1 - d0) (skipn d0 Sa) in
      let y := firstn (d1 - d0) (skipn d0 (map snd s)) in
      if Nat.eqb (List.length x) (List.length y) then Some (square_err x y) else None
  end.

(** wave_selection.py:17-35: one turn of the loop; the step and the target spectrum are
    carried over from the turn before *)
Definition select_one (spec : list R -> R -> R -> R -> option (list R * list R))
    (amax Tg damp lo hi : R) (st : R * list (R * R)) (f : wavefile)
    : option ((R * list (R * R)) * (wavefile * R)) :=
  let st' := if Reqb (wf_dt f) (fst st) then st else (wf_dt f, gb50011 amax Tg damp (wf_dt f)) in
  bindO (spec (wf_samples f) (fst st') damp (amax * 440)) (fun '(T, Sa) =>
  bindO (range_error Sa (snd st') lo hi) (fun e => Some (st', (f, e)))).
Fixpoint select_loop (spec : list R -> R -> R -> R -> option (list R * list R))
    (amax Tg damp lo hi : R) (st : R * list (R * R)) (fs : list wavefile)
    : option ((R * list (R * R)) * list (wavefile * R)) :=
  match fs with
  | [] => Some (st, [])
  | f :: r => bindO (select_one spec amax Tg damp lo hi st f) (fun '(st1, e) =>
              bindO (select_loop spec amax Tg damp lo hi st1 r) (fun '(st2, es) => Some (st2, e :: es)))
  end.

(** [MSE.sort(key=...)] (wave_selection.py:36): stable *)
Fixpoint insert_err (x : wavefile * R) (l : list (wavefile * R)) : list (wavefile * R) :=
  match l with
  | [] => [x]
  | y :: r => if Rltb (snd y) (snd x) then y :: insert_err x r else x :: l
  end.
Definition sort_err (l : list (wavefile * R)) : list (wavefile * R) :=
  fold_right insert_err [] l.

(** wave_selection.py:8-37 and the curves of lines 42-43: the chosen files with their errors,
    and the spectrum drawn for each, computed with the step left by the loop.  [spec] is
    [fft2spec] in the code (line 26). *)
Definition select (spec : list R -> R -> R -> R -> option (list R * list R))
    (files : list wavefile) (amax Tg damp lo hi : R) (num_wave : nat)
    : option (list (wavefile * R) * list (list R * list R)) :=
  bindO (select_loop spec amax Tg damp lo hi (1/100, gb50011 amax Tg damp (1/100)) files) (fun '(st, mse) =>
  let champions := firstn num_wave (sort_err mse) in
  bindO (mapM (fun c => spec (wf_samples (fst c)) (fst st) damp (amax * 440)) champions) (fun curves =>
  Some (champions, curves))).
