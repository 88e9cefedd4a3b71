(** Properties C83 to C87: earthquake records and their spectra.
    Only statements, each closed by a lemma proved elsewhere, with the assumptions it
    rests on and an instance of its hypotheses. *)
From Coq Require Import Reals Lra Lia List String Arith Bool ZArith Sorting.Permutation Sorting.Sorted.
From Verif Require Import Base BaseFacts Spectrum Seismic SpecSeismic SeismicProofs SeismicProofs2 SeismicProofs3 SeismicProofs4 SeismicProofs5.
Import ListNotations.
Local Open Scope string_scope.
Local Open Scope list_scope.
Local Open Scope R_scope.

(** C83. The scaled record is the record times one number: the peak asked for over the largest value. *)
Theorem C83_proportional wave a_max out : amptitude wave a_max = Some out ->
  exists m, top wave m /\ m <> 0 /\ out = map (fun x => a_max / m * x) wave.
Proof. exact (c83_shape wave a_max out). Qed.
Print Assumptions C83_proportional.
Example C83_proportional_example : amptitude [1; -1/2] 3 = Some [3; -3/2].
Proof.
  destruct (proj2 (c83_defined [1; -1/2] 3)) as (out & H).
  { exists 1. split; [split; [now left|intros x [<-|[<-|[]]]; lra]|lra]. }
  rewrite H. destruct (C83_proportional _ _ _ H) as (m & [[<-|[<-|[]]] T] & _ & ->).
  - cbn [map]. do 2 f_equal; [field|f_equal; field].
  - specialize (T 1 (or_introl eq_refl)). lra.
Qed.

(** C83. The same in the routines for spectra, which convert from cm/s2 to m/s2. *)
Theorem C83_record ag a_max out : scale_record ag a_max = Some out ->
  exists m, top ag m /\ m <> 0 /\ out = map (fun x => a_max / 100 / m * x) ag.
Proof. exact (c83_shape_record ag a_max out). Qed.
Print Assumptions C83_record.
Example C83_record_example : scale_record [2] 35 = Some [35/100].
Proof.
  destruct (proj2 (c83_defined_record [2] 35)) as (out & H).
  { exists 2. split; [split; [now left|intros x [<-|[]]; lra]|lra]. }
  rewrite H. destruct (C83_record _ _ _ H) as (m & [[<-|[]] _] & _ & ->). cbn. do 2 f_equal. field.
Qed.

(** C83. If the record's largest value is its peak, the scaled record has the peak asked for. *)
Theorem C83_peak wave a_max out m : amptitude wave a_max = Some out -> top wave m -> peak wave m -> 0 <= a_max ->
  peak out a_max.
Proof. exact (c83_peak wave a_max out m). Qed.
Print Assumptions C83_peak.
Example C83_peak_example : exists out, amptitude [1; -1/2] 3 = Some out /\ peak out 3.
Proof.
  destruct (proj2 (c83_defined [1; -1/2] 3)) as (out & H).
  { exists 1. split; [split; [now left|intros x [<-|[<-|[]]]; lra]|lra]. }
  exists out. split; [exact H|]. apply (C83_peak [1; -1/2] 3 out 1 H); [| |lra].
  - split; [now left|intros x [<-|[<-|[]]]; lra].
  - split; [exists 1; split; [now left|apply Rabs_R1]|].
    intros x [<-|[<-|[]]]; [rewrite Rabs_R1; lra|rewrite Rabs_left; lra].
Qed.

(** C83. Likewise in m/s2. *)
Theorem C83_peak_record ag a_max out m : scale_record ag a_max = Some out -> top ag m -> peak ag m -> 0 <= a_max ->
  peak out (a_max / 100).
Proof. exact (c83_peak_record ag a_max out m). Qed.
Print Assumptions C83_peak_record.
Example C83_peak_record_example : exists out, scale_record [1; -1/2] 35 = Some out /\ peak out (35/100).
Proof.
  destruct (proj2 (c83_defined_record [1; -1/2] 35)) as (out & H).
  { exists 1. split; [split; [now left|intros x [<-|[<-|[]]]; lra]|lra]. }
  exists out. split; [exact H|]. apply (C83_peak_record [1; -1/2] 35 out 1 H); [| |lra].
  - split; [now left|intros x [<-|[<-|[]]]; lra].
  - split; [exists 1; split; [now left|apply Rabs_R1]|].
    intros x [<-|[<-|[]]]; [rewrite Rabs_R1; lra|rewrite Rabs_left; lra].
Qed.

(** C83. A record whose peak is negative is scaled to another peak. *)
Theorem C83_refuted : exists wave a_max out p q,
  amptitude wave a_max = Some out /\ peak wave p /\ 0 < a_max /\ peak out q /\ q <> a_max.
Proof. exact c83_refuted. Qed.
Print Assumptions C83_refuted.


(** C83. A record below zero is turned over, and the peak asked for is exceeded everywhere. *)
Theorem C83_turned wave a_max out m : amptitude wave a_max = Some out -> top wave m -> m < 0 -> 0 < a_max ->
  forall x, In x out -> a_max <= x.
Proof. exact (c83_turned wave a_max out m). Qed.
Print Assumptions C83_turned.
Example C83_turned_example : exists out, amptitude [-1; -2] 3 = Some out /\ forall x, In x out -> 3 <= x.
Proof.
  assert (T : top [-1; -2] (-1)) by (split; [now left|intros x [<-|[<-|[]]]; lra]).
  destruct (proj2 (c83_defined [-1; -2] 3)) as (out & H); [exists (-1); split; [exact T|lra]|].
  exists out. split; [exact H|]. apply (C83_turned [-1; -2] 3 out (-1) H); [exact T|lra|lra].
Qed.

(** C83. The call succeeds exactly if there is a largest value and it is not zero. *)
Theorem C83_defined wave a_max : (exists out, amptitude wave a_max = Some out) <-> exists m, top wave m /\ m <> 0.
Proof. exact (c83_defined wave a_max). Qed.
Print Assumptions C83_defined.
Example C83_defined_example : amptitude [0; -1] 3 = None.
Proof.
  destruct (amptitude [0; -1] 3) as [out|] eqn:E; [|reflexivity]. exfalso.
  destruct (proj1 (C83_defined [0; -1] 3) (ex_intro _ out E)) as (m & [[<-|[<-|[]]] T] & N); [lra|].
  specialize (T 0 (or_introl eq_refl)). lra.
Qed.

(** C84. What an impulse does: the free motion that starts from rest position with unit velocity. *)
Theorem C84_impulse w z : w <> 0 -> z * z < 1 ->
  oscillates w z (fun _ => 0) (impulse w z) /\ impulse w z 0 = 0 /\ derivable_pt_lim (impulse w z) 0 1.
Proof. exact (c84_impulse w z). Qed.
Print Assumptions C84_impulse.
Example C84_impulse_example : impulse 2 (1/20) 0 = 0.
Proof. apply (C84_impulse 2 (1/20)); lra. Qed.

(** C84. Every row of the spectrum: the displacement is the largest sum of answers to the impulses of the
    scaled record, but of an oscillator with another frequency and ratio; velocity and acceleration
    are that displacement times the damped frequency. *)
Theorem C84_spectrum_partial file dt xi a_max Ts rows : wave2spectrum file dt xi a_max = Some (Ts, rows) ->
  exists m, top file m /\ m <> 0 /\ List.length rows = List.length Ts /\
  forall i a v d, nth_error rows i = Some (a, v, d) ->
    let w := 2 * PI / nth i Ts 0 in
    nth i Ts 0 = dt + INR i * dt /\
    top (map (superposed (impulse (w * sqrt (1 - xi * xi) * sqrt (1 + xi * xi)) (xi / sqrt (1 + xi * xi))) dt
           (map (fun x => a_max / 100 / m * x) file)) (seq 0 (List.length file))) d /\
    v = w * sqrt (1 - xi * xi) * d /\ a * (98/10) = w * w * (1 - xi * xi) * d.
Proof. exact (c84_spectrum file dt xi a_max Ts rows). Qed.
Print Assumptions C84_spectrum_partial.
Example C84_spectrum_example : exists rows, wave2spectrum [1; -1/2; 2] (1/100) (5/100) 35 = Some (periods (1/100), rows)
  /\ List.length rows = List.length (periods (1/100)).
Proof.
  destruct (c84_spectrum_defined [1; -1/2; 2] (1/100) (5/100) 35 2) as (rows & H); try lra; [|cbn; lia|].
  { split; [cbn; auto|intros x [<-|[<-|[<-|[]]]]; lra]. }
  exists rows. split; [exact H|]. destruct (C84_spectrum_partial _ _ _ _ _ _ H) as (m & _ & _ & L & _). exact L.
Qed.

(** C84. When it is defined. *)
Theorem C84_defined file dt xi a_max m : 0 < dt -> top file m -> m <> 0 -> (2 <= List.length file)%nat ->
  xi * xi < 1 -> exists rows, wave2spectrum file dt xi a_max = Some (periods dt, rows).
Proof. exact (c84_spectrum_defined file dt xi a_max m). Qed.
Print Assumptions C84_defined.
Example C84_defined_example : exists rows, wave2spectrum [1; -1/2; 2] (1/50) 0 35 = Some (periods (1/50), rows).
Proof.
  apply (C84_defined [1; -1/2; 2] (1/50) 0 35 2); try lra; [|cbn; lia].
  split; [cbn; auto|intros x [<-|[<-|[<-|[]]]]; lra].
Qed.

(** C84. The periods are the multiples of the step up to 6 s, and the first one beyond. *)
Theorem C84_periods dt : 0 < dt -> exists N, periods dt = map (fun k => INR (S k) * dt) (seq 0 N) /\
  6 <= INR N * dt < 6 + dt.
Proof. exact (c84_periods dt). Qed.
Print Assumptions C84_periods.
Example C84_periods_example : List.length (periods 1) = 6%nat.
Proof.
  destruct (C84_periods 1) as (N & -> & H); [lra|]. rewrite map_length, seq_length.
  assert (L : (6 <= N)%nat) by (apply INR_le; cbn [INR]; lra). assert (U : (N < 7)%nat) by (apply INR_lt; cbn [INR]; lra). lia.
Qed.

(** C84. Without damping it is the oscillator asked for. *)
Theorem C84_undamped w n dt p Sa Sv Sd : duhamel w 0 (instants n dt) p = Some (Sa, Sv, Sd) ->
  forall k, (k < n)%nat -> nth k Sd 0 = superposed (impulse w 0) dt p k.
Proof. exact (c84_undamped w n dt p Sa Sv Sd). Qed.
Print Assumptions C84_undamped.
Example C84_undamped_example : exists Sa Sv Sd, duhamel 3 0 (instants 2 (1/100)) [1; 1] = Some (Sa, Sv, Sd) /\
  nth 1 Sd 0 = superposed (impulse 3 0) (1/100) [1; 1] 1.
Proof.
  destruct (proj2 (c84_defined 3 0 2 (1/100) [1; 1])) as ([[Sa Sv] Sd] & H); [repeat split; [lia|lra|lra]|].
  exists Sa, Sv, Sd. split; [exact H|]. apply (C84_undamped _ _ _ _ _ _ _ H). lia.
Qed.

(** C84. With damping it is not. *)
Theorem C84_refuted : exists w z n dt p Sa Sv Sd k, 0 < z /\ 0 < w /\
  duhamel w z (instants n dt) p = Some (Sa, Sv, Sd) /\ (k < n)%nat /\
  nth k Sd 0 <> superposed (impulse w z) dt p k.
Proof. exact c84_refuted. Qed.
Print Assumptions C84_refuted.


(** C84. The answer is linear in the record. *)
Theorem C84_linear w z n dt p q a b Sa Sv Sd Sa1 Sv1 Sd1 Sa2 Sv2 Sd2 :
  List.length p = n -> List.length q = n ->
  duhamel w z (instants n dt) (map (fun k => a * nth k p 0 + b * nth k q 0) (seq 0 n)) = Some (Sa, Sv, Sd) ->
  duhamel w z (instants n dt) p = Some (Sa1, Sv1, Sd1) -> duhamel w z (instants n dt) q = Some (Sa2, Sv2, Sd2) ->
  forall k, (k < n)%nat -> nth k Sd 0 = a * nth k Sd1 0 + b * nth k Sd2 0.
Proof. exact (c84_linear w z n dt p q a b Sa Sv Sd Sa1 Sv1 Sd1 Sa2 Sv2 Sd2). Qed.
Print Assumptions C84_linear.
Example C84_linear_example : exists Sa Sv Sd Sa1 Sv1 Sd1,
  duhamel 3 (1/20) (instants 2 (1/100)) [2; 4] = Some (Sa, Sv, Sd) /\
  duhamel 3 (1/20) (instants 2 (1/100)) [1; 2] = Some (Sa1, Sv1, Sd1) /\ nth 1 Sd 0 = 2 * nth 1 Sd1 0.
Proof.
  destruct (proj2 (c84_defined 3 (1/20) 2 (1/100) [2; 4])) as ([[Sa Sv] Sd] & H); [repeat split; [lia|lra|lra]|].
  destruct (proj2 (c84_defined 3 (1/20) 2 (1/100) [1; 2])) as ([[Sa1 Sv1] Sd1] & H1); [repeat split; [lia|lra|lra]|].
  exists Sa, Sv, Sd, Sa1, Sv1, Sd1. split; [exact H|]. split; [exact H1|].
  assert (E : [2; 4] = map (fun k => 2 * nth k [1; 2] 0 + 0 * nth k [1; 2] 0) (seq 0 2)).
  { cbn. f_equal; [ring|f_equal; ring]. }
  rewrite E in H. rewrite (C84_linear 3 (1/20) 2 (1/100) [1; 2] [1; 2] 2 0 _ _ _ _ _ _ _ _ _ eq_refl eq_refl H H1 H1 1%nat) by lia. ring.
Qed.

(** C84. No ordinate is negative. *)
Theorem C84_nonneg ag n dt xi T a v d : spectrum_at ag (instants n dt) xi T = Some (a, v, d) ->
  0 <= a /\ 0 <= v /\ 0 <= d.
Proof. exact (c84_nonneg ag n dt xi T a v d). Qed.
Print Assumptions C84_nonneg.
Example C84_nonneg_example : exists a v d, spectrum_at [-1; -1] (instants 2 (1/100)) (1/20) 1 = Some (a, v, d) /\ 0 <= d.
Proof.
  destruct (c84_ordinate_defined [-1; -1] 2 (1/100) (1/20) 1) as (a & v & d & H); [lia|lra|lra|].
  exists a, v, d. split; [exact H|]. apply (C84_nonneg _ _ _ _ _ _ _ _ H).
Qed.

(** C84. A record and the same record turned over have different spectra: the absolute value is missing. *)
Theorem C84_sign_refuted : exists ag n dt xi T a v d,
  spectrum_at ag (instants n dt) xi T = Some (a, v, d) /\ 0 < d /\
  spectrum_at (map Ropp ag) (instants n dt) xi T = Some (0, 0, 0).
Proof. exact c84_sign_refuted. Qed.
Print Assumptions C84_sign_refuted.


(** C84. Without damping the ordinates at once and twice the time step vanish for every record. *)
Theorem C84_short_periods ag n dt T a v d : 0 < dt -> T = dt \/ T = 2 * dt ->
  spectrum_at ag (instants n dt) 0 T = Some (a, v, d) -> a = 0 /\ v = 0 /\ d = 0.
Proof. exact (c84_short ag n dt T a v d). Qed.
Print Assumptions C84_short_periods.
Example C84_short_periods_example : exists v d, spectrum_at [1; 5; -3] (instants 3 (1/100)) 0 (1/100) = Some (0, v, d).
Proof.
  destruct (c84_ordinate_defined [1; 5; -3] 3 (1/100) 0 (1/100)) as (a & v & d & H); [lia|lra|lra|].
  exists v, d. rewrite H. destruct (C84_short_periods [1; 5; -3] 3 (1/100) (1/100) a v d) as [-> _]; [lra|now left|exact H|reflexivity].
Qed.

(** C85. The steady motion of an oscillator under a harmonic force. *)
Theorem C85_steady w z A f phi : w <> 0 -> ~ (f * f = w * w /\ z * f = 0) ->
  oscillates w z (fun t => w * w * A * cos (f * t + phi)) (steady w z A f phi).
Proof. exact (c85_steady w z A f phi). Qed.
Print Assumptions C85_steady.
Example C85_steady_example : oscillates 2 (1/20) (fun t => 2 * 2 * 1 * cos (3 * t + 0)) (steady 2 (1/20) 1 3 0).
Proof. apply (C85_steady 2 (1/20) 1 3 0); [lra|intros [E _]; lra]. Qed.

(** C85. The spectrum by Fourier transform of any sum of harmonics of the 4096 samples: each ordinate is the
    largest sample of the sum of the steady motions, but of an oscillator whose frequency is that
    of the period times sqrt(1-xi). *)
Theorem C85_harmonics_partial hs dt xi a_max Ts Sa : cycles_below nfft hs ->
  fft2spec (map (harmonics nfft hs) (seq 0 nfft)) dt xi a_max = Some (Ts, Sa) ->
  exists m, top (map (harmonics nfft hs) (seq 0 nfft)) m /\
  forall i, (i < List.length Ts)%nat ->
    top (map (steady_sum (sqrt (1 - xi) * (2 * PI / nth i Ts 0)) xi (a_max / 100 / m) dt nfft hs) (seq 0 nfft)) (98/10 * nth i Sa 0).
Proof. exact (c85_harmonics hs dt xi a_max Ts Sa). Qed.
Print Assumptions C85_harmonics_partial.
Example C85_harmonics_example : let hs := [(1, 3%nat, 0); (1/2, 40%nat, 0)] in
  exists Sa m, fft2spec (map (harmonics nfft hs) (seq 0 nfft)) (1/100) (5/100) 35 = Some (periods (1/100), Sa) /\
  top (map (steady_sum (sqrt (1 - 5/100) * (2 * PI / nth 0 (periods (1/100)) 0)) (5/100) (35 / 100 / m) (1/100) nfft hs) (seq 0 nfft)) (98/10 * nth 0 Sa 0).
Proof.
  intros hs.
  assert (T : top (map (harmonics nfft hs) (seq 0 nfft)) (3/2)).
  { pose proof nfft_pos as N. split.
    - apply in_map_iff. exists 0%nat. split; [|apply in_seq; lia]. unfold harmonics, hs. cbn [map lsum fold_right]. change (INR 0) with 0.
      replace (2 * PI * INR 3 * 0 / INR nfft + 0) with 0 by (unfold Rdiv; ring).
      replace (2 * PI * INR 40 * 0 / INR nfft + 0) with 0 by (unfold Rdiv; ring). rewrite cos_0. lra.
    - intros x Hx. apply in_map_iff in Hx as (k & <- & _). unfold harmonics, hs. cbn [map lsum fold_right].
      pose proof (COS_bound (2 * PI * INR 3 * INR k / INR nfft + 0)).
      pose proof (COS_bound (2 * PI * INR 40 * INR k / INR nfft + 0)). lra. }
  destruct (c85_defined _ (1/100) (5/100) 35 _ ltac:(lra) ltac:(lra) ltac:(lra) T) as (Sa & H); [lra|].
  assert (C : cycles_below nfft hs) by (repeat constructor; unfold nfft; lia).
  destruct (C85_harmonics_partial hs _ _ _ _ _ C H) as (m & _ & E). exists Sa, m. split; [exact H|].
  apply E. rewrite periods_length. apply period_count_pos; lra.
Qed.

(** C85. When it is defined. *)
Theorem C85_defined file dt xi a_max m : 0 < dt -> xi < 1 -> xi <> 0 -> top file m -> m <> 0 ->
  exists Sa, fft2spec file dt xi a_max = Some (periods dt, Sa).
Proof. exact (c85_defined file dt xi a_max m). Qed.
Print Assumptions C85_defined.
Example C85_defined_example : exists Sa, fft2spec [1; -1/2; 2] (1/100) (5/100) 35 = Some (periods (1/100), Sa).
Proof.
  apply (C85_defined [1; -1/2; 2] (1/100) (5/100) 35 2); try lra.
  split; [cbn; auto|intros x [<-|[<-|[<-|[]]]]; lra].
Qed.

(** C85. At the period of the shaking the ordinate falls short of that of the oscillator of that period. *)
Theorem C85_refuted : exists hs dt xi a_max Ts Sa i, cycles_below nfft hs /\ 0 < xi < 1 /\
  fft2spec (map (harmonics nfft hs) (seq 0 nfft)) dt xi a_max = Some (Ts, Sa) /\ (i < List.length Ts)%nat /\
  forall m top_value, top (map (harmonics nfft hs) (seq 0 nfft)) m ->
    top (map (steady_sum (2 * PI / nth i Ts 0) xi (a_max / 100 / m) dt nfft hs) (seq 0 nfft)) top_value ->
    98/10 * nth i Sa 0 < top_value.
Proof. exact c85_refuted. Qed.
Print Assumptions C85_refuted.


(** C85. A constant acceleration is answered by itself at every period. *)
Theorem C85_static dt xi a_max c Ts Sa : 0 < c -> 0 <= a_max ->
  fft2spec (map (fun _ => c) (seq 0 nfft)) dt xi a_max = Some (Ts, Sa) ->
  forall i, (i < List.length Ts)%nat -> nth i Sa 0 = a_max / 100 / (98/10).
Proof. exact (c85_static dt xi a_max c Ts Sa). Qed.
Print Assumptions C85_static.
Example C85_static_example : exists Sa,
  fft2spec (map (fun _ => 2) (seq 0 nfft)) (1/100) (5/100) 980 = Some (periods (1/100), Sa) /\ nth 0 Sa 0 = 1.
Proof.
  assert (T : top (map (fun _ => 2) (seq 0 nfft)) 2).
  { pose proof nfft_pos. split; [apply in_map_iff; exists 0%nat; split; [reflexivity|apply in_seq; lia]|].
    intros x Hx. apply in_map_iff in Hx as (? & <- & _). lra. }
  destruct (c85_defined _ (1/100) (5/100) 980 _ ltac:(lra) ltac:(lra) ltac:(lra) T) as (Sa & H); [lra|].
  exists Sa. split; [exact H|]. rewrite (C85_static (1/100) (5/100) 980 2 _ Sa ltac:(lra) ltac:(lra) H 0%nat).
  - field.
  - rewrite periods_length. apply period_count_pos; lra.
Qed.

(** C85. Samples beyond the first 4096 count only through the largest value. *)
Theorem C85_cut file more dt xi a_max m : List.length file = nfft -> top file m -> top (file ++ more) m ->
  fft2spec (file ++ more) dt xi a_max = fft2spec file dt xi a_max.
Proof. exact (c85_cut file more dt xi a_max m). Qed.
Print Assumptions C85_cut.
Example C85_cut_example : fft2spec (map (fun _ => 1) (seq 0 nfft) ++ [-5]) (1/100) (5/100) 35
  = fft2spec (map (fun _ => 1) (seq 0 nfft)) (1/100) (5/100) 35.
Proof.
  assert (T : top (map (fun _ => 1) (seq 0 nfft)) 1).
  { pose proof nfft_pos. split; [apply in_map_iff; exists 0%nat; split; [reflexivity|apply in_seq; lia]|].
    intros x Hx. apply in_map_iff in Hx as (? & <- & _). lra. }
  apply (C85_cut _ _ _ _ _ 1); [now rewrite map_length, seq_length|exact T|].
  split; [apply in_or_app; left; apply T|]. intros x Hx. apply in_app_or in Hx as [Hx|[<-|[]]]; [now apply T|lra].
Qed.

(** C85. So the end of a long record is ignored. *)
Theorem C85_cut_refuted : exists file more dt xi a_max r, In 1 more /\ fft2spec file dt xi a_max = Some r /\
  fft2spec (file ++ more) dt xi a_max = Some r /\ fft2spec (file ++ map Ropp more) dt xi a_max = Some r.
Proof. exact c85_cut_refuted. Qed.
Print Assumptions C85_cut_refuted.


(** C86. The records chosen: as many as asked for, in rising order of error, none left out with a smaller
    error; the error of a record compares each ordinate with the target one step earlier and
    leaves out the last sample of the range. *)
Theorem C86_chosen_partial files amax Tg damp lo hi n chosen curves :
  select fft2spec files amax Tg damp lo hi n = Some (chosen, curves) ->
  List.length chosen = min n (List.length files) /\ StronglySorted (fun a b => snd a <= snd b) chosen /\
  exists rest, Permutation (map fst (chosen ++ rest)) files /\
    (forall a b, In a chosen -> In b rest -> snd a <= snd b) /\
    forall f e, In (f, e) (chosen ++ rest) -> exists Ts Sa,
      fft2spec (wf_samples f) (wf_dt f) damp (amax * 440) = Some (Ts, Sa) /\
      compared Sa (fun i => gb50011_at amax Tg damp (nth i Ts 0 - wf_dt f)) (wf_dt f) (List.length Ts) lo hi e.
Proof. exact (c86_chosen files amax Tg damp lo hi n chosen curves). Qed.
Print Assumptions C86_chosen_partial.
Example C86_chosen_example : exists chosen curves,
  select fft2spec [steady_file "a" (1/100); steady_file "b" 1] 1 1 (1/2) 0 6 1 = Some (chosen, curves) /\ List.length chosen = 1%nat.
Proof.
  destruct (select_two 1 1) as ([chosen curves] & H); [lra|]. exists chosen, curves. split; [exact H|].
  now destruct (C86_chosen_partial _ _ _ _ _ _ _ _ _ H) as [-> _].
Qed.

(** C86. A spectrum that meets the target at every one of its periods has an error. *)
Theorem C86_error_refuted : exists Sa alpha Tg xi dt lo hi e, 0 < alpha /\ 0 < dt /\
  List.length Sa = List.length (periods dt) /\
  (forall i, (i < List.length (periods dt))%nat -> nth i Sa 0 = gb50011_at alpha Tg xi (nth i (periods dt) 0)) /\
  range_error Sa (gb50011 alpha Tg xi dt) lo hi = Some e /\ 0 < e.
Proof. exact c86_refuted. Qed.
Print Assumptions C86_error_refuted.


(** C86. The curve drawn for a chosen record is that of its samples taken with the step of the last file. *)
Theorem C86_curves_partial files amax Tg damp lo hi n chosen curves :
  select fft2spec files amax Tg damp lo hi n = Some (chosen, curves) ->
  Forall2 (fun c curve => fft2spec (wf_samples (fst c)) (last (map wf_dt files) (1/100)) damp (amax * 440) = Some curve)
    chosen curves.
Proof. exact (c86_curves_fft files amax Tg damp lo hi n chosen curves). Qed.
Print Assumptions C86_curves_partial.
Example C86_curves_example : exists chosen curves,
  select fft2spec [steady_file "a" (1/100); steady_file "b" 1] 1 1 (1/2) 0 6 2 = Some (chosen, curves) /\
  Forall2 (fun c curve => fft2spec (wf_samples (fst c)) 1 (1/2) (1 * 440) = Some curve) chosen curves.
Proof.
  destruct (select_two 1 2) as ([chosen curves] & H); [lra|]. exists chosen, curves. split; [exact H|].
  exact (C86_curves_partial _ _ _ _ _ _ _ _ _ H).
Qed.

(** C86. If all records have the same step it is the record's own. *)
Theorem C86_same_step files amax Tg damp lo hi n chosen curves dt :
  select fft2spec files amax Tg damp lo hi n = Some (chosen, curves) ->
  (forall f, In f files -> wf_dt f = dt) ->
  Forall2 (fun c curve => fft2spec (wf_samples (fst c)) (wf_dt (fst c)) damp (amax * 440) = Some curve) chosen curves.
Proof. exact (c86_same_fft files amax Tg damp lo hi n chosen curves dt). Qed.
Print Assumptions C86_same_step.
Example C86_same_step_example : exists chosen curves,
  select fft2spec [steady_file "a" (1/100); steady_file "b" (1/100)] 1 1 (1/2) 0 6 2 = Some (chosen, curves) /\
  Forall2 (fun c curve => fft2spec (wf_samples (fst c)) (wf_dt (fst c)) (1/2) (1 * 440) = Some curve) chosen curves.
Proof.
  destruct (select_two (1/100) 2) as ([chosen curves] & H); [lra|]. exists chosen, curves. split; [exact H|].
  apply (C86_same_step _ _ _ _ _ _ _ _ _ (1/100) H). intros f [<-|[<-|[]]]; reflexivity.
Qed.

(** C86. With different steps it is not. *)
Theorem C86_curves_refuted : exists files amax Tg damp lo hi n chosen curves,
  select fft2spec files amax Tg damp lo hi n = Some (chosen, curves) /\
  ~ Forall2 (fun c curve => fft2spec (wf_samples (fst c)) (wf_dt (fst c)) damp (amax * 440) = Some curve) chosen curves.
Proof. exact c86_curves_refuted. Qed.
Print Assumptions C86_curves_refuted.


(** C87. The envelopes lie between 0 and 1. *)
Theorem C87_range t : 0 <= t -> 0 <= envelope t <= 1.
Proof. exact (c87_range t). Qed.
Print Assumptions C87_range.
Example C87_range_example : 0 <= envelope 20 <= 1.
Proof. apply C87_range. lra. Qed.

(** C87. The same for the envelope of the generator. *)
Theorem C87_range_generator t : 0 < t -> 0 < envelope2 t <= 1.
Proof. exact (c87_range2 t). Qed.
Print Assumptions C87_range_generator.
Example C87_range_generator_example : 0 < envelope2 30 <= 1.
Proof. apply C87_range_generator. lra. Qed.

(** C87. The first is continuous up to 40 s. *)
Theorem C87_continuous : continuous_on (fun t => t < 40) envelope.
Proof. exact c87_continuous. Qed.
Print Assumptions C87_continuous.
Example C87_continuous_example : continuity_pt envelope 15.
Proof. apply C87_continuous. lra. Qed.

(** C87. There it jumps. *)
Theorem C87_jump_refuted : ~ continuity_pt envelope 40.
Proof. exact c87_jump_refuted. Qed.
Print Assumptions C87_jump_refuted.


(** C87. The one of the generator is continuous at all times it is used for. *)
Theorem C87_continuous_generator : continuous_on (fun t => 0 < t) envelope2.
Proof. exact c87_continuous2. Qed.
Print Assumptions C87_continuous_generator.
Example C87_continuous_generator_example : continuity_pt envelope2 20.
Proof. apply C87_continuous_generator. lra. Qed.

(** C87. The power spectrum is positive, so that the amplitudes are defined. *)
Theorem C87_power zeta r td st wk : 0 < zeta -> 0 <= r < 1 -> st <> 0 -> 0 < wk -> 3 <= wk * td ->
  0 < power zeta r td st wk.
Proof. exact (c87_power zeta r td st wk). Qed.
Print Assumptions C87_power.
Example C87_power_example : 0 < power (5/100) (15/100) 20 (1/10) 2.
Proof. apply C87_power; lra. Qed.
