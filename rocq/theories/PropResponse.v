(** Property C101: the response spectrum analysis.
    Only statements, each closed by a lemma proved elsewhere, with the assumptions it
    rests on and an instance of its hypotheses. *)
From Coq Require Import Reals Lra Lia List String Arith Bool ZArith Sorting.Permutation Sorting.Sorted.
From Verif Require Import Base BaseFacts Csys Sections Element Load FeModel Assembly Solver Dynamic Response SpecResponse ResponseProofs.
Import ListNotations.
Local Open Scope string_scope.
Local Open Scope list_scope.
Local Open Scope R_scope.

(** C101. The solver reads five settings; no class of load case has them all, so for every case it
    stops at the first missing one. *)
Theorem C101_classes k N c ex load : response_solve N (get_settings k) c ex load = None.
Proof. exact (c101_classes k N c ex load). Qed.
Print Assumptions C101_classes.
Example C101_classes_example : response_solve 6 (get_settings (ASpectrum "modal" [[0; 1]; [1; 2]] "srss" "cqc")) "quake" (fun _ => true) (fun _ => Some [[1]]) = None.
Proof. apply C101_classes. Qed.

(** C101. Whatever the settings and the files are, it stops before an answer: the spectrum is taken for
    the name of the modal case, and a name is used that is not defined. *)
Theorem C101_never N st c ex load : (0 < N)%nat -> response_solve N st c ex load = None.
Proof. exact (c101_never N st c ex load). Qed.
Print Assumptions C101_never.
Definition given : dict setting := [("n", VInt 1); ("modal_damp", VArr [[1/20]]); ("combo", VStr "SRSS"); ("modal_case", VStr "modal"); ("spectrum", VStr "modal")].
Example C101_never_example : response_solve 1 given "quake" (fun _ => true) (fun _ => Some [[1]]) = None.
Proof. apply C101_never. lia. Qed.

(** C101. The numbers the lines would give when every mode is kept and the mass matrix is diagonal: the
    combination of the shares of the modes in the movement of the ground, each times the
    ordinate of the spectrum over the square of the frequency.  Missing: other mass matrices and
    fewer modes. *)
Theorem C101_response_partial N M mode omega2 damp pts combo : diagonal N M ->
  (forall i, (i < N)%nat -> form N M (column mode i) (column mode i) <> 0) -> pts <> [] -> increasing pts -> combo = "CQC" \/ combo = "SRSS" ->
  exists r y, combined N N M mode omega2 damp pts combo = Some r
  /\ (forall i, (i < N)%nat -> on_polygon pts (spectrum_period (omega2 i)) (y i))
  /\ forall q, (q < N)%nat -> let share := fun i => modal_share N M (column mode i) q * (y i / omega2 i) in
     (combo = "CQC" -> r q = cqc N (damp (N - 1)%nat) (fun i => spectrum_period (omega2 i)) share) /\ (combo = "SRSS" -> r q = srss N share).
Proof. exact (c101_response N M mode omega2 damp pts combo). Qed.
Print Assumptions C101_response_partial.
Definition two_masses : mat := fun q p => if Nat.eqb q p then INR (q + 2) else 0.
Definition two_modes : mat := fun q i => if Nat.eqb i 0 then 1 else if Nat.eqb q 0 then 3 else -2.
Lemma two_diagonal : diagonal 2 two_masses.
Proof. intros q p _ _ N. unfold two_masses. destruct (Nat.eqb_spec q p); [contradiction|reflexivity]. Qed.
Lemma two_orthogonal : orthogonal 2 two_masses two_modes.
Proof.
  intros i j I J. assert (X : (i = 0 \/ i = 1)%nat) by lia. assert (Y : (j = 0 \/ j = 1)%nat) by lia.
  destruct X as [-> | ->]; destruct Y as [-> | ->]; split; intros E; try congruence;
    unfold form, column, two_modes, two_masses; cbn [rsum Nat.eqb Nat.add INR]; lra.
Qed.
Example C101_response_partial_example : exists r, combined 2 2 two_masses two_modes (fun i => INR (S i)) (fun _ => 1/20) [(0, 1); (10, 2)] "SRSS" = Some r.
Proof.
  destruct (C101_response_partial 2 two_masses two_modes (fun i => INR (S i)) (fun _ => 1/20) [(0, 1); (10, 2)] "SRSS") as (r & y & E & _); [exact two_diagonal| |discriminate| |now right|now exists r].
  - intros i Hi. exact (proj1 (two_orthogonal i i Hi Hi) eq_refl).
  - cbn. lra.
Qed.
Example C101_response_one : exists r y, combined 1 1 (fun _ _ => 5) (fun _ _ => 7) (fun _ => 4) (fun _ => 1/20) [(0, 1); (10, 2)] "SRSS" = Some r
  /\ on_polygon [(0, 1); (10, 2)] (spectrum_period 4) y /\ r 0%nat = Rabs (y / 4).
Proof.
  destruct (C101_response_partial 1 (fun _ _ => 5) (fun _ _ => 7) (fun _ => 4) (fun _ => 1/20) [(0, 1); (10, 2)] "SRSS") as (r & y & E & Y & A).
  - intros q p Q P N. lia.
  - intros i Hi. unfold form, column. cbn [rsum]. lra.
  - discriminate.
  - cbn. lra.
  - now right.
  - exists r, (y 0%nat). split; [exact E|]. split; [apply (Y 0%nat); lia|]. destruct (A 0%nat ltac:(lia)) as (_ & S). rewrite (S eq_refl).
    unfold srss, modal_share, form, column, all_ones. cbn [rsum]. rewrite <- sqrt_Rsqr_abs. f_equal. unfold Rsqr. field.
Qed.

(** C101. The ordinate lies on the polygon of the table, and is the first or last value outside it. *)
Theorem C101_ordinate pts x y : increasing pts -> np_interp pts x = Some y -> on_polygon pts x y.
Proof. exact (c101_ordinate pts x y). Qed.
Print Assumptions C101_ordinate.
Example C101_ordinate_example : exists y, np_interp [(0, 1); (10, 2)] 5 = Some y /\ on_polygon [(0, 1); (10, 2)] 5 y.
Proof. eexists. split; [reflexivity|]. apply C101_ordinate; [cbn; lra|reflexivity]. Qed.

(** C101. With a diagonal mass matrix the shares of all modes add up to the whole movement. *)
Theorem C101_complete_partial N M mode q : diagonal N M -> orthogonal N M mode -> (q < N)%nat -> rsum N (fun i => participation N M mode i * mode q i) = 1.
Proof. exact (c101_complete N M mode q). Qed.
Print Assumptions C101_complete_partial.
Example C101_complete_partial_example : rsum 2 (fun i => participation 2 two_masses two_modes i * two_modes 1%nat i) = 1.
Proof. apply C101_complete_partial; [exact two_diagonal|exact two_orthogonal|lia]. Qed.

(** C101. With a coupled mass matrix they do not: the factors use its diagonal only. *)
Theorem C101_complete_refuted : exists N M mode q, orthogonal N M mode /\ (forall x y, form N M x y = form N M y x)
  /\ (forall x, (exists q, (q < N)%nat /\ x q <> 0) -> 0 < form N M x x) /\ (q < N)%nat
  /\ rsum N (fun i => participation N M mode i * mode q i) <> 1.
Proof. exact c101_coupled_refuted. Qed.
Print Assumptions C101_complete_refuted.
Example C101_complete_refuted_example : form 2 coupled (column pair 0) all_ones = 6 /\ rsum 2 (fun q => coupled q q * pair q 0%nat) = 4.
Proof. split; unfold form, column, coupled, pair, all_ones; cbn [rsum Nat.eqb andb]; ring. Qed.

(** C101. The response does not depend on how the modes are scaled. *)
Theorem C101_scale N M mode omega2 y (c : nat -> R) q i : c i <> 0 -> form N M (column mode i) (column mode i) <> 0 ->
  modal_response N M (fun q i => c i * mode q i) omega2 y q i = modal_response N M mode omega2 y q i.
Proof. exact (c101_scale N M mode omega2 y c q i). Qed.
Print Assumptions C101_scale.
Example C101_scale_example : modal_response 2 two_masses (fun q i => 5 * two_modes q i) (fun _ => 1) (fun _ => 1) 0 1 = modal_response 2 two_masses two_modes (fun _ => 1) (fun _ => 1) 0 1.
Proof. apply (C101_scale 2 two_masses two_modes (fun _ => 1) (fun _ => 1) (fun _ => 5) 0 1); [lra|]. exact (proj1 (two_orthogonal 1 1 ltac:(lia) ltac:(lia))%nat eq_refl). Qed.

(** C101. With fewer modes than equations no number comes out: the modes left out are divided by their
    mass of zero and spoil every component. *)
Theorem C101_fewer N n M mode omega2 damp pts combo : (n < N)%nat -> combined N n M mode omega2 damp pts combo = None.
Proof. exact (c101_truncated N n M mode omega2 damp pts combo). Qed.
Print Assumptions C101_fewer.
Example C101_fewer_example : combined 2 1 two_masses two_modes (fun i => INR (S i)) (fun _ => 1/20) [(0, 1); (10, 2)] "SRSS" = None.
Proof. apply C101_fewer. lia. Qed.
