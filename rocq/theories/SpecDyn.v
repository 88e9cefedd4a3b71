(** Vocabulary for the statements about modal results, damping and time integration. *)
From Coq Require Import Reals List String Arith Bool ZArith.
From Verif Require Import Base Csys Sections Element Load FeModel Assembly Solver Dynamic.
Import ListNotations.
Local Open Scope R_scope.

(** frequency and period of an undamped oscillation with eigenvalue [lambda] *)
Definition true_frequency (lambda f T : R) : Prop := 2 * PI * f = sqrt lambda /\ f * T = 1.
Definition true_period (lambda T : R) : Prop := T * sqrt lambda = 2 * PI.

(** modal damping ratio at circular frequency [w] of the damping a0 M + a1 K *)
Definition damping_ratio (a0 a1 w : R) : R := (a0 + a1 * w^2) / (2 * w).

(** [x] vibrates freely with circular frequency [w] *)
Definition mode_of (N : nat) (K M : nat -> nat -> R) (w : R) (x : nat -> R) : Prop :=
  forall i, (i < N)%nat -> rsum N (fun j => K i j * x j) = w^2 * rsum N (fun j => M i j * x j).

(** an exact iterative solver, and an exact dense solver *)
Definition exact_cg (ext : externals) : Prop := forall N A b x, x_cg ext N A b = Some x ->
  List.length x = N /\ forall i, (i < N)%nat -> rsum N (fun j => coo_get A i j * nth j x 0) = nth i b 0.
Definition exact_linear (solve : linear_solver) : Prop := forall N A b x, solve N A b = Some x ->
  forall i, (i < N)%nat -> rsum N (fun j => A i j * x j) = b i.

(** the matrices and the load of the free equations *)
Definition free_system (ext : externals) (a : asm) (casename : string) (N : nat) (K_ M_ C_ : coo) : Prop :=
  exists K M fixed, let n := (node_count (a_model a) * 6)%nat in
    assemble_K (x_ker ext) a = Some K /\ assemble_M a None = Some M /\ boundary_dofs a casename = Some fixed
    /\ drop_matrix n K fixed = Some (N, K_)
    /\ (exists N', drop_matrix n M fixed = Some (N', M_)) /\ (exists N', drop_matrix n (damping_matrix M K) fixed = Some (N', C_)).
Definition free_load (a : asm) (casename : string) (t : nat) (f : list R) : Prop :=
  exists fixed v, boundary_dofs a casename = Some fixed /\ assemble_f a casename t = Some v
    /\ f = drop_vector (node_count (a_model a) * 6) v fixed.

(** the central difference equation at one instant: displacements [p] before, [q] at and
    [r] after it *)
Definition central_difference (N : nat) (M C K : nat -> nat -> R) (dt : R) (f p q r : list R) : Prop :=
  forall i, (i < N)%nat ->
    rsum N (fun j => M i j * ((nth j r 0 - 2 * nth j q 0 + nth j p 0) / dt^2))
    + rsum N (fun j => C i j * ((nth j r 0 - nth j p 0) / (2 * dt)))
    + rsum N (fun j => K i j * nth j q 0) = nth i f 0.

(** equation of motion and the Newmark relations from state [s] to state [s'] *)
Definition in_motion (N : nat) (M C K : mat) (f : nat -> R) (s : motion) : Prop := forall i, (i < N)%nat ->
  rsum N (fun j => M i j * ma_ s j) + rsum N (fun j => C i j * mv_ s j) + rsum N (fun j => K i j * mu_ s j) = f i.
Definition velocity_relation (gamma dt : R) (s s' : motion) : Prop := forall i,
  mv_ s' i = mv_ s i + dt * ((1 - gamma) * ma_ s i + gamma * ma_ s' i).
Definition displacement_relation (beta dt : R) (s s' : motion) : Prop := forall i,
  mu_ s' i = mu_ s i + dt * mv_ s i + dt^2 * ((1/2 - beta) * ma_ s i + beta * ma_ s' i).

(** Row [z] of the stored history; before the start the structure is at rest. *)
Definition row_at (s : list (list R)) (z : Z) : list R := if Z.ltb z 0 then [] else nth (Z.to_nat z) s [].
(** The stored history solves the discretised equation of motion at every step. *)
Definition integrates (N : nat) (M C K : nat -> nat -> R) (dt : R) (steps : nat) (load : nat -> list R -> Prop) (s : list (list R)) : Prop :=
  forall t, (t < steps)%nat -> exists f, load t f
    /\ central_difference N M C K dt f (row_at s (Z.of_nat t - 1)) (row_at s (Z.of_nat t)) (row_at s (Z.of_nat t + 1)).

(** The state that the Newmark relations over [theta*dt] give for the acceleration
    extrapolated from [s] through [s']. *)
Definition extrapolated (beta gamma theta dt : R) (s s' : motion) : motion :=
  let a_ := fun i => ma_ s i + theta * (ma_ s' i - ma_ s i) in
  let h := theta * dt in
  Motion (fun i => mu_ s i + h * mv_ s i + h^2 * ((1/2 - beta) * ma_ s i + beta * a_ i))
         (fun i => mv_ s i + h * ((1 - gamma) * ma_ s i + gamma * a_ i)) a_.

(** An exact eigensolver: every answered pair satisfies K x = lambda M x with x not 0. *)
Definition exact_eigen (eigsh : eigensolver) : Prop := forall N k K M o modes, eigsh N k K M = Some (o, modes) ->
  forall i lambda x, nth_error o i = Some lambda -> nth_error modes i = Some x ->
    (exists j, (j < N)%nat /\ nth j x 0 <> 0)
    /\ forall r, (r < N)%nat -> rsum N (fun j => coo_get K r j * nth j x 0) = lambda * rsum N (fun j => coo_get M r j * nth j x 0).
(** The stiffness and mass of the free equations. *)
Definition free_pair (ker : kernels) (a : asm) (casename : string) (N : nat) (K_ M_ : coo) : Prop :=
  exists K M fixed, let n := (node_count (a_model a) * 6)%nat in
    assemble_K ker a = Some K /\ assemble_M a None = Some M /\ boundary_dofs a casename = Some fixed
    /\ drop_matrix n K fixed = Some (N, K_) /\ exists N', drop_matrix n M fixed = Some (N', M_).

(** The sum under the root of the CQC rule. *)
Definition cqc_sum (n : nat) (xi : R) (T S : nat -> R) : R :=
  rsum n (fun i => rsum n (fun j => (if Nat.eqb i j then 1 else cqc_rho xi (T i / T j)) * S i * S j)).

(** The load that Wilson's method applies in step [i]: the first load in the first step, and
    later the load of the last step extrapolated to [theta] steps. *)
Definition wilson_load (theta : R) (F : list (nat -> R)) (i : nat) (f : nat -> R) : Prop :=
  match i with
  | O => nth_error F 0 = Some f
  | S k => exists f0 f1, nth_error F k = Some f0 /\ nth_error F (S k) = Some f1 /\ forall q, f q = f0 q + theta * (f1 q - f0 q)
  end.
