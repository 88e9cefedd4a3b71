(** Model of /repo/hyperstatic/core/fe_solver/dynamic.py and of
    /repo/hyperstatic/core/fe_post/structure.py ([resolve_modal_frequency]). *)
From Coq Require Import Reals Lra List String Arith Bool ZArith.
From Verif Require Import Base Csys Sections Element Load FeModel Assembly Solver.
Import ListNotations.
Local Open Scope R_scope.

(** ** Modal cases *)

(** loadcase.py:54-93, the settings of a modal case that the solver reads *)
Record modal_setting : Type := Modal { ms_n : nat; ms_base : option string }.

(** [scipy.sparse.linalg.eigsh(K_,k,M_,sigma=0,which='LM')] (dynamic.py:64) as a
    function of the size, the number of modes and the two matrices; the modes are the
    columns of the second answer, listed one after the other ([None]: an exception). *)
Definition eigensolver := nat -> nat -> coo -> coo -> option (list R * list (list R)).

(** dynamic.py:36-73 [solve_eigen]: the rows saved in [case.d] and the numbers saved in
    [case.o].  A base case other than None leaves [base_case] unbound (lines 41-43).  The
    files tested in lines 46 and 52 never exist (np.save appends ".npy").  Line 61 compares
    with [assembly.DOF], which may be negative. *)
Definition solve_eigen (ker : kernels) (eigsh : eigensolver) (a : asm) (casename : string) (s : modal_setting)
  : option (list (list R) * list R) :=
  match ms_base s with
  | Some _ => None
  | None =>
      bindO (assemble_K ker a) (fun K =>
      bindO (assemble_M a None) (fun M =>
      bindO (boundary_dofs a casename) (fun fixed =>
      bindO (drop_matrix (node_count (a_model a) * 6) K fixed) (fun K_ =>
      bindO (drop_matrix (node_count (a_model a) * 6) M fixed) (fun M_ =>
      let k := if Z.ltb (a_dof a) (Z.of_nat (ms_n s)) then Z.to_nat (a_dof a) else ms_n s in
      bindO (eigsh (fst K_) k (snd K_) (snd M_)) (fun om =>
      if Nat.eqb (List.length (fst om)) k then Some (snd om, fst om) else None))))))
  end.

(** structure.py:15-24 [resolve_modal_frequency]: (omega, f, T) of every stored number.
    numpy answers [inf] for a division by zero; here only nonzero numbers are meaningful. *)
Definition resolve_modal_frequency (o : list R) : list (R * R * R) :=
  map (fun omega => let T := 2 * PI / omega in (omega, 1 / T, T)) o.

(** ** Response spectrum combination *)

(** dynamic.py:109-111: the period of a mode from its stored eigenvalue *)
Definition spectrum_period (omega2 : R) : R := let omega := sqrt omega2 in 2 * PI / sqrt omega.

(** dynamic.py:145: the coefficient of two different modes, [r] the ratio of their
    periods.  [r**1.5] with [r > 0]. *)
Definition cqc_rho (xi r : R) : R :=
  8 * xi^2 * (1 + r) * Rpower r (3/2) / ((1 - r^2)^2 + 4 * xi^2 * r * (1 + r)^2).

(** dynamic.py:138-147: [rho] is the identity off the loop's assignments; [S i] is the
    response of mode [i] in one component, [n] the number of modes.  [xi] is the damping
    of the last mode (line 133, the value left after the loop). *)
Definition cqc (n : nat) (xi : R) (T S : nat -> R) : R :=
  sqrt (rsum n (fun i => rsum n (fun j =>
    (if Nat.eqb i j then 1 else cqc_rho xi (T i / T j)) * S i * S j))).
(** dynamic.py:148-152 *)
Definition srss (n : nat) (S : nat -> R) : R := sqrt (rsum n (fun i => S i ^ 2)).

(** dynamic.py:122-129 and 132-136: participation factor of mode [i] and its response in
    component [q].  [L_=np.dot(np.diag(M),mode)] (line 117); the generalized mass is
    [M_[i,i]]; [y] the interpolated ordinate of the spectrum. *)
Definition participation (N : nat) (M mode : mat) (i : nat) : R :=
  rsum N (fun q => M q q * mode q i) / mmul N (mT mode) (mmul N M mode) i i.
Definition modal_response (N : nat) (M mode : mat) (omega2 y : nat -> R) (q i : nat) : R :=
  participation N M mode i * (y i / omega2 i) * mode q i.

(** ** Direct time integration *)

(** dynamic.py:205-206 *)
Definition rayleigh (xi_i xi_j omega_i omega_j : R) : R * R :=
  (2 * omega_i * omega_j / (omega_j^2 - omega_i^2) * (xi_i * omega_j - xi_j * omega_i),
   2 * omega_i * omega_j / (omega_j^2 - omega_i^2) * (- xi_i / omega_j + xi_j / omega_i)).
(** dynamic.py:199-204: the constants of the code *)
Definition code_damping : R * R := rayleigh (5/100) (2/100) (2 * PI / 2) (2 * PI / 1).

Definition coo_scale (k : R) (A : coo) : coo := map (fun t => match t with (r, c, v) => (r, c, k * v) end) A.
(** [A.dot(x)] of an N x N matrix and a row *)
Definition coo_dot (N : nat) (A : coo) (x : list R) : list R :=
  map (fun i => rsum N (fun j => coo_get A i j * nth j x 0)) (seq 0 N).

(** dynamic.py:207 *)
Definition damping_matrix (M K : coo) : coo := coo_scale (fst code_damping) M ++ coo_scale (snd code_damping) K.

(** Python's [u[i]] for [i >= -1]: [-1] is the last row. *)
Definition row_before (t : nat) (u : list (list R)) : list R :=
  match t with O => last u [] | S t' => nth t' u [] end.

(** dynamic.py:228-232: one pass of the loop; [reshape(1,6)] fails unless the load has
    six rows. *)
Definition integration_step (cg : nat -> coo -> list R -> option (list R)) (N : nat) (K_ M_ C_ : coo) (dt : R)
    (load : nat -> option (list R)) (t : nat) (u : list (list R)) : option (list (list R)) :=
  let c0 := 1 / dt / dt in let c1 := 1 / 2 / dt in let c2 := 2 * c0 in
  bindO (load t) (fun f_ =>
  if Nat.eqb (List.length f_) 6 then
    let ku := coo_dot N (K_ ++ coo_scale (- c2) M_) (nth t u []) in
    let mu := coo_dot N (coo_scale c0 M_ ++ coo_scale (- c1) C_) (row_before t u) in
    let f_hat := map (fun i => nth i f_ 0 - nth i ku 0 - nth i mu 0) (seq 0 N) in
    bindO (cg N (coo_scale c0 M_ ++ coo_scale c1 C_) f_hat) (fun d => Some (u ++ [d]))
  else None).

(** dynamic.py:227-232: [for t in range(tmin)], from pass [t] on, [k] passes *)
Fixpoint integration_loop (cg : nat -> coo -> list R -> option (list R)) (N : nat) (K_ M_ C_ : coo) (dt : R)
    (load : nat -> option (list R)) (t k : nat) (u : list (list R)) : option (list (list R)) :=
  match k with
  | O => Some u
  | S k' => bindO (integration_step cg N K_ M_ C_ dt load t u) (integration_loop cg N K_ M_ C_ dt load (S t) k')
  end.

(** loadcase.py:137-142: the parameters of the case *)
Record direct_params : Type := Direct { dp_step : R; dp_damping : R }.

(** dynamic.py:173-237 [solve_direct_time_integration], base case None: the rows saved in
    [case.d].  The case's damping ratio (line 178) is read and not used.  Lines 216-223:
    the rows for -dt and 0 are zero ([v] and [a] are zero).  Without load curves the
    number of steps is 1e20, which [range] refuses.  The matrices must have the size of
    the load. *)
Definition solve_direct (ext : externals) (a : asm) (casename : string) (p : direct_params) : option (list (list R)) :=
  let n := (node_count (a_model a) * 6)%nat in
  bindO (assemble_K (x_ker ext) a) (fun K =>
  bindO (assemble_M a None) (fun M =>
  bindO (boundary_dofs a casename) (fun fixed =>
  bindO (drop_matrix n K fixed) (fun K_ =>
  bindO (drop_matrix n M fixed) (fun M_ =>
  bindO (drop_matrix n (damping_matrix M K) fixed) (fun C_ =>
  let N := fst K_ in
  bindO (dget casename (a_cases a)) (fun c =>
  match snd (case_max_min_step c) with
  | None => None
  | Some tmin =>
      let load t := bindO (assemble_f a casename t) (fun f =>
                    let f_ := drop_vector n f fixed in
                    if Nat.eqb (List.length f_) N then Some f_ else None) in
      let dt := dp_step p in
      let c0 := 1 / dt / dt in let c3 := 1 / (2 * c0) in
      let row1 := repeat 0 N in
      let row0 := map (fun i => nth i row1 0 - dt * 0 + c3 * 0) (seq 0 N) in
      bindO (integration_loop (x_cg ext) N (snd K_) (snd M_) (snd C_) dt load 0 tmin [row0; row1]) (fun u =>
      Some (tl u))
  end))))))).

(** ** Newmark and Wilson *)

(** dynamic.py:307-336 [solve_Newmark_beta].  As written the body refers to a name [self]
    that is not a parameter; the model takes the matrices as arguments (and [pd] of line
    335, which is not imported, is not modelled).  States are vectors of size [N];
    [np.linalg.solve] is the parameter [solve]. *)
Record motion : Type := Motion { mu_ : nat -> R; mv_ : nat -> R; ma_ : nat -> R }.
Definition mulv (N : nat) (A : mat) (x : nat -> R) (i : nat) : R := rsum N (fun j => A i j * x j).
Definition linear_solver := nat -> mat -> (nat -> R) -> option (nat -> R).

(** lines 314-320 *)
Record bcoef : Type := BC { b1 : R; b2 : R; b3 : R; b4 : R; b5 : R; b6 : R }.
Definition newmark_coef (beta gamma dt : R) : bcoef :=
  let b1 := 1 / (beta * dt * dt) in let b2 := -1 / (beta * dt) in let b3 := 1 / 2 / beta - 1 in
  BC b1 b2 b3 (gamma * dt * b1) (1 + gamma * dt * b2) (dt * (1 + gamma * b3 - gamma)).

(** lines 321 and 327-330 (and 353 and 364-367 of the Wilson routine) *)
Definition implicit_step (N : nat) (solve : linear_solver) (K M C : mat) (b : bcoef) (s : motion) (ft : nat -> R) : option motion :=
  let K_ := fun i j => K i j + b4 b * C i j + b1 b * M i j in
  let rhs := fun i => ft i + mulv N M (fun j => b1 b * mu_ s j - b2 b * mv_ s j - b3 b * ma_ s j) i
                           + mulv N C (fun j => b4 b * mu_ s j - b5 b * mv_ s j - b6 b * ma_ s j) i in
  bindO (solve N K_ rhs) (fun ut =>
  Some (Motion ut
          (fun i => b4 b * (ut i - mu_ s i) + b5 b * mv_ s i + b6 b * ma_ s i)
          (fun i => b1 b * (ut i - mu_ s i) + b2 b * mv_ s i + b3 b * ma_ s i))).

(** lines 322-333: [for (t,ft) in zip(T,F)]; the states appended, in order *)
Fixpoint newmark_loop (N : nat) (solve : linear_solver) (K M C : mat) (b : bcoef) (F : list (nat -> R)) (s : motion) : option (list motion) :=
  match F with
  | [] => Some []
  | ft :: F' => bindO (implicit_step N solve K M C b s ft) (fun s' =>
                bindO (newmark_loop N solve K M C b F' s') (fun r => Some (s' :: r)))
  end.
(** lines 314-336: times and states; IndexError with fewer than two times *)
Definition newmark (N : nat) (solve : linear_solver) (K M C : mat) (beta gamma : R) (T : list R) (F : list (nat -> R)) (s0 : motion)
  : option (list (R * motion)) :=
  match T with
  | T0 :: T1 :: _ =>
      let m := Nat.min (List.length T) (List.length F) in
      bindO (newmark_loop N solve K M C (newmark_coef beta gamma (T1 - T0)) (firstn m F) s0) (fun r =>
      Some (combine (0 :: firstn m T) (s0 :: r)))
  | _ => None
  end.

(** dynamic.py:338-378 [solve_Wilson_theta], lines 345-352 *)
Definition wilson_coef (beta gamma theta dt : R) : bcoef :=
  let dt_ := theta * dt in
  let b1 := 1 / (beta * dt_^2) in let b2 := -1 / (beta * dt_) in let b3 := (1 / 2 - beta) / beta in
  BC b1 b2 b3 (gamma * dt_ * b1) (1 + gamma * dt_ * b2) (dt_ * (1 + gamma * b3 - gamma)).
(** lines 359-361: R_[0]=F[0], R_[i+1]=F[i]+theta*(F[i+1]-F[i]) *)
Fixpoint wilson_tail (theta : R) (F : list (nat -> R)) : list (nat -> R) :=
  match F with
  | f0 :: ((f1 :: _) as r) => (fun i => f0 i + theta * (f1 i - f0 i)) :: wilson_tail theta r
  | _ => []
  end.
Definition wilson_loads (theta : R) (F : list (nat -> R)) : list (nat -> R) :=
  match F with [] => [] | f0 :: _ => f0 :: wilson_tail theta F end.
(** lines 369-376 *)
Definition wilson_step (N : nat) (solve : linear_solver) (K M C : mat) (beta gamma theta dt : R) (s : motion) (ft : nat -> R) : option motion :=
  bindO (implicit_step N solve K M C (wilson_coef beta gamma theta dt) s ft) (fun s_ =>
  let at_ := fun i => ma_ s i + 1 / theta * (ma_ s_ i - ma_ s i) in
  Some (Motion
    (fun i => mu_ s i + mv_ s i * dt + (1/2 - beta) * ma_ s i * dt^2 + beta * at_ i * dt^2)
    (fun i => mv_ s i + ((1 - gamma) * ma_ s i + gamma * at_ i) * dt)
    at_)).
(** lines 363-376: [for (t,ft) in zip(T,R_)]; the states appended, in order *)
Fixpoint wilson_loop (N : nat) (solve : linear_solver) (K M C : mat) (beta gamma theta dt : R) (F : list (nat -> R)) (s : motion) : option (list motion) :=
  match F with
  | [] => Some []
  | ft :: F' => bindO (wilson_step N solve K M C beta gamma theta dt s ft) (fun s' =>
                bindO (wilson_loop N solve K M C beta gamma theta dt F' s') (fun r => Some (s' :: r)))
  end.
(** lines 345-378: times and states; IndexError with fewer than two times or without loads.
    As for Newmark, the matrices are arguments instead of the missing [self]. *)
Definition wilson (N : nat) (solve : linear_solver) (K M C : mat) (beta gamma theta : R) (T : list R) (F : list (nat -> R)) (s0 : motion)
  : option (list (R * motion)) :=
  match T, F with
  | T0 :: T1 :: _, _ :: _ =>
      let m := Nat.min (List.length T) (List.length F) in
      bindO (wilson_loop N solve K M C beta gamma theta (T1 - T0) (firstn m (wilson_loads theta F)) s0) (fun r =>
      Some (combine (0 :: firstn m T) (s0 :: r)))
  | _, _ => None
  end.
