(** Vocabulary for the statements about static answers as a whole: energy, work,
    reactions, stability.  Displacements are given per equation. *)
From Coq Require Import Reals List String Arith Bool.
From Verif Require Import Base Csys Sections Element Load FeModel Assembly Solver Post Api SpecApi SpecGeom SpecBeam SpecAsm SpecElim SpecLoad SpecSolve.
Import ListNotations.
Local Open Scope R_scope.

(** Number of equations, stiffness and nodal loads of the assembled state. *)
Definition equations (w : world) : nat := match assembled_model w with Some m => size m | None => O end.
Definition stiff_at (ext : externals) (w : world) (p q : nat) : R :=
  match stiffness ext w with Some K => coo_get K p q | None => 0 end.
Definition load_at (w : world) (c : string) (q : nat) : R :=
  match load_vector w c with Some f => coo_get f q 0 | None => 0 end.

(** Force at equation q that holds the displacements x. *)
Definition holding (ext : externals) (w : world) (x : nat -> R) (q : nat) : R :=
  rsum (equations w) (fun p => stiff_at ext w q p * x p).
(** Work of forces f on displacements x; twice the strain energy of x, as a bilinear form. *)
Definition work_of (w : world) (f x : nat -> R) : R := rsum (equations w) (fun q => f q * x q).
Definition energy (ext : externals) (w : world) (x y : nat -> R) : R := work_of w (holding ext w y) x.
(** Potential energy of displacements under the loads of a case. *)
Definition potential (ext : externals) (w : world) (c : string) (x : nat -> R) : R :=
  energy ext w x x / 2 - work_of w (load_at w c) x.

(** Displacements that the supports of a case permit; displacements that balance its loads at
    every free equation; supports that permit no displacement free of strain. *)
Definition permitted (ext : externals) (w : world) (c : string) (x : nat -> R) : Prop :=
  forall q, (q < equations w)%nat -> restrained_for ext w c q -> x q = 0.
Definition balanced (ext : externals) (w : world) (c : string) (x : nat -> R) : Prop :=
  forall q, (q < equations w)%nat -> ~ restrained_for ext w c q -> holding ext w x q = load_at w c q.
Definition stable (ext : externals) (w : world) (c : string) : Prop :=
  forall x, permitted ext w c x -> energy ext w x x = 0 -> forall q, (q < equations w)%nat -> x q = 0.

(** The displacements stored by solving a case, and the forces the supports exert. *)
Definition solution (ext : externals) (w : world) (c : string) : nat -> R :=
  stored (after ext w (OpSolveStatic c)) c.
Definition reaction (ext : externals) (w : world) (c : string) (q : nat) : R :=
  holding ext w (solution ext w c) q - load_at w c q.

(** The model has been assembled, the linear solver is exact, the case has been solved, and
    its own table of supports is empty or has a True (see C19 and C20 for the others). *)
Record solved (ext : externals) (w : world) (c : string) : Prop := {
  sv_true : answer ext w (OpSolveStatic c) = RBool true;
  sv_exact : exact_solver ext;
  sv_table : usable (answer ext w (OpNodeRestraints (Some c))) }.
(** The shell kernels, if needed, are symmetric (those of the code are, see C22_code). *)
Definition symmetric_elements (ext : externals) (w : world) : Prop :=
  forall m, assembled_model w = Some m -> f_shells m = [] \/ symmetric_kernels (x_ker ext).
(** No element releases energy. *)
Definition elastic (ext : externals) (w : world) : Prop :=
  forall m, assembled_model w = Some m ->
    (forall k b, In (k, b) (f_beams m) -> props_nonneg (b_prop b))
    /\ (f_shells m = [] \/ psd_kernels (x_ker ext) /\ (forall k s, In (k, s) (f_shells m) -> shell_admissible s)).
Definition same_supports (ext : externals) (w : world) (a b : string) : Prop :=
  forall q, restrained_for ext w a q <-> restrained_for ext w b q.

(** Load factors multiplied by k. *)
Definition times (k : R) (l : list (R * pattern)) : list (R * pattern) := map (fun fp => (k * fst fp, snd fp)) l.

(** Nodes held in all six directions by the table that governs a case; nodes connected with
    such a node through beams. *)
Definition clamped (ext : externals) (w : world) (c k : string) : Prop :=
  forall j, (j < 6)%nat -> flag (governing ext w c) k j = true.
Inductive carried (ext : externals) (w : world) (c : string) (m : fem) : string -> Prop :=
| carried_clamp k : clamped ext w c k -> carried ext w c m k
| carried_start k b : In (k, b) (f_beams m) -> carried ext w c m (n_name (b_nj b)) -> carried ext w c m (n_name (b_ni b))
| carried_end k b : In (k, b) (f_beams m) -> carried ext w c m (n_name (b_ni b)) -> carried ext w c m (n_name (b_nj b)).
(** Members with positive constants. *)
Definition props_pos (p : bprop) : Prop :=
  match p with
  | PSection s => 0 < m_E (s_mat s) /\ -1 < m_mu (s_mat s) /\ 0 < s_A s /\ 0 < s_I22 s /\ 0 < s_I33 s /\ 0 < s_J s
  | PSimple E mu A I2 I3 J _ => 0 < E /\ -1 < mu /\ 0 < A /\ 0 < I2 /\ 0 < I3 /\ 0 < J
  end.

(** No load of the pattern rests on the member. *)
Definition bare (k : string) (p : pattern) : Prop := dget k (p_dist p) = None /\ dget k (p_conc p) = None.
(** The second member has at least the stiffness constants of the first. *)
Definition no_softer (p q : bprop) : Prop :=
  EA (props p) <= EA (props q) /\ GJ (props p) <= GJ (props q) /\ EI2 (props p) <= EI2 (props q) /\ EI3 (props p) <= EI3 (props q).

(** The sparse solver answers every system that has exactly one solution. *)
Definition able_solver (ext : externals) : Prop := forall N A b,
  (exists x, List.length x = N /\ (forall i, (i < N)%nat -> rsum N (fun j => coo_get A i j * nth j x 0) = nth i b 0)
     /\ forall y, List.length y = N -> (forall i, (i < N)%nat -> rsum N (fun j => coo_get A i j * nth j y 0) = nth i b 0) -> y = x) ->
  exists x, x_spsolve ext N A b = Some x.
