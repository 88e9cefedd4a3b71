(** Model of /repo/hyperstatic/core/fe_solver/static.py. *)
From Coq Require Import Reals Lra List String Arith Bool.
From Verif Require Import Base Csys Sections Element Load FeModel Assembly.
Import ListNotations.
Local Open Scope R_scope.

(** External numerics: the sparse direct solver [scipy.sparse.linalg.spsolve]
    (static.py:92) and [cg] (static.py:158) as functions of the size, the matrix and
    the right-hand side ([None]: an exception), and the compiled shell kernels. *)
Record externals : Type := Ext {
  x_ker : kernels;
  x_spsolve : nat -> coo -> list R -> option (list R);
  x_cg : nat -> coo -> list R -> option (list R) }.

(** static.py:89: A=(K_+K_.T)/2 *)
Definition symmetrise (K : coo) : coo :=
  map (fun t => match t with (r, c, v) => (r, c, v / 2) end) (K ++ coo_T K).

(** static.py:122-130: the expansion loop over [range(node_count*6)]; [restr] is the
    sorted list, [None] is IndexError from popping an empty list. *)
Fixpoint expand (i k : nat) (restr : list nat) (delta : list R) : option (list R) :=
  match k with
  | O => Some []
  | S k' =>
      match restr with
      | r :: restr' =>
          if Nat.eqb i r then bindO (expand (S i) k' restr' delta) (fun d => Some (0 :: d))
          else match delta with
               | [] => None
               | x :: delta' => bindO (expand (S i) k' restr delta') (fun d => Some (x :: d))
               end
      | [] => match delta with
              | [] => None
              | x :: delta' => bindO (expand (S i) k' [] delta') (fun d => Some (x :: d))
              end
      end
  end.

(** static.py:118-120: restraints used for the expansion *)
Definition expansion_dofs (a : asm) (casename : string) : option (list nat) :=
  bindO (restraintDOF a (Some casename)) (fun r =>
  match r with
  | [] => restraintDOF a None
  | _ => Some r
  end).

(** static.py:36-92 with [precase=None] and [use_solver='direct']: the reduced
    system handed to the solver.  The file "0.k" tested in line 39 never exists
    (np.save appends ".npy"), so K is always assembled.  The right-hand side must
    have as many rows as the matrix. *)
Definition reduced_system (ker : kernels) (a : asm) (casename : string)
  : option (nat * coo * list R) :=
  bindO (assemble_K ker a) (fun K =>
  bindO (assemble_f a casename 0) (fun f =>
  bindO (boundary_dofs a casename) (fun fixed =>
  bindO (drop_matrix (node_count (a_model a) * 6) K fixed) (fun NK =>
  let f_ := drop_vector (node_count (a_model a) * 6) f fixed in
  if Nat.eqb (List.length f_) (fst NK) then Some (fst NK, snd NK, f_) else None)))).

(** static.py:32-136 [solve_linear]: the row vector that is saved *)
Definition solve_linear (ext : externals) (a : asm) (casename : string) : option (list R) :=
  bindO (reduced_system (x_ker ext) a casename) (fun sys =>
  match sys with (N, K_, f_) =>
    bindO (x_spsolve ext N (symmetrise K_) f_) (fun delta =>
    bindO (expansion_dofs a casename) (fun restr =>
    expand 0 (node_count (a_model a) * 6) (sort restr) delta))
  end).

(** static.py:164-165: np.insert(delta,i,0,0), IndexError beyond the end *)
Fixpoint insert_at (i : nat) (v : R) (l : list R) : option (list R) :=
  match i, l with
  | O, _ => Some (v :: l)
  | S i', x :: r => bindO (insert_at i' v r) (fun d => Some (x :: d))
  | S _, [] => None
  end.

Definition insert_zeros (idx : list nat) (delta : list R) : option (list R) :=
  fold_left (fun acc i => bindO acc (insert_at i 0)) idx (Some delta).

(** static.py:138-171 [solve_2nd_order]; the reshape of line 167 requires 6n values *)
Definition solve_2nd_order (ext : externals) (a : asm) (casename : string) : option (list R) :=
  bindO (reduced_system (x_ker ext) a casename) (fun sys =>
  match sys with (N, K_, f_) =>
    bindO (x_cg ext N K_ f_) (fun delta =>
    bindO (expansion_dofs a casename) (fun restr =>
    bindO (insert_zeros restr delta) (fun d =>
    if Nat.eqb (List.length d) (node_count (a_model a) * 6) then Some d else None)))
  end).
