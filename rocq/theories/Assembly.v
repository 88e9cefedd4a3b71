(** Model of /repo/hyperstatic/core/fe_model/assembly.py (class [Assembly]). *)
From Coq Require Import Reals Lra List String Arith Bool ZArith.
From Verif Require Import Base Csys Sections Element Load FeModel.
Import ListNotations.
Local Open Scope R_scope.

(** assembly.py:13-26.  The assembly refers to the model and the cases; the heap of
    patterns the cases point to is carried along. *)
Record asm : Type := Asm {
  a_model : fem;
  a_cases : dict lcase;
  a_heap : list pattern;
  a_dof : Z;
  a_fixed : list nat }.

(** assembly.py:21-25, 267-271, 303-307: equation numbers of the True flags of a
    node with number [i]. *)
Definition node_dofs (i : nat) (flags : list bool) : list nat :=
  map (fun j => (i * 6 + j)%nat) (filter (fun j => nth j flags false) (seq 0 6)).

(** The loop over a restraint dictionary, in its order; KeyError when a node is not
    numbered. *)
Definition rest_dofs (m : fem) (rest : dict (list bool)) : option (list nat) :=
  bindO (mapM (fun kv => bindO (model_node_hid (fst kv) m) (fun i => Some (node_dofs i (snd kv)))) rest)
        (fun ll => Some (List.concat ll)).

(** assembly.py:13-26 [__init__] *)
Definition mk_asm (m : fem) (cases : list lcase) (heap : list pattern) : option asm :=
  bindO (rest_dofs m (f_rest m)) (fun fixed =>
  Some (Asm m (fold_left (fun d c => dset (c_name c) c d) cases []) heap
            (Z.of_nat (node_count m * 6) - Z.of_nat (List.length fixed)) fixed)).

(** assembly.py:131-132 *)
Definition scat2 (i j r : nat) : nat := if Nat.ltb r 6 then (i*6+r)%nat else (j*6+r-6)%nat.
(** assembly.py:142-159 *)
Definition scat4 (i j k l r : nat) : nat :=
  if Nat.ltb r 6 then (i*6 + r mod 6)%nat
  else if Nat.ltb r 12 then (j*6 + r mod 6)%nat
  else if Nat.ltb r 18 then (k*6 + r mod 6)%nat
  else (l*6 + r mod 6)%nat.
(** assembly.py:162-175 *)
Definition scat3 (i j k r : nat) : nat :=
  if Nat.ltb r 6 then (i*6 + r mod 6)%nat
  else if Nat.ltb r 12 then (j*6 + r mod 6)%nat
  else (k*6 + r mod 6)%nat.

(** [(T.T*Ke*T).tocoo()] of size n: scipy's product keeps the non-zero entries. *)
Definition congr (n : nat) (T K : mat) : mat := mmul n (mT T) (mmul n K T).
Definition nz (L : coo) : coo := filter (fun t => negb (Reqb (snd t) 0)) L.
Definition scatter (f : nat -> nat) (L : coo) : coo :=
  map (fun t => match t with (r, c, v) => (f r, f c, v) end) L.

(** assembly.py:124-132: the triplets contributed by one beam *)
Definition beam_triplets (m : fem) (b : beam) : option coo :=
  bindO (beam_hids b m) (fun ij =>
  bindO (beam_K b) (fun Ke =>
  let Ke1 := condensate (b_rel b) Ke in
  Some (scatter (scat2 (fst ij) (snd ij)) (nz (mat_coo 12 12 (congr 12 (beam_T b) Ke1)))))).

(** assembly.py:133-178: the triplets contributed by one shell *)
Definition shell_triplets (ker : kernels) (m : fem) (s : shell) : option coo :=
  bindO (shell_hids s m) (fun hids =>
  match hids with
  | [i;j;k;l] => Some (scatter (scat4 i j k l) (nz (mat_coo 24 24 (congr 24 (shell_T s) (shell_K ker s)))))
  | [i;j;k] => Some (scatter (scat3 i j k) (nz (mat_coo 18 18 (congr 18 (shell_T s) (shell_K ker s)))))
  | _ => None
  end).

(** assembly.py:87-180 [assemble_K] *)
Definition assemble_K (ker : kernels) (a : asm) : option coo :=
  let m := a_model a in
  bindO (mapM (beam_triplets m) (dvals (f_beams m))) (fun bs =>
  bindO (mapM (shell_triplets ker m) (dvals (f_shells m))) (fun ss =>
  coo_make (node_count m * 6) (node_count m * 6) (List.concat bs ++ List.concat ss))).

(** assembly.py:193-201: diagonal entries of the nodal mass *)
Definition node_mass_triplets (m : fem) (name : string) : option coo :=
  bindO (model_node_hid name m) (fun i =>
  bindO (dget name (f_nodes m)) (fun n =>
  Some (scatter (fun r => (i*6+r)%nat) (nz (mat_coo 6 6 (node_M n)))))).

(** assembly.py:203-215 *)
Definition beam_mass_triplets (m : fem) (b : beam) : option coo :=
  bindO (beam_hids b m) (fun ij =>
  Some (scatter (scat2 (fst ij) (snd ij))
          (nz (mat_coo 12 12 (congr 12 (beam_T b) (condensate (b_rel b) (beam_M b))))))).

(** assembly.py:182-218 [assemble_M].  With a case name the attribute
    [use_load_as_mass] is read, which only modal cases have, and which is False
    unless set outside the API (not modelled). *)
Definition assemble_M (a : asm) (casename : option string) : option coo :=
  let m := a_model a in
  bindO (match casename with
         | None => Some tt
         | Some cn => bindO (dget cn (a_cases a)) (fun c =>
                      match c_kind c with KModal => Some tt | KStatic => None end)
         end) (fun _ =>
  bindO (mapM (node_mass_triplets m) (model_node_names m)) (fun ns =>
  bindO (mapM (beam_mass_triplets m) (dvals (f_beams m))) (fun bs =>
  coo_make (node_count m * 6) (node_count m * 6) (List.concat ns ++ List.concat bs)))).

(** assembly.py:226-239: nodal loads; rows of zero components are skipped, and the
    number is only looked up when needed (it always exists). *)
Definition vec_triplets (f : nat -> nat) (v : list R) : coo :=
  flat_map (fun k => let x := nth k v 0 in if Reqb x 0 then [] else [(f k, O, x)]) (seq 0 (List.length v)).

Definition matT_list (n : nat) (T : mat) (v : list R) : list R :=
  map (fun i => rsum n (fun k => T k i * nth k v 0)) (seq 0 n).

Definition node_f_triplets (a : asm) (c : lcase) (t : nat) (name : string) : option coo :=
  let m := a_model a in
  bindO (dget name (f_nodes m)) (fun n =>
  bindO (case_nodal_f (a_heap a) c name t) (fun fn =>
  bindO (model_node_hid name m) (fun hid =>
  Some (vec_triplets (fun k => (hid*6+k)%nat) (matT_list 6 (node_T n) fn))))).

(** assembly.py:241-256: member loads *)
Definition beam_f_triplets (a : asm) (c : lcase) (nb : string * beam) : option coo :=
  let m := a_model a in
  let b := snd nb in
  bindO (beam_hids b m) (fun ij =>
  bindO (case_beam_f (a_heap a) c (fst nb) (b_length b)) (fun re =>
  bindO (beam_K b) (fun K =>
  let re1 := condensate_f (b_rel b) re K in
  Some (vec_triplets (scat2 (fst ij) (snd ij)) (matT_list 12 (beam_T b) re1))))).

(** assembly.py:220-258 [assemble_f]: a 6n x 1 sparse matrix *)
Definition assemble_f (a : asm) (casename : string) (t : nat) : option coo :=
  let m := a_model a in
  bindO (dget casename (a_cases a)) (fun c =>
  bindO (mapM (node_f_triplets a c t) (model_node_names m)) (fun ns =>
  bindO (mapM (beam_f_triplets a c) (f_beams m)) (fun bs =>
  coo_make (node_count m * 6) 1 (List.concat ns ++ List.concat bs)))).

(** assembly.py:260-271: the restrained equations used for elimination *)
Definition boundary_dofs (a : asm) (casename : string) : option (list nat) :=
  bindO (dget casename (a_cases a)) (fun c =>
  match c_rest c with
  | [] => Some (a_fixed a)
  | rest => rest_dofs (a_model a) rest
  end).

(** [sorted(indices)] *)
Fixpoint insert_sorted (x : nat) (l : list nat) : list nat :=
  match l with
  | [] => [x]
  | y :: r => if Nat.leb x y then x :: l else y :: insert_sorted x r
  end.
Definition sort (l : list nat) : list nat := fold_right insert_sorted [] l.

Definition memb (x : nat) (l : list nat) : bool := existsb (Nat.eqb x) l.

(** assembly.py:284-286: [for i in reversed(sorted(indices)): row[row>i]-=1] *)
Definition compact (indices : list nat) (x : nat) : nat :=
  fold_left (fun x i => if Nat.ltb i x then (x - 1)%nat else x) (rev (sort indices)) x.

(** assembly.py:279-288 [__drop_matrix_dof]; result: new size and triplets.  A
    negative size is an error, as is an index outside the new size. *)
Definition drop_matrix (n : nat) (M : coo) (indices : list nat) : option (nat * coo) :=
  let kept := filter (fun t => match t with (r, c, _) =>
                        (negb (memb r indices) && negb (memb c indices))%bool end) M in
  let moved := map (fun t => match t with (r, c, v) => (compact indices r, compact indices c, v) end) kept in
  if Nat.ltb n (List.length indices) then None
  else let n' := (n - List.length indices)%nat in
       bindO (coo_make n' n' moved) (fun A => Some (n', A)).

(** assembly.py:290-292 [__drop_vector_dof] followed by [toarray] (line 274) *)
Definition drop_vector (n : nat) (V : coo) (indices : list nat) : list R :=
  map (fun i => coo_get V i 0) (filter (fun i => negb (memb i indices)) (seq 0 n)).

(** assembly.py:294-308 [restraintDOF] *)
Definition restraintDOF (a : asm) (casename : option string) : option (list nat) :=
  match casename with
  | None => rest_dofs (a_model a) (f_rest (a_model a))
  | Some cn => bindO (dget cn (a_cases a)) (fun c => rest_dofs (a_model a) (c_rest c))
  end.
