(** Model of /repo/hyperstatic/core/__init__.py (class [Api]): one constructor of
    [op] per public method, [step] executes one call.  Every method body is a
    [try: ...; return value / except: return False or None]; the exception branch is
    the [None] branch of the modelled call. *)
From Coq Require Import Reals Lra List String Arith Bool.
From Verif Require Import Base Csys Sections Element Load FeModel Assembly Solver Post.
Import ListNotations.
Local Open Scope R_scope.
Local Open Scope string_scope.

(** The six components taken by the nodal setters (u1,u2,u3,r1,r2,r3 or
    f1,f2,f3,m1,m2,m3). *)
Definition six (A : Type) : Type := (A * A * A * A * A * A)%type.
Definition list6 {A : Type} (s : six A) : list A :=
  match s with (a, b, c, d, e, f) => [a;b;c;d;e;f] end.

(** core/__init__.py:28-34: the pickled state of an [Api] object.  [k_pats] maps a
    pattern name to the heap address of the pattern object. *)
Record core : Type := Core {
  k_fem : fem;
  k_pats : dict nat;
  k_heap : list pattern;
  k_cases : dict lcase }.

Definition new_core : core := Core new_fem [] [] [].

(** Contents of a file in the work directory. *)
Inductive file : Type :=
| FAsb (a : asm)          (* assembly.py:313-314 *)
| FSep (c : core)         (* core/__init__.py:53-54 *)
| FDisp (d : list R)      (* static.py:134-135, one row *)
| FStiff (K : coo).       (* static.py:43 *)

(** The interface object plus the files of its work directory (assumed to exist and
    to be writable; names are plain file names). *)
Record world : Type := World { w_core : core; w_files : dict file }.

(** core/__init__.py:22-40 on an empty work directory *)
Definition init : world := World new_core [].

Inductive op : Type :=
| OpSave (filename : string)
| OpLoad (filename : string)
| OpClear
| OpAddNode (name : string) (x y z : R)
| OpNodeNames
| OpNodeLocation (name : string)
| OpNodeRestraints (casename : option string)
| OpSetMass (name : string) (mass : six R)
| OpAddMaterial (name : string) (rho E mu a : R)
| OpAddGeneral (name mat : string) (A As2 As3 I22 I33 J W22 W33 : R)
| OpAddRectangle (name mat : string) (h b : R)
| OpAddI (name mat : string) (h b tw tf : R)
| OpAddBox (name mat : string) (h b tw tf : R)
| OpAddCircle (name mat : string) (d : R)
| OpAddPipe (name mat : string) (d t : R)
| OpAddShellSection (name mat : string) (t : R) (ty : string)
| OpAddBeam (name start end_ section : string)
| OpAddSimpleBeam (name start end_ : string) (E mu A I2 I3 J rho : R)
| OpBeamNames
| OpBeamNodeNames (name : string)
| OpBeamLocation (name : string)
| OpSetRelease (name : string) (ri rj : six bool)
| OpAddShell (name n1 n2 n3 n4 : string) (section : option string)
| OpShellNames
| OpShellNodeNames (name : string)
| OpShellLocation (name : string)
| OpAddPattern (name : string)
| OpSetRestraint (node : string) (flags : six bool)
| OpSetCaseRestraint (case node : string) (flags : six bool)
| OpSetNodalLoad (pattern node : string) (f : six R)
| OpGetNodalLoad (pattern node : string)
| OpGetAllNodalLoad (pattern : string)
| OpSetBeamDist (pattern beam : string) (pi pj qi2 qj2 qi3 qj3 ti tj : R)
| OpSetBeamConc (pattern beam : string) (F : six R) (r : R)
| OpAddStatic (name : string)
| OpAddModal (name : string)
| OpAddCasePattern (case pattern : string) (factor : R)
| OpAssemble
| OpSolveStatic (case : string)
| OpSolveModal (case : string) (num : nat)
| OpStructuralResult (case : string)
| OpNodalReaction (node case : string)
| OpNodalDisp (node case : string)
| OpAllNodalDisp (case : string)
| OpBeamEndForce (beam case : string)
| OpBeamDeformation (beam : string) (loc : R) (case : string).

Inductive out : Type :=
| RBool (b : bool)
| RNone
| RNames (l : list string)
| RVec3 (v : vec3)
| RVec3s (a b : vec3)
| RFlags (d : dict (list bool))
| RVec (v : list R)
| RDict (d : dict (list R)).

Definition with_fem (c : core) (m : fem) : core := Core m (k_pats c) (k_heap c) (k_cases c).
Definition with_core (w : world) (c : core) : world := World c (w_files w).
Definition with_fem_w (w : world) (m : fem) : world := with_core w (with_fem (w_core w) m).
Definition put_file (n : string) (f : file) (w : world) : world :=
  World (w_core w) (dset n f (w_files w)).

(** [try: model call; return True / except: return False] for calls that only
    change the finite element model *)
Definition ret_fem (w : world) (r : option fem) : world * out :=
  match r with
  | Some m => (with_fem_w w m, RBool true)
  | None => (w, RBool false)
  end.

(** update the pattern object behind a name (core/__init__.py:610, 673, 698) *)
Definition ret_pat (w : world) (name : string) (upd : pattern -> pattern) : world * out :=
  let c := w_core w in
  match bindO (dget name (k_pats c)) (fun a => bindO (nth_error (k_heap c) a) (fun p => Some (a, p))) with
  | Some (a, p) =>
      (with_core w (Core (k_fem c) (k_pats c) (set_nth a (upd p) (k_heap c)) (k_cases c)), RBool true)
  | None => (w, RBool false)
  end.

Definition get_pat (w : world) (name : string) : option pattern :=
  bindO (dget name (k_pats (w_core w))) (fun a => nth_error (k_heap (w_core w)) a).

(** core/__init__.py:28 *)
Definition asb_file : string := ".asb".
(** core/__init__.py:53 *)
Definition sep_file (n : string) : string := n ++ ".sep".
(** static.py:134-135, np.save appends ".npy" *)
Definition disp_file (case : string) : string := case ++ ".d.npy".
(** static.py:37-38,43 *)
Definition stiff_file : string := "0.k.npy".

(** fe_solver/__init__.py:10-14, fe_post/__init__.py:9-13: read the assembly *)
Definition read_asb (w : world) : option asm :=
  match dget asb_file (w_files w) with Some (FAsb a) => Some a | _ => None end.
Definition read_disp (w : world) (case : string) : option (list R) :=
  match dget (disp_file case) (w_files w) with Some (FDisp d) => Some d | _ => None end.

(** core/__init__.py:774-794 and static.py:32-136: the stiffness matrix is written
    before the loads are assembled. *)
Definition do_solve_static (ext : externals) (w : world) (case : string) : world * out :=
  match read_asb w with
  | None => (w, RBool false)
  | Some a =>
      match assemble_K (x_ker ext) a with
      | None => (w, RBool false)
      | Some K =>
          let w1 := put_file stiff_file (FStiff K) w in
          match solve_linear ext a case with
          | None => (w1, RBool false)
          | Some d => (put_file (disp_file case) (FDisp d) w1, RBool true)
          end
      end
  end.

Definition ret {A : Type} (w : world) (f : A -> out) (r : option A) : world * out :=
  (w, match r with Some a => f a | None => RNone end).

Definition step (ext : externals) (w : world) (o : op) : world * out :=
  let c := w_core w in
  let m := k_fem c in
  match o with
  | OpSave fn => (put_file (sep_file fn) (FSep c) w, RBool true)                  (* 43-58 *)
  | OpLoad fn =>                                                                  (* 60-74 *)
      match dget (sep_file fn) (w_files w) with
      | Some (FSep c') => (with_core w c', RBool true)
      | _ => (w, RNone)
      end
  | OpClear => (w, RBool false)     (* 76-93: os.remove of a directory raises *)
  | OpAddNode n x y z =>                                                          (* 95-112 *)
      ret_fem w (bindO (model_add_node n x y z false m) (fun r => Some (snd r)))
  | OpNodeNames => (w, RNames (model_node_names m))                               (* 114-124 *)
  | OpNodeLocation n => ret w RVec3 (model_node_location n m)                     (* 126-139 *)
  | OpNodeRestraints None => (w, RFlags (f_rest m))                               (* 141-157 *)
  | OpNodeRestraints (Some cn) =>
      ret w RFlags (bindO (dget cn (k_cases c)) (fun lc => Some (c_rest lc)))
  | OpSetMass n v => ret_fem w (model_set_mass n (list6 v) m)                     (* 159-181 *)
  | OpAddMaterial n rho E mu a => ret_fem w (Some (model_add_material n rho E mu a m))  (* 183-201 *)
  | OpAddGeneral n mt A As2 As3 I22 I33 J W22 W33 =>                              (* 203-226 *)
      ret_fem w (model_add_general n mt A As2 As3 I22 I33 J W22 W33 m)
  | OpAddRectangle n mt h b => ret_fem w (model_add_rectangle n mt h b m)         (* 228-245 *)
  | OpAddI n mt h b tw tf => ret_fem w (model_add_I n mt h b tw tf m)             (* 247-266 *)
  | OpAddBox n mt h b tw tf => ret_fem w (model_add_box n mt h b tw tf m)         (* 268-287 *)
  | OpAddCircle n mt d => ret_fem w (model_add_circle n mt d m)                   (* 289-305 *)
  | OpAddPipe n mt d t => ret_fem w (model_add_rectangle n mt d t m)              (* 326-343, sic *)
  | OpAddShellSection n mt t ty => ret_fem w (model_add_ssection n mt t ty m)     (* 307-324 *)
  | OpAddBeam n s e sec =>                                                        (* 345-362 *)
      ret_fem w (bindO (model_add_beam n s e sec false m) (fun r => Some (snd r)))
  | OpAddSimpleBeam n s e E mu A I2 I3 J rho =>                                   (* 364-389 *)
      ret_fem w (bindO (model_add_simple_beam n s e E mu A I2 I3 J rho false m) (fun r => Some (snd r)))
  | OpBeamNames => (w, RNames (model_beam_names m))                               (* 391-401 *)
  | OpBeamNodeNames n =>                                                          (* 403-416 *)
      ret w (fun p => RNames [fst p; snd p]) (model_beam_connection n m)
  | OpBeamLocation n =>                                                           (* 418-431 *)
      ret w (fun p => RVec3s (fst p) (snd p)) (model_beam_location n m)
  | OpSetRelease n ri rj =>                                                       (* 433-461 *)
      ret_fem w (model_set_releases n (list6 ri ++ list6 rj)%list m)
  | OpAddShell n n1 n2 n3 n4 sec =>              (* 463-482: positional mix-up, sic *)
      ret_fem w (bindO (model_add_shell n n1 n2 n3 n4 sec m) (fun r => Some (snd r)))
  | OpShellNames => (w, RNames (model_shell_names m))                             (* 484-494 *)
  | OpShellNodeNames n => ret w RNames (model_shell_connection n m)               (* 496-509 *)
  | OpShellLocation n => ret w (fun _ => RNone) (model_shell_location n m)        (* 511-524 *)
  | OpAddPattern n =>                                                             (* 526-540 *)
      (with_core w (Core m (dset n (List.length (k_heap c)) (k_pats c))
                         (k_heap c ++ [new_pattern n])%list (k_cases c)), RBool true)
  | OpSetRestraint n fl =>                 (* 542-564: the answer of the model is ignored *)
      (with_fem_w w (snd (model_set_restraint n (list6 fl) m)), RBool true)
  | OpSetCaseRestraint cn n fl =>                                                 (* 566-589 *)
      match dget cn (k_cases c) with
      | Some lc => (with_core w (Core m (k_pats c) (k_heap c)
                                      (dset cn (case_set_restraint n (list6 fl) lc) (k_cases c))), RBool true)
      | None => (w, RBool false)
      end
  | OpSetNodalLoad p n f =>                                                       (* 591-614 *)
      match f with (f1,f2,f3,m1,m2,m3) => ret_pat w p (pat_set_nodal_load n f1 f2 f3 m1 m2 m3) end
  | OpGetNodalLoad p n =>                                                         (* 616-635 *)
      ret w RVec (bindO (get_pat w p) (fun pt => pat_nodal_f pt n))
  | OpGetAllNodalLoad p =>                                                        (* 637-651 *)
      ret w RDict (bindO (get_pat w p) (fun pt => Some (p_nodal pt)))
  | OpSetBeamDist p b pi pj qi2 qj2 qi3 qj3 ti tj =>                              (* 653-677 *)
      ret_pat w p (pat_set_beam_dist b pi pj qi2 qj2 qi3 qj3 ti tj)
  | OpSetBeamConc p b F r =>                                                      (* 679-702 *)
      match F with (F1,F2,F3,M1,M2,M3) => ret_pat w p (pat_set_beam_conc b F1 F2 F3 M1 M2 M3 r) end
  | OpAddStatic n =>                                                              (* 704-718 *)
      (with_core w (Core m (k_pats c) (k_heap c) (dset n (new_case KStatic n) (k_cases c))), RBool true)
  | OpAddModal n =>                                                               (* 720-735 *)
      (with_core w (Core m (k_pats c) (k_heap c) (dset n (new_case KModal n) (k_cases c))), RBool true)
  | OpAddCasePattern cn p factor =>                                               (* 737-755 *)
      match bindO (dget cn (k_cases c)) (fun lc =>
            bindO (dget p (k_pats c)) (fun a =>
            bindO (nth_error (k_heap c) a) (fun pt =>
            Some (case_add_pattern (p_name pt) a factor None lc)))) with
      | Some lc' => (with_core w (Core m (k_pats c) (k_heap c) (dset cn lc' (k_cases c))), RBool true)
      | None => (w, RBool false)
      end
  | OpAssemble =>                                                                 (* 757-772 *)
      match mk_asm m (dvals (k_cases c)) (k_heap c) with
      | Some a => (put_file asb_file (FAsb a) w, RBool true)
      | None => (w, RBool false)
      end
  | OpSolveStatic cn => do_solve_static ext w cn                                  (* 774-794 *)
  | OpSolveModal cn num => (w, RBool false)
      (* 796-814: solve_eigen takes one argument (dynamic.py:36), called with two *)
  | OpStructuralResult cn => (w, RNone)                                           (* 816-844 *)
  | OpNodalReaction n cn => (w, RNone)
      (* 846-863: NodeResultResolver needs two arguments (fe_post/node.py:8), given one *)
  | OpNodalDisp n cn =>                                                           (* 865-882 *)
      ret w RVec (bindO (read_asb w) (fun a => bindO (read_disp w cn) (fun d =>
                  resolve_nodal_displacement a d n)))
  | OpAllNodalDisp cn =>                                                          (* 884-900 *)
      ret w RDict (bindO (read_asb w) (fun a =>
                   mapM (fun n => bindO (read_disp w cn) (fun d =>
                         bindO (resolve_nodal_displacement a d n) (fun v => Some (n, v))))
                        (model_node_names m)))
  | OpBeamEndForce b cn => (w, RNone)
      (* 902-919: resolve_beam_end_force reads the undefined self.__path (fe_post/beam.py:20) *)
  | OpBeamDeformation b loc cn =>                                                 (* 921-939 *)
      ret w RVec (bindO (read_asb w) (fun a => bindO (read_disp w cn) (fun d =>
                  resolve_beam_deformation a d b loc)))
  end.

(** A history: outputs in order and the final world. *)
Fixpoint run (ext : externals) (w : world) (ops : list op) : world * list out :=
  match ops with
  | [] => (w, [])
  | o :: r => let (w1, x) := step ext w o in
              let (w2, xs) := run ext w1 r in (w2, x :: xs)
  end.

Definition final (ext : externals) (w : world) (ops : list op) : world := fst (run ext w ops).
Definition outs (ext : externals) (w : world) (ops : list op) : list out := snd (run ext w ops).
