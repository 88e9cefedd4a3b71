(** Model of the Grasshopper component that writes and runs a script of interface calls:
    /repo/hyperstatic/app/scripts/grasshopper/run/assemble.py, with the objects its inputs
    are made of (element/beam.py, element/node.py, boundary/node_restraint.py,
    material/material_isotropic.py, cross_section/beam_section_general.py).
    The generated text is modelled by the calls it contains: names are assumed to hold no
    quote or backslash.  Rhino's points are triples, [DistanceTo] the distance, curves are
    read by their two end points only. *)
From Coq Require Import Reals List String Arith Bool ZArith DecimalString.
From Verif Require Import Base Csys Sections Element Load FeModel Assembly Solver Post Api.
Import ListNotations.
Local Open Scope R_scope.

(** element/node.py:21-24 *)
Record gnode : Type := GNode { gn_name : string; gn_pt : vec3 }.
(** boundary/node_restraint.py:25-28, and the loads (the component load/node_load.py is an
    empty file; the attributes are those read in assemble.py:211-219). *)
Record grest : Type := GRest { gr_node : gnode; gr_flags : six bool }.
Record gload : Type := GLoad { gl_node : gnode; gl_f : six R }.
(** material/material_isotropic.py:22-27: the class has no attribute [a], which
    assemble.py:142 reads: [None] is a material without it.  [id] stands for Python's
    [id(object)]. *)
Record gmaterial : Type := GMaterial { gm_id : nat; gm_name : string; gm_rho : R; gm_E : R; gm_mu : R; gm_a : option R }.
(** The shapes tested in assemble.py:143-189; [SOther] is any other text.  The box, circle and
    pipe have no component in the repository. *)
Inductive gshape : Type :=
| SGeneral (A As2 As3 J I2 I3 : R)
| SI (h b tw tf : R)
| SRectangle (h b : R)
| SBox (h b tw tf : R)
| SCircle (d : R)
| SPipe (d t : R)
| SOther.
Record gsection : Type := GSection { gs_id : nat; gs_name : string; gs_mat : gmaterial; gs_shape : gshape }.
(** element/beam.py:20-24; the name is a number, written with %s *)
Record gbeam : Type := GBeam { gb_name : string; gb_start : vec3; gb_end : vec3; gb_sec : gsection }.
Record drawing : Type := Drawing { dr_loads : list gload; dr_rests : list grest; dr_beams : list gbeam }.

(** assemble.py:33-38: [None] raises *)
Definition gh_scale (unit_system : string) : option R :=
  if String.eqb unit_system "Millimeters" then Some (1/1000)
  else if String.eqb unit_system "Meters" then Some 1 else None.
(** assemble.py:39-44; the argument is already in capitals *)
Definition gh_fscale (force_unit : string) : option R :=
  if String.eqb force_unit "N" then Some 1
  else if String.eqb force_unit "KN" then Some (1/1000) else None.

(** assemble.py:69-75 [find_pt]: the first node closer than [tol]; -1 is [None] *)
Fixpoint find_pt (tol : R) (pt : vec3) (l : list gnode) : option nat :=
  match l with
  | [] => None
  | n :: r => if Rltb (norm (vsub pt (gn_pt n))) tol then Some O
              else option_map S (find_pt tol pt r)
  end.

(** assemble.py:89-94 for one entry: the nodes so far and the node the entry now has *)
Definition place (tol : R) (nd : gnode) (nodes : list gnode) : list gnode * gnode :=
  match find_pt tol (gn_pt nd) nodes with
  | None => (nodes ++ [nd], nd)
  | Some i => (nodes, nth i nodes nd)
  end.
Fixpoint place_all (tol : R) (l : list gnode) (nodes : list gnode) : list gnode * list gnode :=
  match l with
  | [] => (nodes, [])
  | nd :: r => let (nodes1, nd') := place tol nd nodes in
               let (nodes2, r') := place_all tol r nodes1 in (nodes2, nd' :: r')
  end.

(** ["gen_%d"%loc] *)
Definition gen_name (i : nat) : string := ("gen_" ++ NilEmpty.string_of_uint (Nat.to_uint i))%string.
(** assemble.py:97-114, one beam: both ends are looked up before either is added; [conn] is
    keyed by the name of the beam. *)
Definition join (tol : R) (b : gbeam) (st : list gnode * dict (nat * nat)) : list gnode * dict (nat * nat) :=
  let (nodes, conn) := st in
  let loc1 := find_pt tol (gb_start b) nodes in
  let loc2 := find_pt tol (gb_end b) nodes in
  let (nodes1, i) := match loc1 with Some i => (nodes, i) | None => (nodes ++ [GNode (gen_name (List.length nodes)) (gb_start b)], List.length nodes) end in
  let (nodes2, j) := match loc2 with Some j => (nodes1, j) | None => (nodes1 ++ [GNode (gen_name (List.length nodes1)) (gb_end b)], List.length nodes1) end in
  (nodes2, dset (gb_name b) (i, j) conn).
Definition join_all (tol : R) (bs : list gbeam) (nodes : list gnode) : list gnode * dict (nat * nat) :=
  fold_left (fun st b => join tol b st) bs (nodes, []).

(** assemble.py:78-86: the sections and materials, each object once.  Python keys them by
    [id]; their order (that of the dictionary) is taken to be the order of first use. *)
Fixpoint once {A} (key : A -> nat) (l : list A) (seen : list nat) : list A :=
  match l with
  | [] => []
  | x :: r => if existsb (Nat.eqb (key x)) seen then once key r seen else x :: once key r (key x :: seen)
  end.
Definition sections_of (d : drawing) : list gsection := once gs_id (map gb_sec (dr_beams d)) [].
Definition materials_of (d : drawing) : list gmaterial := once gm_id (map gs_mat (sections_of d)) [].

(** ["%f"%x] as it is read back: six decimals.  (A number half way between two is rounded
    up here; Python rounds the binary value.) *)
Definition fmt (x : R) : R := IZR (Int_part (x * 1000000 + 1/2)) / 1000000.

(** One line of the script: a call, or a call with too few arguments, which raises TypeError
    and ends the script ([None]). *)
Definition line := option op.
(** assemble.py:136-142 *)
Definition material_line (sc fs : R) (m : gmaterial) : option line :=
  match gm_a m with
  | Some a => Some (Some (OpAddMaterial (gm_name m) (fmt (gm_rho m / sc^3)) (fmt (gm_E m * fs / sc^2)) (fmt (gm_mu m)) (fmt a)))
  | None => None
  end.
(** assemble.py:143-189: the branch for the box tests for "I" a second time and is never
    taken; circles and pipes are written as calls of [add_beam_section_I] with one and two
    sizes. *)
Definition section_line (sc : R) (s : gsection) : option line :=
  let n := gs_name s in let m := gm_name (gs_mat s) in
  match gs_shape s with
  | SGeneral A As2 As3 J I2 I3 =>
      Some (Some (OpAddGeneral n m (fmt (A * sc^2)) (fmt (As2 * sc^2)) (fmt (As3 * sc^2)) (fmt (I2 * sc^4)) (fmt (I3 * sc^4)) (fmt (J * sc^4)) (fmt 0) (fmt 0)))
  | SI h b tw tf => Some (Some (OpAddI n m (fmt (h * sc)) (fmt (b * sc)) (fmt (tw * sc)) (fmt (tf * sc))))
  | SRectangle h b => Some (Some (OpAddRectangle n m (fmt (h * sc)) (fmt (b * sc))))
  | SBox _ _ _ _ => None
  | SCircle _ | SPipe _ _ => Some None
  | SOther => None
  end.
(** assemble.py:190-194 *)
Definition node_line (sc : R) (nd : gnode) : line :=
  Some (OpAddNode (gn_name nd) (fmt (vx (gn_pt nd) * sc)) (fmt (vy (gn_pt nd) * sc)) (fmt (vz (gn_pt nd) * sc))).
(** assemble.py:196-202; KeyError and IndexError cannot happen here *)
Definition beam_line (nodes : list gnode) (conn : dict (nat * nat)) (b : gbeam) : option line :=
  bindO (dget (gb_name b) conn) (fun ij =>
  bindO (nth_error nodes (fst ij)) (fun ni =>
  bindO (nth_error nodes (snd ij)) (fun nj =>
  Some (Some (OpAddBeam (gb_name b) (gn_name ni) (gn_name nj) (gs_name (gb_sec b))))))).
(** assemble.py:210-219: moments are multiplied by [fscale**2] *)
Definition load_line (fs : R) (nl : gnode * gload) : line :=
  match gl_f (snd nl) with (f1, f2, f3, m1, m2, m3) =>
    Some (OpSetNodalLoad "pat1" (gn_name (fst nl))
      (fmt (f1 * fs), fmt (f2 * fs), fmt (f3 * fs), fmt (m1 * fs^2), fmt (m2 * fs^2), fmt (m3 * fs^2)))
  end.
(** assemble.py:221-227 *)
Definition rest_line (nr : gnode * grest) : line := Some (OpSetRestraint (gn_name (fst nr)) (gr_flags (snd nr))).

(** assemble.py:88-116: the merged nodes, the node of every restraint and of every load, and
    the nodes of the beams.  Restraints come before loads. *)
Record merged : Type := Merged { mg_nodes : list gnode; mg_rests : list gnode; mg_loads : list gnode; mg_conn : dict (nat * nat) }.
Definition merge (tol : R) (d : drawing) : merged :=
  let (nodes, placed) := place_all tol (map gr_node (dr_rests d) ++ map gl_node (dr_loads d)) [] in
  let (nodes', conn) := join_all tol (dr_beams d) nodes in
  Merged nodes' (firstn (List.length (dr_rests d)) placed) (skipn (List.length (dr_rests d)) placed) conn.

(** assemble.py:63-230 with [run=True]: the lines of the script, or [None] if the component
    raises before the script is run *)
Definition script (unit_system force_unit : string) (tol : R) (d : drawing) : option (list line) :=
  bindO (gh_scale unit_system) (fun sc =>
  bindO (gh_fscale force_unit) (fun fs =>
  let g := merge tol d in
  bindO (mapM (material_line sc fs) (materials_of d)) (fun ms =>
  bindO (mapM (section_line sc) (sections_of d)) (fun ss =>
  bindO (mapM (beam_line (mg_nodes g) (mg_conn g)) (dr_beams d)) (fun bs =>
  Some (ms ++ ss ++ map (node_line sc) (mg_nodes g) ++ bs
        ++ [Some (OpAddPattern "pat1"); Some (OpAddStatic "case1"); Some (OpAddCasePattern "case1" "pat1" 1)]
        ++ map (load_line fs) (combine (mg_loads g) (dr_loads d))
        ++ map rest_line (combine (mg_rests g) (dr_rests d))
        ++ [Some OpAssemble; Some (OpSave "assembly")])))))).

(** Running the script: the calls up to the first line that raises. *)
Fixpoint executed (l : list line) : list op :=
  match l with
  | Some o :: r => o :: executed r
  | _ => []
  end.
