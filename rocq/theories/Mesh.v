(** Model of /repo/hyperstatic/app/general/model.py:219-336 and 338-341: how a drawing is handed to
    the element model ([mesh], [apply_load]), and of app/general/db.py: the files a drawing is kept
    in ([create], [open], [save], [close]).
    The element model is a parameter: what [mesh] and [apply_load] do is the list of calls they
    make of it, [hid k] being the answer to the k-th call of [add_node].  Areas are left out
    (model.py:251-267): none is ever stored (C94). *)
From Coq Require Import Reals List String Arith Bool.
From Verif Require Import Base General.
Import ListNotations.
Local Open Scope R_scope.

(** ** Calls of the element model *)

Inductive fecall : Type :=
| CNode (x y z : R)                                          (* add_node *)
| CBeam (a b : nat) (E mu A I2 I3 J rho : R)                 (* add_simple_beam *)
| CDisp (n : nat) (d : list (option R))                      (* set_node_displacement *)
| CForce (n : nat) (f : list R).                             (* set_node_force, append=True *)

(** model.py:231-233: one call for every joint, and the map from its name to the answer *)
Fixpoint mesh_nodes (hid : nat -> nat) (k : nat) (js : list joint) (pn : dict nat) : list fecall * dict nat :=
  match js with
  | [] => ([], pn)
  | j :: r => let (cs, pn') := mesh_nodes hid (S k) r (dset (j_name j) (hid k) pn) in
              (CNode (j_x j) (j_y j) (j_z j) :: cs, pn')
  end.

(** model.py:236-244: the constants of a frame.  A section or a material that is not there, or a
    material without a row of [isotropic_elastics], raises AttributeError ([None]). *)
Definition frame_constants (d : db) (f : frame) : option (R * R * gsec * R) :=
  bindO (dget (fr_section f) (d_secs d)) (fun s =>
  bindO (dget (gs_mat s) (d_mats d)) (fun m =>
  bindO (gm_elastic m) (fun el => Some (fst el, snd el, s, gm_rho m)))).

(** model.py:235-250: the calls for the frames; [pn_map[..]] raises KeyError ([None]).  An order
    that is neither 01 nor 10 makes no call. *)
Fixpoint mesh_frames (d : db) (pn : dict nat) (fs : list frame) : option (list fecall) :=
  match fs with
  | [] => Some []
  | f :: r =>
      bindO (dget (fr_p0 f) pn) (fun n0 =>
      bindO (dget (fr_p1 f) pn) (fun n1 =>
      bindO (frame_constants d f) (fun c =>
      match c with (E, mu, s, rho) =>
        bindO (mesh_frames d pn r) (fun cs =>
          Some ((if String.eqb (fr_order f) "01" then [CBeam n0 n1 E mu (gs_A s) (gs_I2 s) (gs_I3 s) (gs_J s) rho]
                 else if String.eqb (fr_order f) "10" then [CBeam n1 n0 E mu (gs_A s) (gs_I2 s) (gs_I3 s) (gs_J s) rho]
                 else []) ++ cs))
      end)))
  end.

(** model.py:269-277: the calls for the restraints *)
Fixpoint mesh_rest (pn : dict nat) (rs : dict (list bool)) : option (list fecall) :=
  match rs with
  | [] => Some []
  | (n, r) :: t =>
      bindO (dget n pn) (fun h =>
      bindO (mesh_rest pn t) (fun cs =>
      Some (CDisp h (map (fun b : bool => if b then Some 0 else None) r) :: cs)))
  end.

(** model.py:219-290 [mesh]: the calls made, in order, and [pn_map]; [None]: an exception *)
Definition mesh (hid : nat -> nat) (d : db) : option (list fecall * dict nat) :=
  let (ns, pn) := mesh_nodes hid 0 (d_joints d) [] in
  bindO (mesh_frames d pn (d_frames d)) (fun fs =>
  bindO (mesh_rest pn (d_rest d)) (fun rs => Some (ns ++ fs ++ rs, pn))).

(** model.py:306-313: the calls for the loads on joints, [applied_loads] being the numbers *)
Fixpoint load_calls (pn : dict nat) (ls : list (string * list R)) : option (list fecall) :=
  match ls with
  | [] => Some []
  | (n, v) :: r => bindO (dget n pn) (fun h => bindO (load_calls pn r) (fun cs => Some (CForce h v :: cs)))
  end.
(** model.py:332-336: self weight.  [beams] are the beams of the element model: the answers of
    [beam.nodes[0].hid], [beam.nodes[1].hid] and [beam.mass]. *)
Definition weight_calls (factor : R) (beams : list (nat * nat * R)) : list fecall :=
  flat_map (fun b => match b with (a, c, m) =>
    let f := - m * (981/100) / 2 * factor in [CForce a [0; 0; f; 0; 0; 0]; CForce c [0; 0; f; 0; 0; 0]] end) beams.
(** model.py:292-336 [apply_load]; [weight] holds the column [weight_factor] of the load cases
    (General.v does not keep it).  A case that is not there has none: AttributeError at the first
    beam ([None]).  Lines 315-330 go through the loads on members and do nothing. *)
Definition apply_load (weight : string -> option R) (beams : list (nat * nat * R)) (pn : dict nat) (c : string) (d : db) : option (list fecall) :=
  bindO (load_calls pn (applied_loads c d)) (fun cs =>
  match beams with
  | [] => Some cs
  | _ => bindO (weight c) (fun w => Some (cs ++ weight_calls w beams))
  end).

(** model.py:347-353: the calls made before the equations of each case are solved, for the cases
    of a run; only static linear cases are loaded.  A case that is not there raises and the run
    ends (lines 349-350, 418-421). *)
Fixpoint run_calls (weight : string -> option R) (beams : list (nat * nat * R)) (pn : dict nat) (d : db) (so_far : list fecall) (cases : list string) : list (string * list fecall) :=
  match cases with
  | [] => []
  | c :: r =>
      match dget c (d_cases d) with
      | None => []
      | Some ty =>
          if String.eqb ty "static-linear" then
            match apply_load weight beams pn c d with
            | None => []
            | Some cs => (c, so_far ++ cs) :: run_calls weight beams pn d (so_far ++ cs) r
            end
          else run_calls weight beams pn d so_far r
      end
  end.

(** ** The element model there is *)

(** Python's binding of positional arguments: [required] parameters without default, [total]
    in all; anything else is TypeError. *)
Record signature : Type := Sig { sig_required : nat; sig_total : nat }.
Definition binds (s : signature) (given : nat) : bool := (Nat.leb (sig_required s) given && Nat.leb given (sig_total s))%bool.
(** core/fe_model/model.py:72 and 163 (self left out); the class has no [set_node_displacement],
    [set_node_force] and no attribute [is_assembled]. *)
Definition core_signature (name : string) : option signature :=
  if String.eqb name "add_node" then Some (Sig 4 5)
  else if String.eqb name "add_simple_beam" then Some (Sig 10 11)
  else None.
Definition call_shape (c : fecall) : string * nat :=
  match c with
  | CNode _ _ _ => ("add_node", 3)%nat                                 (* model.py:232 *)
  | CBeam _ _ _ _ _ _ _ _ _ => ("add_simple_beam", 9)%nat             (* model.py:247, 249 *)
  | CDisp _ _ => ("set_node_displacement", 2)%nat                      (* model.py:277 *)
  | CForce _ _ => ("set_node_force", 3)%nat                            (* model.py:307, 335 *)
  end%string.
Definition accepted (c : fecall) : bool :=
  match core_signature (fst (call_shape c)) with Some s => binds s (snd (call_shape c)) | None => false end.

(** ** Project files: app/general/db.py *)

(** The files, by path.  A database file is what was last committed to it. *)
Definition disk : Type := dict db.
Definition ddel {V} (k : string) (m : dict V) : dict V := filter (fun kv => negb (String.eqb (fst kv) k)) m.

(** [self.session] with the path of its engine ([None] before the first project and after [close]),
    the pair [self.__operate_db], [self.__storage_db] once [open] has set it, and the number of
    uuids drawn. *)
Record proj : Type := Proj { p_disk : disk; p_sess : option (string * session); p_paths : option (string * string); p_drawn : nat }.

(** [database[-4:]=='.mdo'] and [database[:-4]] *)
Fixpoint mdo_base (p : string) : option string :=
  match p with
  | EmptyString => None
  | String c r => if String.eqb p ".mdo" then Some EmptyString
                  else match mdo_base r with Some b => Some (String c b) | None => None end
  end.

Inductive done : Type := DDone | DRaise | DAnswer (a : answer).

(** db.py:27-45: what [create] puts in a database, new or not: [create_all] keeps the tables there
    are, the new row of [configs] comes after the first, which is the one read, so that on an old
    database it changes nothing; the additions are those of [General.create] *)
Definition furnish (s : session) : session :=
  let s := fst (add_material "Q345" 7849 "isotropic_elastic" (Some (200000000000, 3/10)) s) in
  let s := fst (add_material "C35" 2500 "isotropic_elastic" (Some (20000000000, 2/10)) s) in
  let s := fst (add_frame_section "1-L-H400x200x14x20" "Q345" "I" [4/10; 2/10; 14/1000; 2/100] s) in
  let s := fst (add_area_section "A-M120" "C35" "m" (12/100) s) in
  let s := fst (add_loadcase "S" "static-linear" s) in
  commit s.

(** db.py:15-46 *)
Definition p_create (path : string) (p : proj) : proj * done :=
  match mdo_base path with
  | None => (p, DRaise)
  | Some _ =>
      let d0 := match dget path (p_disk p) with Some d => d | None => empty_db end in
      let s := furnish (Session d0 d0 (p_drawn p)) in
      (Proj (dset path (s_saved s) (p_disk p)) (Some (path, s)) (p_paths p) (p_drawn p), DDone)
  end.
(** db.py:48-63; line 55 calls a method that does not exist *)
Definition p_open (path : string) (p : proj) : proj * done :=
  match mdo_base path with
  | None => (p, DRaise)
  | Some b =>
      match dget path (p_disk p) with
      | None => (p, DRaise)
      | Some d =>
          let op := (b ++ ".op")%string in
          (Proj (dset op d (p_disk p)) (Some (op, Session d d (p_drawn p))) (Some (op, path)) (p_drawn p), DDone)
      end
  end.
(** db.py:65-67: without [open] the paths are not set; [shutil.copy] of a file that is not there
    raises *)
Definition p_save (p : proj) : proj * done :=
  match p_sess p with
  | None => (p, DRaise)
  | Some (e, s) =>
      let p1 := Proj (dset e (s_db s) (p_disk p)) (Some (e, commit s)) (p_paths p) (p_drawn p) in
      match p_paths p with
      | None => (p1, DRaise)
      | Some (op, store) =>
          match dget op (p_disk p1) with
          | None => (p1, DRaise)
          | Some d => (Proj (dset store d (p_disk p1)) (p_sess p1) (p_paths p1) (p_drawn p1), DDone)
          end
      end
  end.
(** db.py:69-72.  [session.close()] rolls back.  The session object stays, but what it would do with
    the file gone is not modelled: there is none. *)
Definition p_close (p : proj) : proj * done :=
  match p_paths p with
  | None => (match p_sess p with
             | Some (e, s) => Proj (p_disk p) (Some (e, rollback s)) None (p_drawn p)
             | None => p
             end, DRaise)
  | Some (op, store) => (Proj (ddel op (p_disk p)) None (p_paths p) (p_drawn p), DDone)
  end.
(** Any other call: it works on the session, and what it commits goes to the file of the engine. *)
Definition p_edit (uuid : nat -> string) (o : gop) (p : proj) : proj * done :=
  match p_sess p with
  | None => (p, DRaise)
  | Some (e, s) => let (s', a) := gstep uuid s o in
                   (Proj (dset e (s_saved s') (p_disk p)) (Some (e, s')) (p_paths p) (s_next s'), DAnswer a)
  end.

Inductive pop : Type := PCreate (path : string) | POpen (path : string) | PSave | PClose | PEdit (o : gop).
Definition pstep (uuid : nat -> string) (p : proj) (o : pop) : proj * done :=
  match o with
  | PCreate path => p_create path p
  | POpen path => p_open path p
  | PSave => p_save p
  | PClose => p_close p
  | PEdit o => p_edit uuid o p
  end.
Fixpoint prun (uuid : nat -> string) (p : proj) (os : list pop) : proj * list done :=
  match os with
  | [] => (p, [])
  | o :: r => let (p1, x) := pstep uuid p o in let (p2, xs) := prun uuid p1 r in (p2, x :: xs)
  end.
Definition no_project : proj := Proj [] None None 0.
