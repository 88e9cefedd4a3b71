(** The viewers of hyperstatic/app/viz/viz_core (__init__.py, result_deformation.py, model_load.py,
    model_basic.py).  What is modelled is what they compute: the places, lines, faces, cones, arrows
    and numbers that they hand to vedo, which of the drawn things are switched on, and what the
    buttons say.  What vedo paints from them, colours, cameras and texts are not modelled; its
    constructors are taken not to raise.  [None] is an exception. *)
From Coq Require Import Reals Rbasic_fun List String Ascii Bool.
From Verif Require Import Base Csys Solver FeModel Load Api.
Import ListNotations.
Local Open Scope R_scope.
Local Open Scope string_scope.

(** ** Files *)
(** [os.path.join] on posix: an absolute second part replaces the first *)
Definition is_abs (p : string) : bool := match p with String c _ => Ascii.eqb c "/" | EmptyString => false end.
Fixpoint ends_slash (p : string) : bool :=
  match p with EmptyString => false | String c EmptyString => Ascii.eqb c "/" | String _ r => ends_slash r end.
Definition path_join (a b : string) : string :=
  if is_abs b then b else if (String.eqb a "" || ends_slash a)%bool then a ++ b else a ++ "/" ++ b.
(** core/__init__.py:53: where [save] writes *)
Definition saved_path (workpath filename : string) : string := path_join workpath (filename ++ ".sep").
(** viz_core/__init__.py:24-25 with core/__init__.py:69: where a viewer reads *)
Definition viewer_path (workpath filename : string) : string :=
  path_join workpath (path_join workpath filename ++ ".sep").

(** ** The picture of a model *)
(** what a method of the interface answers *)
Definition ask (ext : externals) (w : world) (o : op) : out := snd (step ext w o).

(** a square pyramid at a restrained node; [co_rot] is drawn in red *)
Record cone : Type := Cone { co_pos : vec3; co_axis : vec3; co_rot : bool }.

(** viz_core/__init__.py:26-43: the attributes pts, pt_id_map, lines, faces, scale and
    vnode_restraints *)
Record picture : Type := Picture {
  v_pts : dict vec3;
  v_ids : dict nat;
  v_lines : dict (vec3 * vec3);
  v_faces : dict (nat * nat * nat * nat);
  v_scale : R;
  v_cones : list cone }.

(** viz_core/__init__.py:59-62, the loop of [init_nodes] *)
Fixpoint add_points (ext : externals) (w : world) (names : list string) (pts : dict vec3) (ids : dict nat)
  : option (dict vec3 * dict nat) :=
  match names with
  | [] => Some (pts, ids)
  | n :: r => match ask ext w (OpNodeLocation n) with
              | RVec3 p => add_points ext w r (dset n p pts) (dset n (List.length pts) ids)
              | _ => None
              end
  end.
(** viz_core/__init__.py:53-65 [init_nodes] *)
Definition init_nodes (ext : externals) (w : world) : option (dict vec3 * dict nat) :=
  match ask ext w OpNodeNames with RNames l => add_points ext w l [] [] | _ => None end.

(** viz_core/__init__.py:123-125, result_deformation.py:152-154: the loop over the beams *)
Fixpoint add_lines (ext : externals) (w : world) (pts : dict vec3) (names : list string) (lines : dict (vec3 * vec3))
  : option (dict (vec3 * vec3)) :=
  match names with
  | [] => Some lines
  | b :: r => match ask ext w (OpBeamNodeNames b) with
              | RNames [s; e] =>
                  bindO (dget s pts) (fun p => bindO (dget e pts) (fun q =>
                  add_lines ext w pts r (dset b (p, q) lines)))
              | _ => None
              end
  end.
(** viz_core/__init__.py:116-127 [init_beams] *)
Definition init_beams (ext : externals) (w : world) (pts : dict vec3) : option (dict (vec3 * vec3)) :=
  match ask ext w OpBeamNames with RNames l => add_lines ext w pts l [] | _ => None end.

(** viz_core/__init__.py:136-140, the loop of [init_shells]; unpacking [None] raises *)
Fixpoint add_faces (ext : externals) (w : world) (ids : dict nat) (names : list string) (faces : dict (nat * nat * nat * nat))
  : option (dict (nat * nat * nat * nat)) :=
  match names with
  | [] => Some faces
  | s :: r => match ask ext w (OpShellNodeNames s) with
              | RNames [n1; n2; n3; n4] =>
                  bindO (dget n1 ids) (fun a => bindO (dget n2 ids) (fun b =>
                  bindO (dget n3 ids) (fun c => bindO (dget n4 ids) (fun d =>
                  add_faces ext w ids r (dset s (a, b, c, d) faces)))))
              | _ => None
              end
  end.
(** viz_core/__init__.py:129-143 [init_shells] *)
Definition init_shells (ext : externals) (w : world) (ids : dict nat) : option (dict (nat * nat * nat * nat)) :=
  match ask ext w OpShellNames with RNames l => add_faces ext w ids l [] | _ => None end.

(** python [max], [min] of a list; ValueError for an empty one *)
Definition maxl (l : list R) : option R := match l with [] => None | x :: r => Some (fold_left Rmax r x) end.
Definition minl (l : list R) : option R := match l with [] => None | x :: r => Some (fold_left Rmin r x) end.
Definition half_width (l : list R) : option R :=
  bindO (maxl l) (fun M => bindO (minl l) (fun m => Some (M / 2 - m / 2))).
(** viz_core/__init__.py:145-155 [scene_radius] *)
Definition scene_radius (pts : dict vec3) : option R :=
  bindO (half_width (map vx (dvals pts))) (fun rx =>
  bindO (half_width (map vy (dvals pts))) (fun ry =>
  bindO (half_width (map vz (dvals pts))) (fun rz => Some (Rmax (Rmax rx ry) rz)))).

(** viz_core/__init__.py:75-99: the cones of one node; [s] is the scale divided by 100.  The six
    flags are always there (set_nodal_restraint takes six). *)
Definition node_cones (s : R) (p : vec3) (v : list bool) : list cone :=
  (if nth 0 v false then [Cone (V3 (vx p - 1 * s) (vy p) (vz p)) (V3 1 0 0) false] else []) ++
  (if nth 1 v false then [Cone (V3 (vx p) (vy p - 1 * s) (vz p)) (V3 0 1 0) false] else []) ++
  (if nth 2 v false then [Cone (V3 (vx p) (vy p) (vz p - 1 * s)) (V3 0 0 1) false] else []) ++
  (if nth 3 v false then [Cone (V3 (vx p + 1 * s) (vy p) (vz p)) (V3 (-1) 0 0) true] else []) ++
  (if nth 4 v false then [Cone (V3 (vx p) (vy p + 1 * s) (vz p)) (V3 0 (-1) 0) true] else []) ++
  (if nth 5 v false then [Cone (V3 (vx p) (vy p) (vz p + 1 * s)) (V3 0 0 (-1)) true] else []).
(** viz_core/__init__.py:67-103 [init_restraints] *)
Definition init_restraints (ext : externals) (w : world) (pts : dict vec3) (scale : R) : option (list cone) :=
  match ask ext w (OpNodeRestraints None) with
  | RFlags d => bindO (mapM (fun kv => bindO (dget (fst kv) pts) (fun p => Some (node_cones (scale / 100) p (snd kv)))) d)
                      (fun l => Some (List.concat l))
  | _ => None
  end.

(** viz_core/__init__.py:22-47 [ViewerBase.__init__], on the interface that was loaded *)
Definition open_view (ext : externals) (w : world) : option picture :=
  bindO (init_nodes ext w) (fun pi =>
  bindO (init_beams ext w (fst pi)) (fun lines =>
  bindO (init_shells ext w (snd pi)) (fun faces =>
  bindO (scene_radius (fst pi)) (fun r =>
  bindO (init_restraints ext w (fst pi) r) (fun cones =>
  Some (Picture (fst pi) (snd pi) lines faces r cones)))))).

(** ** result_deformation.py *)
Inductive axis : Type := AX | AY | AZ.
Definition axis_index (a : axis) : nat := match a with AX => 0 | AY => 1 | AZ => 2 end.

(** result_deformation.py:126-134: the loop over the displacements *)
Fixpoint displace (scale : R) (a : axis) (d : list (string * list R)) (pts : dict vec3) (disp : dict R)
  : option (dict vec3 * dict R) :=
  match d with
  | [] => Some (pts, disp)
  | (k, v) :: r =>
      bindO (dget k pts) (fun o =>
      bindO (nth_error v 0) (fun v0 => bindO (nth_error v 1) (fun v1 => bindO (nth_error v 2) (fun v2 =>
      let c := match a with AX => v0 | AY => v1 | AZ => v2 end in
      displace scale a r (dset k (V3 (vx o + v0 * scale) (vy o + v1 * scale) (vz o + v2 * scale)) pts)
               (dset k c disp)))))
  end.
(** result_deformation.py:155-156: two numbers for each beam *)
Fixpoint line_scals (ext : externals) (w : world) (disp : dict R) (names : list string) : option (list R) :=
  match names with
  | [] => Some []
  | b :: r => match ask ext w (OpBeamNodeNames b) with
              | RNames [s; e] =>
                  bindO (dget s disp) (fun x => bindO (dget e disp) (fun y =>
                  bindO (line_scals ext w disp r) (fun l => Some (x :: y :: l))))
              | _ => None
              end
  end.

(** what is drawn of the model: the places of the nodes, the lines, the corners of the faces, the
    numbers given to the colour map for nodes and shells, and for lines *)
Record drawing : Type := Drawing {
  g_pts : dict vec3;
  g_lines : dict (vec3 * vec3);
  g_faces : dict (nat * nat * nat * nat);
  g_scals : list R;
  g_lscals : list R }.

(** result_deformation.py:117-181 [__show_result_deformation], always for "case1"; [pts] and [lines]
    are copies.  Line 137: [max] of no numbers raises. *)
Definition show_deformation (ext : externals) (w : world) (pic : picture) (scale : R) (a : axis) : option drawing :=
  match ask ext w (OpAllNodalDisp "case1"), ask ext w OpBeamNames with
  | RDict d, RNames beams =>
      bindO (displace scale a d (v_pts pic) []) (fun pd =>
      bindO (maxl (dvals (snd pd))) (fun _ =>
      bindO (add_lines ext w (fst pd) beams (v_lines pic)) (fun lines =>
      bindO (line_scals ext w (snd pd) beams) (fun ls =>
      Some (Drawing (fst pd) lines (v_faces pic) (dvals (snd pd)) ls)))))
  | _, _ => None
  end.
(** result_deformation.py:101-113 [__reset_deformation]: no colours *)
Definition undeformed (pic : picture) : drawing := Drawing (v_pts pic) (v_lines pic) (v_faces pic) [] [].

(** The window.  The three buttons are [true] when they say "reset", the node button when it says
    "hide nodes".  [r_old] is the actor "node" of viz_core/__init__.py:65, [r_new] the actor "nodes"
    of result_deformation.py:109,177, each with its places and whether it is switched on; self.vnodes
    is the second once there is one. *)
Record window : Type := Window {
  r_scale : R;
  r_x : bool; r_y : bool; r_z : bool; r_node : bool;
  r_old : list vec3 * bool;
  r_new : option (list vec3 * bool);
  r_shown : drawing }.
(** result_deformation.py:13-17: the nodes are switched off (viz_core/__init__.py:64) *)
Definition open_window (pic : picture) : window :=
  Window 0 false false false false (dvals (v_pts pic), false) None (undeformed pic).

Definition is_on (a : axis) (s : window) : bool := match a with AX => r_x s | AY => r_y s | AZ => r_z s end.
(** result_deformation.py:67-74, 79-86, 91-98: switch the button; the others lose "reset" *)
Definition switch (a : axis) (s : window) : window :=
  let b := negb (is_on a s) in
  Window (r_scale s)
    (match a with AX => b | _ => false end) (match a with AY => b | _ => false end) (match a with AZ => b | _ => false end)
    (r_node s) (r_old s) (r_new s) (r_shown s).
Definition redraw (g : drawing) (on : bool) (s : window) : window :=
  Window (r_scale s) (r_x s) (r_y s) (r_z s) (r_node s) (r_old s) (Some (dvals (g_pts g), on)) g.

Inductive press : Type := PSlide (scale : R) | PNode | PDeform (a : axis).
(** result_deformation.py:53-98.  [None]: the callback raises and nothing has changed yet but the
    actors removed from the plotter. *)
Definition handle (ext : externals) (w : world) (pic : picture) (s : window) (p : press) : option window :=
  match p with
  | PSlide k => Some (Window k (r_x s) (r_y s) (r_z s) (r_node s) (r_old s) (r_new s) (r_shown s))   (* 53-54 *)
  | PNode =>                                                                                         (* 56-61 *)
      let on := negb (r_node s) in
      Some (match r_new s with
            | None => Window (r_scale s) (r_x s) (r_y s) (r_z s) on (fst (r_old s), on) None (r_shown s)
            | Some (ps, _) => Window (r_scale s) (r_x s) (r_y s) (r_z s) on (r_old s) (Some (ps, on)) (r_shown s)
            end)
  | PDeform a =>                                                                                     (* 63-98 *)
      if is_on a s
      then Some (switch a (redraw (undeformed pic) false s))       (* 105: switched off in any case *)
      else bindO (show_deformation ext w pic (r_scale s) a) (fun g =>
           Some (switch a (redraw g (r_node s) s)))                (* 145-146 *)
  end.
Fixpoint presses (ext : externals) (w : world) (pic : picture) (s : window) (l : list press) : option window :=
  match l with [] => Some s | p :: r => bindO (handle ext w pic s p) (fun s' => presses ext w pic s' r) end.
(** the places at which nodes are seen: every actor of the dictionary that is on *)
Definition seen_nodes (s : window) : list vec3 :=
  ((if snd (r_old s) then fst (r_old s) else []) ++
   match r_new s with Some (ps, true) => ps | _ => [] end)%list.

(** ** model_load.py *)
(** model_load.py:110-121: the loop over the nodes; the ends of the arrows, the loads and their
    magnitudes.  [f1**2+f2**2+f3**2] is never negative. *)
Fixpoint loaded (ext : externals) (w : world) (d : dict (list R)) (names : list string)
  : option (list (vec3 * vec3 * R)) :=
  match names with
  | [] => Some []
  | n :: r =>
      match dget n d with
      | None => loaded ext w d r
      | Some v =>
          match ask ext w (OpNodeLocation n), v with
          | RVec3 p, [f1; f2; f3; _; _; _] =>
              bindO (loaded ext w d r) (fun l => Some ((p, V3 f1 f2 f3, sqrt (f1 ^ 2 + f2 ^ 2 + f3 ^ 2)) :: l))
          | _, _ => None
          end
      end
  end.
(** model_load.py:122-125 *)
Definition arrow_scale (radius M : R) : R := if Reqb M 0 then 1 else Rabs (radius / M * (2 / 10)).
(** model_load.py:100-129 [init_nodal_load]: start and end of each arrow.  Always pattern "pat1";
    without it [None.keys()] raises (there is a node, or the viewer had not opened), without a loaded
    node [max] does. *)
Definition load_arrows (ext : externals) (w : world) (pic : picture) : option (list (vec3 * vec3)) :=
  match ask ext w (OpGetAllNodalLoad "pat1"), ask ext w OpNodeNames with
  | RDict d, RNames l =>
      bindO (loaded ext w d l) (fun t =>
      bindO (maxl (map snd t)) (fun M =>
      let k := arrow_scale (v_scale pic) M in
      Some (map (fun x => match x with (p, f, _) =>
                   (V3 (vx p - vx f * k) (vy p - vy f * k) (vz p - vz f * k), p) end) t)))
  | _, _ => None
  end.

(** ** The buttons for nodes, beams and shells (model_basic.py, model_load.py) *)
(** [b_*]: what the button says ([true]: "hide_..."); [s_*]: whether the actor is on *)
Record toggles : Type := Toggles { b_node : bool; b_beam : bool; b_shell : bool; s_node : bool; s_beam : bool; s_shell : bool }.
(** model_basic.py:20-43, model_load.py:21-52: the first state of each button; only the nodes start off *)
Definition open_toggles : toggles := Toggles false true true false true true.
Inductive toggle : Type := TNode | TBeam | TShell.
(** model_basic.py:48-69; there are beams and shells, or their actor is not touched *)
Definition basic_toggle (t : toggle) (s : toggles) : toggles :=
  match t with
  | TNode => Toggles (negb (b_node s)) (b_beam s) (b_shell s) (negb (b_node s)) (s_beam s) (s_shell s)
  | TBeam => Toggles (b_node s) (negb (b_beam s)) (b_shell s) (s_node s) (negb (b_beam s)) (s_shell s)
  | TShell => Toggles (b_node s) (b_beam s) (negb (b_shell s)) (s_node s) (s_beam s) (negb (b_shell s))
  end.
(** model_load.py:57-76, with shells in the model (without them [None.on()] raises): the button of
    the beams switches the shells on, sic *)
Definition load_toggle (t : toggle) (s : toggles) : toggles :=
  match t with
  | TBeam => if b_beam s then Toggles (b_node s) false (b_shell s) (s_node s) false (s_shell s)
             else Toggles (b_node s) true (b_shell s) (s_node s) (s_beam s) true
  | _ => basic_toggle t s
  end.
