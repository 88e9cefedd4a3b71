(** Vocabulary for the statements about the viewers: what a user of the interface knows (answers of
    its methods) and what is drawn.  None of it is used by the model. *)
From Coq Require Import Reals List String Arith Bool.
From Verif Require Import Base Csys Solver Load FeModel Api SpecApi Viewer.
Import ListNotations.
Local Open Scope R_scope.

(** where the interface says that a node is *)
Definition stands (ext : externals) (w : world) (n : string) (p : vec3) : Prop :=
  answer ext w (OpNodeLocation n) = RVec3 p.
Definition nodes_are (ext : externals) (w : world) (l : list string) : Prop := answer ext w OpNodeNames = RNames l.
Definition beams_are (ext : externals) (w : world) (l : list string) : Prop := answer ext w OpBeamNames = RNames l.
Definition shells_are (ext : externals) (w : world) (l : list string) : Prop := answer ext w OpShellNames = RNames l.

(** the restraint table of the model *)
Definition restrained (ext : externals) (w : world) (n : string) (i : nat) : Prop :=
  exists d fl, answer ext w (OpNodeRestraints None) = RFlags d /\ lookup n d = Some fl /\ nth i fl false = true.

(** the cone of the i-th restraint (0-2 translations, 3-5 rotations) of a node at [p] *)
Definition unit_axis (i : nat) : vec3 :=
  match i with 0 => V3 1 0 0 | 1 => V3 0 1 0 | _ => V3 0 0 1 end%nat.
Definition cone_of (s : R) (p : vec3) (i : nat) (c : cone) : Prop :=
  if (i <? 3)%nat
  then c = Cone (vsub p (vscale s (unit_axis i))) (unit_axis i) false
  else c = Cone (vadd p (vscale s (unit_axis (i - 3)))) (vscale (-1) (unit_axis (i - 3))) true.

(** half of the largest extent *)
Definition half_extent (ext : externals) (w : world) (r : R) : Prop :=
  (forall m n p q, stands ext w m p -> stands ext w n q ->
     Rabs (vx p - vx q) <= 2 * r /\ Rabs (vy p - vy q) <= 2 * r /\ Rabs (vz p - vz q) <= 2 * r)
  /\ exists m n p q, stands ext w m p /\ stands ext w n q
       /\ (vx p - vx q = 2 * r \/ vy p - vy q = 2 * r \/ vz p - vz q = 2 * r).

(** the k-th place of a list of places *)
Definition corner (pts : list (string * vec3)) (k : nat) (p : vec3) : Prop := nth_error (map snd pts) k = Some p.

(** what is shown of a model whose node [n] is drawn at [at_ n] *)
Definition drawn_at (ext : externals) (w : world) (pts : list (string * vec3)) (lines : list (string * (vec3 * vec3)))
    (faces : list (string * (nat * nat * nat * nat))) (at_ : string -> vec3 -> Prop) : Prop :=
  (forall l, nodes_are ext w l -> map fst pts = l)
  /\ (forall n p, lookup n pts = Some p <-> at_ n p)
  /\ (forall l, beams_are ext w l -> map fst lines = l)
  /\ (forall b s e, answer ext w (OpBeamNodeNames b) = RNames [s; e] ->
        exists p q, lookup b lines = Some (p, q) /\ at_ s p /\ at_ e q)
  /\ (forall l, shells_are ext w l -> map fst faces = l)
  /\ (forall s n1 n2 n3 n4, answer ext w (OpShellNodeNames s) = RNames [n1; n2; n3; n4] ->
        exists a b c d p1 p2 p3 p4, lookup s faces = Some (a, b, c, d)
          /\ corner pts a p1 /\ at_ n1 p1 /\ corner pts b p2 /\ at_ n2 p2
          /\ corner pts c p3 /\ at_ n3 p3 /\ corner pts d p4 /\ at_ n4 p4).

(** what the interface says of the displacement of a node *)
Definition displaced_by (ext : externals) (w : world) (n : string) (u : vec3) : Prop :=
  exists v rest, answer ext w (OpNodalDisp n "case1") = RVec v /\ v = vx u :: vy u :: vz u :: rest.
(** every node has one *)
Definition all_displaced (ext : externals) (w : world) : Prop :=
  forall l n, nodes_are ext w l -> In n l -> exists u, displaced_by ext w n u.

Definition component (a : axis) (u : vec3) : R := match a with AX => vx u | AY => vy u | AZ => vz u end.

(** The numbers belong to the ends of the beams in the order of the listing. *)
Definition end_values (ext : externals) (w : world) (a : axis) (b : string) (l : list R) : Prop :=
  exists s e u v, answer ext w (OpBeamNodeNames b) = RNames [s; e]
    /\ displaced_by ext w s u /\ displaced_by ext w e v /\ l = [component a u; component a v].

(** The deformed drawing. *)
Definition deformed (ext : externals) (w : world) (k : R) (a : axis) (g : drawing) : Prop :=
  drawn_at ext w (g_pts g) (g_lines g) (g_faces g)
    (fun n p => exists o u, stands ext w n o /\ displaced_by ext w n u /\ p = vadd o (vscale k u))
  /\ (forall l, nodes_are ext w l ->
        Forall2 (fun n x => exists u, displaced_by ext w n u /\ x = component a u) l (g_scals g))
  /\ (forall l, beams_are ext w l -> exists ls, Forall2 (end_values ext w a) l ls /\ g_lscals g = List.concat ls).
(** The drawing without deformation and without colours. *)
Definition plain_drawing (ext : externals) (w : world) (g : drawing) : Prop :=
  drawn_at ext w (g_pts g) (g_lines g) (g_faces g) (stands ext w) /\ g_scals g = [] /\ g_lscals g = [].

(** Which deformation a sequence of presses asks for: the axis of the last press of a deformation
    button unless that press took one back, and where the slider stood. *)
Fixpoint wanted (l : list press) (scale : R) (cur : option (axis * R)) : option (axis * R) :=
  match l with
  | [] => cur
  | PSlide k :: r => wanted r k cur
  | PNode :: r => wanted r scale cur
  | PDeform a :: r =>
      wanted r scale (match cur with
                      | Some (b, _) => if (axis_index a =? axis_index b)%nat then None else Some (a, scale)
                      | None => Some (a, scale)
                      end)
  end.

(** a load of pattern "pat1" on a node of the model *)
Definition force_on (ext : externals) (w : world) (n : string) (f : vec3) : Prop :=
  exists v m1 m2 m3, answer ext w (OpGetNodalLoad "pat1" n) = RVec v
    /\ v = [vx f; vy f; vz f; m1; m2; m3] /\ node_exists ext w n.

(** the length of a vector *)
Definition size3 (f : vec3) : R := sqrt (vx f * vx f + vy f * vy f + vz f * vz f).
(** The arrow of a loaded node: it ends at the node and runs along the force, [k] metres per unit of force. *)
Definition arrow_of (ext : externals) (w : world) (k : R) (n : string) (ar : vec3 * vec3) : Prop :=
  exists p f, stands ext w n p /\ force_on ext w n f /\ snd ar = p /\ vsub (snd ar) (fst ar) = vscale k f.
Definition arrow_length (ar : vec3 * vec3) : R := size3 (vsub (snd ar) (fst ar)).

(** no press of the node button before the first press of a deformation button *)
Fixpoint nodes_later (l : list press) : Prop :=
  match l with
  | [] | PDeform _ :: _ => True
  | PNode :: _ => False
  | PSlide _ :: r => nodes_later r
  end.
(** the deformation button was pressed *)
Definition deform_pressed (l : list press) : Prop := exists a, In (PDeform a) l.

(** how often a button was pressed *)
Definition same_toggle (t u : toggle) : bool :=
  match t, u with TNode, TNode | TBeam, TBeam | TShell, TShell => true | _, _ => false end.
Definition pressed_even (t : toggle) (l : list toggle) : bool := Nat.even (List.length (filter (same_toggle t) l)).
