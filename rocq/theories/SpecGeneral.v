(** Vocabulary for the statements about the drawing model (app/general). *)
From Coq Require Import Reals List String Bool.
From Verif Require Import Base General.
Import ListNotations.
Local Open Scope R_scope.

(** Sessions that some sequence of calls produces from a new project. *)
Definition drawn (uuid : nat -> string) (s : session) : Prop :=
  exists ops, s = fst (grun uuid create ops).
(** [uuid1] never answers the same name twice. *)
Definition fresh_names (uuid : nat -> string) : Prop := forall i k, uuid i = uuid k -> i = k.

(** What the names of the units mean, in metres and newtons. *)
Definition metres (u : string) : R :=
  if (String.eqb u "N_mm_C" || String.eqb u "kN_mm_C")%bool then /1000 else 1.
Definition newtons (u : string) : R :=
  if (String.eqb u "kN_m_C" || String.eqb u "kN_mm_C")%bool then 1000 else 1.

(** [a] is [b] up to the tolerance. *)
Definition near (tol a b : R) : Prop := a = b \/ Rabs (a - b) < tol.
(** A joint lies at a point given in a unit of [L] metres. *)
Definition lies (tol L : R) (j : joint) (p : point) : Prop :=
  match p with ((x, y), z) => near tol (j_x j) (x * L) /\ near tol (j_y j) (y * L) /\ near tol (j_z j) (z * L) end.
(** The joint of that name. *)
Definition is_joint (d : db) (n : string) (j : joint) : Prop := In j (d_joints d) /\ j_name j = n.
(** The joints a frame runs from and to. *)
Definition start_of (f : frame) : string := if String.eqb (fr_order f) "01" then fr_p0 f else fr_p1 f.
Definition end_of (f : frame) : string := if String.eqb (fr_order f) "01" then fr_p1 f else fr_p0 f.

(** Every frame runs between two joints of the model and has a section of the model. *)
Definition frames_ok (d : db) : Prop := forall f, In f (d_frames d) ->
  (exists a, is_joint d (fr_p0 f) a) /\ (exists b, is_joint d (fr_p1 f) b) /\ dget (fr_section f) (d_secs d) <> None.

(** A list of numbers in a unit, in SI, number by number. *)
Definition in_si (factors vals : list R) : list R := map (fun xy => fst xy * snd xy) (combine vals factors).

(** Two points further apart than the joints can tell. *)
Definition apart (tol : R) (p q : point) : Prop :=
  match p, q with ((x, y), z), ((x', y'), z') =>
    (x <> x' /\ 2 * tol <= Rabs (x - x')) \/ (y <> y' /\ 2 * tol <= Rabs (y - y')) \/ (z <> z' /\ 2 * tol <= Rabs (z - z')) end.

(** A joint is where asked, coordinates left out being free. *)
Definition fits (tol L : R) (x : option R) (v : R) : Prop := match x with None => True | Some x => Rabs (v - x * L) < tol end.

(** Calls that neither rename a section, nor merge joints. *)
Definition plain (o : gop) : Prop := match o with GSetSection _ _ | GAddBatch _ _ | GMerge _ => False | _ => True end.

(** ** Places *)
(** Where a joint is, in metres; a point given in a unit of [L] metres. *)
Definition pos (j : joint) : point := ((j_x j, j_y j), j_z j).
Definition scaled (L : R) (p : point) : point := match p with ((x, y), z) => ((x * L, y * L), z * L) end.
Definition place_dist2 (p q : point) : R :=
  match p, q with ((x, y), z), ((x', y'), z') => (x' - x)^2 + (y' - y)^2 + (z' - z)^2 end.
(** Any two of the places coincide or are not closer than the tolerance. *)
Definition well_apart (tol : R) (ps : list point) : Prop :=
  forall p q, In p ps -> In q ps -> p = q \/ tol^2 <= place_dist2 p q.
(** The ends of all members of a batch. *)
Definition batch_places (L : R) (pts : list (point * point)) : list point :=
  flat_map (fun pq => [scaled L (fst pq); scaled L (snd pq)]) pts.
(** A member runs from one place to another, between joints of the model. *)
Definition runs (d : db) (f : frame) (p q : point) : Prop :=
  (exists a, is_joint d (start_of f) a /\ pos a = p) /\ (exists b, is_joint d (end_of f) b /\ pos b = q).

(** ** Deleting *)
(** Calls that are to delete something. *)
Definition deletes (o : gop) : Prop :=
  match o with
  | GDeleteJoint _ | GDeleteSection _ | GDeleteFrame _ | GDeleteArea _ | GDeleteAreaSec _ | GDeleteCase _ => True
  | _ => False
  end.
(** Names listed once each, and just those of the table. *)
Definition lists_keys {A} (t : dict A) (a : answer) : Prop :=
  exists l, a = GNames l /\ NoDup l /\ forall n, In n l <-> dget n t <> None.
