(** Vocabulary for the statements about handing a drawing to the element model and about project
    files. *)
From Coq Require Import Reals List String Bool.
From Verif Require Import Base General SpecGeneral Mesh.
Import ListNotations.
Local Open Scope R_scope.

(** [h] is the number the element model gave the joint called [n]: the answer to the call made for
    it, the calls being made in the order the joints are stored. *)
Definition node_of (hid : nat -> nat) (d : db) (n : string) (h : nat) : Prop :=
  exists i j, nth_error (d_joints d) i = Some j /\ j_name j = n /\ h = hid i.
(** The beam a frame should become: from the joint it was drawn from to the joint it was drawn to,
    with the constants of its section and of the material of its section. *)
Definition beam_of (hid : nat -> nat) (d : db) (f : frame) (c : fecall) : Prop :=
  exists a b s m E mu, node_of hid d (start_of f) a /\ node_of hid d (end_of f) b /\
    dget (fr_section f) (d_secs d) = Some s /\ dget (gs_mat s) (d_mats d) = Some m /\ gm_elastic m = Some (E, mu) /\
    c = CBeam a b E mu (gs_A s) (gs_I2 s) (gs_I3 s) (gs_J s) (gm_rho m).
(** The support a restraint should become: zero where fixed, free elsewhere. *)
Definition support_of (hid : nat -> nat) (d : db) (r : string * list bool) (c : fecall) : Prop :=
  exists h v, node_of hid d (fst r) h /\ c = CDisp h v /\ List.length v = List.length (snd r) /\
    forall k, nth_error v k = match nth_error (snd r) k with Some true => Some (Some 0) | Some false => Some None | None => None end.
(** Every material has elastic constants. *)
Definition all_elastic (d : db) : Prop := forall n m, dget n (d_mats d) = Some m -> gm_elastic m <> None.

(** The force that calls put on a node in direction [k], and on the structure as a whole. *)
Fixpoint force_at (h k : nat) (cs : list fecall) : R :=
  match cs with
  | [] => 0
  | CForce n f :: r => (if Nat.eqb n h then nth k f 0 else 0) + force_at h k r
  | _ :: r => force_at h k r
  end.
Fixpoint force_total (k : nat) (cs : list fecall) : R :=
  match cs with
  | [] => 0
  | CForce _ f :: r => nth k f 0 + force_total k r
  | _ :: r => force_total k r
  end.
(** Half the mass of every beam that ends at a node; the mass of all beams. *)
Fixpoint mass_at (h : nat) (beams : list (nat * nat * R)) : R :=
  match beams with
  | [] => 0
  | (a, b, m) :: r => (if Nat.eqb a h then m / 2 else 0) + (if Nat.eqb b h then m / 2 else 0) + mass_at h r
  end.
Fixpoint mass_total (beams : list (nat * nat * R)) : R := match beams with [] => 0 | (_, _, m) :: r => m + mass_total r end.
(** The stored load of a case on the joint a node stands for; a NULL is no load. *)
Fixpoint stored_at (pn : dict nat) (c : string) (h k : nat) (ls : list jload) : R :=
  match ls with
  | [] => 0
  | l :: r =>
      (if (String.eqb (jl_case l) c && match dget (jl_joint l) pn with Some n => Nat.eqb n h | None => false end)%bool
       then match nth_error (jl_cols l) k with Some (Some v) => v | _ => 0 end else 0) + stored_at pn c h k r
  end.

(** Calls a user makes on an open project; saving is a call of its own. *)
Definition edits (os : list gop) : list pop := map PEdit os.
(** The project a session works on. *)
Definition at_work (p : proj) : option db := match p_sess p with Some (_, s) => Some (s_db s) | None => None end.
(** The same files, but for one. *)
Definition same_but (path : string) (a b : disk) : Prop := forall q, q <> path -> dget q a = dget q b.

(** The stored loads of a case in direction [k], all joints together. *)
Fixpoint stored_total (c : string) (k : nat) (ls : list jload) : R :=
  match ls with
  | [] => 0
  | l :: r => (if String.eqb (jl_case l) c then match nth_error (jl_cols l) k with Some (Some v) => v | _ => 0 end else 0) + stored_total c k r
  end.
(** The force a case should put on a node in direction [k]: its loads, and downwards its share of
    the weight of the beams. *)
Definition own_force (weight : string -> option R) (beams : list (nat * nat * R)) (pn : dict nat) (d : db) (h k : nat) (c : string) : R :=
  stored_at pn c h k (d_jloads d) +
  (if Nat.eqb k 2 then match weight c with Some w => - (981/100) * w * mass_at h beams | None => 0 end else 0).
Definition is_static (d : db) (c : string) : bool := match dget c (d_cases d) with Some ty => String.eqb ty "static-linear" | None => false end.
Definition total (l : list R) : R := fold_right Rplus 0 l.

(** The names [create] adds are there. *)
Definition furnished (d : db) : Prop :=
  dget "Q345" (d_mats d) <> None /\ dget "C35" (d_mats d) <> None /\ dget "1-L-H400x200x14x20" (d_secs d) <> None /\ dget "A-M120" (d_asecs d) <> None /\ dget "S" (d_cases d) <> None.
(** Calls on a project whose edits are plain. *)
Definition plain_pop (o : pop) : Prop := match o with PEdit o => plain o | _ => True end.
