(** Vocabulary for the statements about restrained and free equations. *)
From Coq Require Import Reals List String Arith Bool Sorting.Sorted.
From Verif Require Import Base Csys Sections Element Load FeModel Assembly Solver Post Api SpecApi.
Import ListNotations.
Local Open Scope R_scope.

(** [F] lists the equations below [n] that are not restrained, in increasing order. *)
Definition lists_free (n : nat) (restrained : nat -> Prop) (F : list nat) : Prop :=
  StronglySorted lt F /\ forall q, In q F <-> (q < n)%nat /\ ~ restrained q.

(** Flags of a node in a restraint table, as answered by get_node_restraints. *)
Definition flag (x : out) (k : string) (j : nat) : bool :=
  match entry k x with Some fl => nth j fl false | None => false end.

(** Equation [q] belongs to component [j] of the [i]-th listed node and the table [x]
    has a True there. *)
Definition restrained_in (names x : out) (q : nat) : Prop :=
  exists l k i j, names = RNames l /\ nth_error l i = Some k /\ (j < 6)%nat
    /\ q = (6 * i + j)%nat /\ flag x k j = true.

(** The table that governs a case: its own if it has entries, the global one otherwise. *)
Definition governing (ext : externals) (w : world) (c : string) : out :=
  match answer ext w (OpNodeRestraints (Some c)) with
  | RFlags [] => answer ext w (OpNodeRestraints None)
  | x => x
  end.
Definition restrained_for (ext : externals) (w : world) (c : string) (q : nat) : Prop :=
  restrained_in (answer ext w OpNodeNames) (governing ext w c) q.
Definition restrained_globally (ext : externals) (w : world) (q : nat) : Prop :=
  restrained_in (answer ext w OpNodeNames) (answer ext w (OpNodeRestraints None)) q.
