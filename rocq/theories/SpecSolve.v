(** Vocabulary for the statements about the static solution. *)
From Coq Require Import Reals List String Arith Bool Sorting.Sorted.
From Verif Require Import Base Csys Sections Element Load FeModel Assembly Solver Post Api SpecApi SpecElim SpecAsm SpecLoad.
Import ListNotations.
Local Open Scope R_scope.

(** The sparse solver, whenever it answers, answers with the exact solution. *)
Definition exact_solver (ext : externals) : Prop := forall N A b x, x_spsolve ext N A b = Some x ->
  List.length x = N /\ forall i, (i < N)%nat -> rsum N (fun j => coo_get A i j * nth j x 0) = nth i b 0.
(** The sparse solver always answers with a vector of the right size. *)
Definition answering_solver (ext : externals) : Prop := forall N A b,
  exists x, x_spsolve ext N A b = Some x /\ List.length x = N.

(** A restraint table without entries, or with at least one True. *)
Definition usable (x : out) : Prop := x = RFlags [] \/ exists k j, (j < 6)%nat /\ flag x k j = true.
(** All nodes named in a restraint table exist. *)
Definition names_nodes (ext : externals) (w : world) (x : out) : Prop :=
  forall d k, x = RFlags d -> In k (map fst d) -> node_exists ext w k.

(** The displacement vector stored for a case. *)
Definition stored (w : world) (c : string) (q : nat) : R :=
  match read_disp w c with Some d => nth q d 0 | None => 0 end.

(** The nodes of a restraint table appear in the order in which they are numbered. *)
Definition in_node_order (names x : out) : Prop := exists l d positions, names = RNames l /\ x = RFlags d
  /\ StronglySorted lt positions /\ map (nth_error l) positions = map (fun kv => Some (fst kv)) d.
