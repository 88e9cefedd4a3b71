(** What the readers of results and the load combinations of the drawing model owe. *)
From Coq Require Import Reals List String Arith Bool ZArith.
From Verif Require Import Base General SpecGeneral GeneralResult.
Import ListNotations.
Local Open Scope R_scope.

(** The twelve end forces of a stored row, in newtons and newton metres, first end first. *)
Definition end_forces (f : fforce) : list R :=
  [x1 (ff_0 f); x2 (ff_0 f); x3 (ff_0 f); x4 (ff_0 f); x5 (ff_0 f); x6 (ff_0 f);
   x1 (ff_1 f); x2 (ff_1 f); x3 (ff_1 f); x4 (ff_1 f); x5 (ff_1 f); x6 (ff_1 f)].
(** What one unit of each of the twelve is worth in SI. *)
Definition end_units (u : string) : list R :=
  let N := newtons u in let M := newtons u * metres u in [N; N; N; M; M; M; N; N; N; M; M; M].
(** A row of numbers in the unit [u] says what a stored row says. *)
Definition tells (u : string) (shown : list R) (f : fforce) : Prop :=
  List.length shown = 12%nat /\ in_si (end_units u) shown = end_forces f.

(** The rows of a member in a case, in the order they are in the table. *)
Inductive rows_of (n c : string) : list fforce -> list fforce -> Prop :=
| rows_nil : rows_of n c [] []
| rows_take f t l : ff_frame f = n -> ff_case f = c -> rows_of n c t l -> rows_of n c (f :: t) (f :: l)
| rows_leave f t l : ff_frame f <> n \/ ff_case f <> c -> rows_of n c t l -> rows_of n c (f :: t) l.
(** The periods of a case, in the order they are in the table. *)
Inductive periods_of (c : string) : list mperiod -> list R -> Prop :=
| per_nil : periods_of c [] []
| per_take m t l : mp_case m = c -> periods_of c t l -> periods_of c (m :: t) (mp_period m :: l)
| per_leave m t l : mp_case m <> c -> periods_of c t l -> periods_of c (m :: t) l.

(** The factor last given to a case by the calls, if any. *)
Inductive last_given (lc : string) : list cop -> option R -> Prop :=
| lg_nil : last_given lc [] None
| lg_this f ops : last_given lc (ops ++ [CAdd lc f]) (Some f)
| lg_add lc' f ops v : lc' <> lc -> last_given lc ops v -> last_given lc (ops ++ [CAdd lc' f]) v
| lg_name n ops v : last_given lc ops v -> last_given lc (ops ++ [CName n]) v.
