(** What a SAP2000 text file says, and the order of load cases, stated without the reader. *)
From Coq Require Import List String Ascii Bool Arith.
From Verif Require Import Base.
Import ListNotations.
Local Open Scope string_scope.
Local Open Scope list_scope.

(** ** The file *)
Definition quote_char : ascii := "034"%char.
Definition line_char : ascii := "010"%char.
Definition dquote : string := String "034"%char EmptyString.
Definition line_end : string := String "010"%char EmptyString.
(** [c] occurs in [s] *)
Fixpoint occurs (c : ascii) (s : string) : Prop :=
  match s with EmptyString => False | String d r => d = c \/ occurs c r end.
(** [p] stands somewhere in [s] *)
Definition within (p s : string) : Prop := exists a b, s = (a ++ p ++ b)%string.

(** One entry of a row, [key=value] or [key="value"]; [broken]: the line is continued after it. *)
Record field : Type := Field { key : string; value : string; quoted : bool; broken : bool }.
Definition entry (f : field) : string :=
  (key f ++ "=" ++ (if quoted f then dquote ++ value f ++ dquote else value f))%string.
Definition entry_text (f : field) : string := ("   " ++ entry f)%string.
(** the lines of a row, [cur] being what the present line holds already *)
Fixpoint row_lines (cur : string) (fs : list field) : list string :=
  match fs with
  | [] => [(cur ++ line_end)%string]
  | f :: r => if broken f then (cur ++ entry_text f ++ " _" ++ line_end)%string :: row_lines "" r
              else row_lines (cur ++ entry_text f)%string r
  end.
Definition table : Type := (string * list (list field))%type.
Definition title_line (n : string) : string := ("TABLE:  " ++ dquote ++ n ++ dquote ++ line_end)%string.
(** a table: its title, its rows, and the line [gap] *)
Definition table_lines (gap : string) (t : table) : list string :=
  title_line (fst t) :: List.concat (map (row_lines "") (snd t)) ++ [(gap ++ line_end)%string].
Definition open_table_lines (t : table) : list string := title_line (fst t) :: List.concat (map (row_lines "") (snd t)).
Definition end_line : string := ("END TABLE DATA" ++ line_end)%string.
Definition all_lines (h1 h2 gap : string) (ts : list table) : list string :=
  [(h1 ++ line_end)%string; (h2 ++ line_end)%string] ++ List.concat (map (table_lines gap) ts) ++ [end_line].
(** the same with no line between the last row of the last table and the end *)
Definition short_lines (h1 h2 gap : string) (ts : list table) (t : table) : list string :=
  [(h1 ++ line_end)%string; (h2 ++ line_end)%string] ++ List.concat (map (table_lines gap) ts) ++ open_table_lines t ++ [end_line].
Definition text (ls : list string) : string := String.concat "" ls.

Definition good_field (f : field) : Prop :=
  (forall c, In c [" "%char; "="%char; quote_char; line_char] -> ~ occurs c (key f))
  /\ ~ occurs quote_char (value f) /\ ~ occurs line_char (value f)
  /\ (quoted f = false -> ~ occurs " "%char (value f)).
(** the row does not end in an underscore *)
Definition good_end (fs : list field) : Prop :=
  forall a f, fs = a ++ [f] -> quoted f = false -> broken f = false -> forall v, value f <> (v ++ "_")%string.
Definition ordinary (l : string) : Prop := ~ within "TABLE:" l /\ ~ within "END TABLE DATA" l.
Definition good_row (fs : list field) : Prop :=
  fs <> [] /\ Forall good_field fs /\ NoDup (map key fs) /\ good_end fs /\ Forall ordinary (row_lines "" fs).
Definition good_table (t : table) : Prop :=
  ~ occurs quote_char (fst t) /\ ~ occurs line_char (fst t) /\ ~ within "END TABLE DATA" (title_line (fst t)) /\ Forall good_row (snd t).
Definition good_gap (g : string) : Prop := ~ occurs line_char g /\ ordinary (g ++ line_end).
(** what a row and a table say *)
Definition row_says (fs : list field) : list (string * string) := map (fun f => (key f, value f)) fs.
Definition table_says (t : table) : list (list (string * string)) := map row_says (snd t).

(** ** Load cases *)
(** The case [n] stands at the end of a chain of [k] cases, the first of which starts from zero. *)
Inductive stands_at (d : dict string) : string -> nat -> Prop :=
  | StartsZero : forall n, dget n d = Some "Zero" -> stands_at d n 1
  | Continues : forall n f k, dget n d = Some f -> f <> "Zero" -> stands_at d f k -> stands_at d n (S k).
(** [a] comes before [b] in [l] *)
Definition earlier {A : Type} (a b : A) (l : list A) : Prop := exists p q r, l = p ++ a :: q ++ b :: r.
(** each of a list of cases starts from the one before it, the first from zero *)
Fixpoint continues (d : dict string) (from : string) (l : list string) : Prop :=
  match l with [] => True | n :: r => dget n d = Some from /\ continues d n r end.
(** Rows of load cases as triples: name, type, initial condition.  A row can be placed if it is not
    a nonlinear static case, starts from zero, or starts from a case that can be placed. *)
Inductive placeable (l : list (string * string * string)) : string * string * string -> Prop :=
  | PlaceFree : forall n t i, In (n, t, i) l -> t <> "NonStatic" \/ i = "Zero" -> placeable l (n, t, i)
  | PlaceAfter : forall n t i u j, In (n, t, i) l -> placeable l (i, u, j) -> placeable l (n, t, i).
