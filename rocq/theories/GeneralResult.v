(** Model of the readers of results of members and periods in
    /repo/hyperstatic/app/general/result/result.py and of the load combinations of
    /repo/hyperstatic/app/general/post/combination.py.  The tables are those of any project
    file: nothing in the program fills them today ([run], model.py:329-421, raises at its
    first line, and the modal branch reads [omega_] and [resolve_modal_displacement], which
    no class has), so the rows are inputs here.  A query answers its rows in the order they
    were added. *)
From Coq Require Import Reals List String Arith Bool ZArith.
From Verif Require Import Base General.
Import ListNotations.
Local Open Scope R_scope.

(** orm.py:454-470: a row of [result_frame_forces]: p01, p02, p03, m01, m02, m03 and p11, p12,
    p13, m11, m12, m13.  Columns that are NULL are left out of the model. *)
Record six : Type := Six { x1 : R; x2 : R; x3 : R; x4 : R; x5 : R; x6 : R }.
Record fforce : Type := FForce { ff_frame : string; ff_case : string; ff_segment : nat; ff_0 : six; ff_1 : six }.
(** orm.py:483-489: a row of [result_modal_period]; [omega] and [frequency] are read by
    nothing and left out. *)
Record mperiod : Type := MPeriod { mp_case : string; mp_order : Z; mp_period : R }.

(** What the readers answer. *)
Inductive read : Type :=
| ReadNone
| ReadRaise                      (* an exception leaves the method *)
| ReadRows (l : list (list R))
| ReadList (l : list R).

(** result/result.py:61-65: one row of the answer *)
Definition force_row (F L : R) (f : fforce) : list R :=
  [x1 (ff_0 f)/F; x2 (ff_0 f)/F; x3 (ff_0 f)/F; x4 (ff_0 f)/F/L; x5 (ff_0 f)/F/L; x6 (ff_0 f)/F/L;
   x1 (ff_1 f)/F; x2 (ff_1 f)/F; x3 (ff_1 f)/F; x4 (ff_1 f)/F/L; x5 (ff_1 f)/F/L; x6 (ff_1 f)/F/L].

(** result/result.py:44-66; the unit is looked up only if there are rows, and an unknown unit
    raises KeyError. *)
Definition get_result_frame_force (unit n c : string) (t : list fforce) : read :=
  let reses := filter (fun f => (String.eqb (ff_frame f) n && String.eqb (ff_case f) c)%bool) t in
  if Nat.eqb (List.length reses) 0 then ReadNone
  else match scale unit with
       | Some (F, L) => ReadRows (map (force_row F L) reses)
       | None => ReadRaise
       end.

(** The argument [order]: the text 'all', another text, a whole number. *)
Inductive order_arg : Type := OText (s : string) | OInt (k : Z).

(** result/result.py:68-82.  Asked for one order, line 81 already makes a list of the rows and
    line 82 calls [.all()] on that list, which raises AttributeError whatever it holds.  Any
    other text falls off the end. *)
Definition get_result_period (c : string) (o : order_arg) (t : list mperiod) : read :=
  let res := filter (fun r => String.eqb (mp_case r) c) t in
  match o with
  | OText s => if String.eqb s "all" then ReadList (map mp_period res) else ReadNone
  | OInt _ => ReadRaise
  end.

(** post/combination.py:14-23: the factors handed over are not kept. *)
Record combination : Type := Combination { cb_name : string; cb_method : string; cb_cases : dict R }.
Definition new_combination (name : string) (lc_factor : dict R) (method : string) : combination :=
  Combination name method [].
(** post/combination.py:29-31, the setter of [name] *)
Definition rename_combination (name : string) (c : combination) : combination := Combination name (cb_method c) (cb_cases c).
(** post/combination.py:37-38 *)
Definition add_load (lc : string) (factor : R) (c : combination) : combination :=
  Combination (cb_name c) (cb_method c) (dset lc factor (cb_cases c)).
(** The calls that change a combination *)
Inductive cop : Type := CName (n : string) | CAdd (lc : string) (factor : R).
Definition cstep (c : combination) (o : cop) : combination :=
  match o with CName n => rename_combination n c | CAdd lc f => add_load lc f c end.
