(** Response spectrum analysis: the settings of the load case classes
    (core/fe_model/load/loadcase.py) and the solver (core/fe_solver/dynamic.py:78-155). *)
From Coq Require Import Reals List String Arith Bool ZArith.
From Verif Require Import Base Csys Sections Element Load FeModel Assembly Solver Dynamic.
Import ListNotations.
Local Open Scope string_scope.
Local Open Scope list_scope.
Local Open Scope R_scope.

(** What a setting holds: None, a truth value, an integer, a string, an array of rows. *)
Inductive setting : Type :=
| VNone | VBool (b : bool) | VInt (n : nat) | VStr (s : string) | VArr (rows : list (list R)) | VDict (d : list (string * setting)).
Definition opt_str (o : option string) : setting := match o with None => VNone | Some s => VStr s end.

(** The four classes of load cases: loadcase.py:7-11, 55-63, 98-104, 120-138.  The order of a
    static case is 1 whatever is asked for (line 10). *)
Inductive any_case : Type :=
| AStatic (base_case : option string)
| AModal (use_load_as_mass : bool) (n_modes : nat) (base_case : option string)
| ASpectrum (modal_case : string) (spectrum : list (list R)) (mode_combo dir_combo : string)
| AHistory (base_case algorithm : option string) (params : list (string * setting)).
(** get_settings: loadcase.py:49-53, 89-96, 112-118, 176-181 *)
Definition get_settings (c : any_case) : dict setting :=
  match c with
  | AStatic b => [("order", VInt 1); ("base_case", opt_str b)]
  | AModal u n b => [("mass_source", VStr "mass"); ("use_load_as_mass", VBool u); ("n_modes", VInt n); ("base_case", opt_str b); ("algorithm", VStr "eigen")]
  | ASpectrum m s mc dc => [("modal_case", VStr m); ("spectrum", VArr s); ("mode_combo", VStr mc); ("dir_combo", VStr dc)]
  | AHistory b a p => [("base_case", opt_str b); ("algorithm", opt_str a); ("params", VDict p)]
  end.

(** np.interp(x, xp, fp) for increasing [xp]: the first value below the table, the last one
    beyond it, and linear between two neighbours.  ValueError for an empty table. *)
Fixpoint interp_from (x x0 y0 : R) (pts : list (R * R)) : R :=
  match pts with
  | [] => y0
  | (x1, y1) :: pts' => if Rltb x x1 then y0 + (y1 - y0) / (x1 - x0) * (x - x0) else interp_from x x1 y1 pts'
  end.
Definition np_interp (pts : list (R * R)) (x : R) : option R :=
  match pts with
  | [] => None
  | (x0, y0) :: pts' => Some (if Rltb x x0 then y0 else interp_from x x0 y0 pts')
  end.
(** spectrum[0,:] and spectrum[1,:]; IndexError with fewer rows *)
Definition table (rows : list (list R)) : option (list (R * R)) :=
  match rows with xs :: ys :: _ => if Nat.eqb (List.length xs) (List.length ys) then Some (combine xs ys) else None | _ => None end.

(** dynamic.py:113-114: both the rows and the columns from [n] on are set to zero *)
Definition kept (n : nat) (mode : mat) : mat := fun q i => if (Nat.ltb q n && Nat.ltb i n)%bool then mode q i else 0.
(** dynamic.py:115 *)
Definition generalized_mass (N : nat) (M mode : mat) (i : nat) : R := mmul N (mT mode) (mmul N M mode) i i.
(** dynamic.py:132-136: the ordinates at the periods of line 111; one for each mode *)
Fixpoint ordinates (pts : list (R * R)) (omega2 : nat -> R) (k : nat) : option (list R) :=
  match k with
  | O => Some []
  | S k' => bindO (ordinates pts omega2 k') (fun l => bindO (np_interp pts (spectrum_period (omega2 k'))) (fun y => Some (l ++ [y])))
  end.
(** dynamic.py:113-152 without line 127, which refers to a name [m] that is not defined: the
    combined response.  [N] equations and as many stored modes; None also stands for numbers
    that are not finite: a mode without generalized mass is divided by zero in line 129 and
    spoils every component.  The damping in the rule is that of the last mode (line 133).
    Line 138-152: another name of the rule leaves [res] undefined. *)
Definition combined (N n : nat) (M mode : mat) (omega2 : nat -> R) (damp : nat -> R) (pts : list (R * R)) (combo : string) : option (nat -> R) :=
  let md := kept n mode in
  bindO (ordinates pts omega2 N) (fun ys =>
  if forallb (fun i => negb (Reqb (generalized_mass N M md i) 0)) (seq 0 N)
  then let S := fun q => modal_response N M md omega2 (fun i => nth i ys 0) q in
       if String.eqb combo "CQC" then Some (fun q => cqc N (damp (N - 1)%nat) (fun i => spectrum_period (omega2 i)) (S q))
       else if String.eqb combo "SRSS" then Some (fun q => srss N (S q))
       else None
  else None).

(** dynamic.py:87-155 [solve], as far as it gets: [exists_] and [load] are os.path.exists and
    np.load on the work path; [N] is assembly.DOF.  Line 90-94 read five settings (KeyError),
    the last of them under both names; line 97 needs it to be a string; line 100 calls a method
    that the class does not have; the first pass of the loop of line 123 stops at the undefined
    name [m] of line 127.  With no mode at all the answer of lines 138-152 is 0. *)
Definition response_solve (N : nat) (st : dict setting) (casename : string) (exists_ : string -> bool) (load : string -> option (list (list R)))
  : option (list R) :=
  bindO (dget "n" st) (fun n =>
  bindO (dget "modal_damp" st) (fun _ =>
  bindO (dget "combo" st) (fun comb =>
  bindO (dget "modal_case" st) (fun _ =>
  bindO (dget "spectrum" st) (fun spectrum =>
  match spectrum with
  | VStr name =>
      if (exists_ (name ++ ".k")%string && exists_ (name ++ ".m")%string)%bool then
        bindO (load (name ++ ".k")%string) (fun _ =>
        bindO (load (name ++ ".m")%string) (fun _ =>
        bindO (load (casename ++ ".d")%string) (fun mode =>
        bindO (load (casename ++ ".o")%string) (fun _ =>
        match n with
        | VInt _ =>
            if Nat.eqb (List.length mode) N then
              match N with
              | O => match comb with VStr "CQC" | VStr "SRSS" => Some [0] | _ => None end
              | S _ => None
              end
            else None
        | _ => None
        end))))
      else None
  | _ => None
  end))))).
