(** Model of /repo/hyperstatic/core/fe_model/load/pattern.py,
    load/__init__.py and load/loadcase.py. *)
From Coq Require Import Reals Lra List String Arith Bool.
From Verif Require Import Base.
Import ListNotations.
Local Open Scope R_scope.

(** numpy element-wise sum and scaling of vectors of equal length *)
Fixpoint ladd (a b : list R) : list R :=
  match a, b with
  | x :: a', y :: b' => (x + y) :: ladd a' b'
  | _, _ => []
  end.
Definition lscale (k : R) (a : list R) : list R := map (fun x => x * k) a.
Definition zeros (n : nat) : list R := repeat 0 n.

(** ** Load patterns *)

(** pattern.py:5-10 *)
Record pattern : Type := Pattern {
  p_name : string;
  p_nodal : dict (list R);
  p_disp : dict (list R);
  p_dist : dict (list R);
  p_conc : dict (list R) }.

Definition new_pattern (name : string) : pattern := Pattern name [] [] [] [].

(** pattern.py:16-17 *)
Definition pat_set_nodal_load (name : string) (f1 f2 f3 m1 m2 m3 : R) (p : pattern) : pattern :=
  Pattern (p_name p) (dset name [f1;f2;f3;m1;m2;m3] (p_nodal p)) (p_disp p) (p_dist p) (p_conc p).
(** pattern.py:19-20 *)
Definition pat_set_nodal_disp (name : string) (u1 u2 u3 r1 r2 r3 : R) (p : pattern) : pattern :=
  Pattern (p_name p) (p_nodal p) (dset name [u1;u2;u3;r1;r2;r3] (p_disp p)) (p_dist p) (p_conc p).
(** pattern.py:22-23 *)
Definition pat_set_beam_dist (name : string) (pi pj qi2 qj2 qi3 qj3 ti tj : R) (p : pattern) : pattern :=
  Pattern (p_name p) (p_nodal p) (p_disp p)
    (dset name [pi;qi2;qi3;ti;0;0;pj;qj2;qj3;tj;0;0] (p_dist p)) (p_conc p).
(** pattern.py:25-26 *)
Definition pat_set_beam_conc (name : string) (F1 F2 F3 M1 M2 M3 r : R) (p : pattern) : pattern :=
  Pattern (p_name p) (p_nodal p) (p_disp p) (p_dist p) (dset name [F1;F2;F3;M1;M2;M3;r] (p_conc p)).

(** pattern.py:28-32, 37-41 *)
Definition pat_nodal_f (p : pattern) (name : string) : option (list R) := dget name (p_nodal p).
Definition pat_nodal_d (p : pattern) (name : string) : option (list R) := dget name (p_disp p).
(** pattern.py:46-49 *)
Definition pat_get_distributed (p : pattern) (name : string) : option (list R) := dget name (p_dist p).
(** pattern.py:51-54: reads the distributed table *)
Definition pat_get_concentrated (p : pattern) (name : string) : option (list R) := dget name (p_dist p).

(** pattern.py:61-102: contribution of the distributed load [v] to the twelve end
    actions. *)
Definition dist_f (v : list R) (l : R) : list R :=
  let v0 := vnth v 0 in let v1 := vnth v 1 in let v2 := vnth v 2 in let v3 := vnth v 3 in
  let v6 := vnth v 6 in let v7 := vnth v 7 in let v8 := vnth v 8 in let v9 := vnth v 9 in
  let r0 := v6*l/2 + 1/2*(v0-v6)*l*(2/3) in
  let r6 := v6*l/2 + 1/2*(v0-v6)*l*(1/3) in
  let r1 := v7*l/2 + 7/20*(v1-v7)*l in
  let r5 := v7*l*l/12 + (v1-v7)*l*l/20 in
  let r7 := v7*l/2 + 3/20*(v1-v7)*l in
  let r11 := - v7*l*l/12 - (v1-v7)*l*l/30 in
  let r2 := v8*l/2 + 7/20*(v2-v8)*l in
  let r4 := - v8*l*l/12 - (v2-v8)*l*l/20 in
  let r8 := v8*l/2 + 3/20*(v2-v8)*l in
  let r10 := v8*l*l/12 + (v2-v8)*l*l/30 in
  let r3 := v9*l/2 + (v3-v9)*l/3 in
  let r9 := v9*l/2 + (v3-v9)*l/6 in
  [r0;r1;r2;r3;r4;r5;r6;r7;r8;r9;r10;r11].

(** pattern.py:124-139: contribution of the concentrated load [v]. *)
Definition conc_f (v : list R) (l : R) : list R :=
  let v0 := vnth v 0 in let v1 := vnth v 1 in let v2 := vnth v 2 in
  let v3 := vnth v 3 in let v4 := vnth v 4 in let v5 := vnth v 5 in
  let ra := vnth v 6 in
  let a := l*ra in
  let b := l*(1-ra) in
  let r0 := v0*b/l in
  let r1 := v1*b*b*(l+2*a)/(l^3) + v5*(-6*a*b/l^3) in
  let r2 := v2*b*b*(l+2*a)/(l^3) - v4*(-6*a*b/l^3) in
  let r3 := v3*b/l in
  let r4 := - v2*a*b*b/l/l + v4*(-b*(3*a-l)/l/l) in
  let r5 := v1*a*b*b/l/l + v5*(-b*(3*a-l)/l/l) in
  let r6 := v0*a/l in
  let r7 := v1*a*a*(l+2*b)/(l^3) - v5*(-6*a*b/l^3) in
  let r8 := v2*a*a*(l+2*b)/(l^3) + v4*(-6*a*b/l^3) in
  let r9 := v3*a/l in
  let r10 := v2*a*a*b/l/l + v4*(-a*(3*b-l)/l/l) in
  let r11 := - v1*a*a*b/l/l + v5*(-a*(3*b-l)/l/l) in
  [r0;r1;r2;r3;r4;r5;r6;r7;r8;r9;r10;r11].

(** pattern.py:56-140 [get_beam_f] *)
Definition pat_beam_f (p : pattern) (name : string) (l : R) : list R :=
  let r := zeros 12 in
  let r := match dget name (p_dist p) with Some v => ladd r (dist_f v l) | None => r end in
  match dget name (p_conc p) with Some v => ladd r (conc_f v l) | None => r end.

(** ** Load cases *)

(** loadcase.py: the two classes reachable through the API; they differ in
    [use_load_as_mass] existing only for modal cases (and being False there). *)
Inductive ckind : Type := KStatic | KModal.

(** load/__init__.py:7-13.  Patterns are referenced, not copied: [c_pats] maps the
    pattern name to a heap address.  A curve (2 x T array) is the pair of its rows. *)
Record lcase : Type := LCase {
  c_kind : ckind;
  c_name : string;
  c_pats : dict nat;
  c_factor : dict R;
  c_curve : dict (list R * list R);
  c_rest : dict (list bool) }.

Definition new_case (k : ckind) (name : string) : lcase := LCase k name [] [] [] [].

(** load/__init__.py:23 *)
Definition default_curve : list R * list R := ([0;1], [1;1]).

(** load/__init__.py:19-25 ([pname] is [pattern.name]) *)
Definition case_add_pattern (pname : string) (addr : nat) (factor : R)
    (curve : option (list R * list R)) (c : lcase) : lcase :=
  LCase (c_kind c) (c_name c) (dset pname addr (c_pats c)) (dset pname factor (c_factor c))
        (dset pname (match curve with None => default_curve | Some cv => cv end) (c_curve c))
        (c_rest c).

(** load/__init__.py:32-33 *)
Definition case_set_factor (pname : string) (factor : R) (c : lcase) : lcase :=
  LCase (c_kind c) (c_name c) (c_pats c) (dset pname factor (c_factor c)) (c_curve c) (c_rest c).

(** load/__init__.py:35-36 *)
Definition case_set_restraint (node : string) (flags : list bool) (c : lcase) : lcase :=
  LCase (c_kind c) (c_name c) (c_pats c) (c_factor c) (c_curve c) (dset node flags (c_rest c)).

Definition deref (heap : list pattern) (c : lcase) (pname : string) : option pattern :=
  bindO (dget pname (c_pats c)) (fun a => nth_error heap a).

(** load/__init__.py:44-50 [get_max_min_step]: (ma, mi); the initial value 1e20 of mi
    is represented by [None]. *)
Definition case_max_min_step (c : lcase) : nat * option nat :=
  fold_left (fun acc v =>
      (Nat.max (fst acc) (List.length (snd v)),
       Some (match snd acc with None => List.length (snd v) | Some m => Nat.min m (List.length (snd v)) end)))
    (dvals (c_curve c)) (O, None).

(** load/__init__.py:63-71 [get_nodal_f] *)
Definition case_nodal_f (heap : list pattern) (c : lcase) (name : string) (t : nat) : option (list R) :=
  fold_left (fun acc kv =>
      bindO acc (fun fn =>
      bindO (deref heap c (fst kv)) (fun pat =>
      match pat_nodal_f pat name with
      | None => Some fn
      | Some f =>
          bindO (dget (fst kv) (c_curve c)) (fun curve =>
          bindO (nth_error (snd curve) t) (fun w =>
          Some (ladd fn (lscale w (lscale (snd kv) f)))))
      end)))
    (c_factor c) (Some (zeros 6)).

(** numpy [fn += crv.reshape(n,1).dot(f.reshape(1,6))*factor] with broadcasting of a
    single row; otherwise the row counts must agree. *)
Definition add_outer (fn : list (list R)) (crv f : list R) (factor : R) : option (list (list R)) :=
  if Nat.eqb (List.length crv) (List.length fn)
  then Some (map (fun rw => ladd (fst rw) (lscale factor (lscale (snd rw) f))) (combine fn crv))
  else match crv with
       | [w] => Some (map (fun row => ladd row (lscale factor (lscale w f))) fn)
       | _ => None
       end.

(** load/__init__.py:73-89 [get_nodal_f_time_history] *)
Definition case_nodal_f_history (heap : list pattern) (c : lcase) (name : string) : option (list (list R)) :=
  let max_length := fold_left (fun m cv => Nat.max (List.length (snd cv)) m) (dvals (c_curve c)) O in
  fold_left (fun acc pname =>
      bindO acc (fun fn =>
      bindO (deref heap c pname) (fun pat =>
      bindO (dget pname (c_factor c)) (fun factor =>
      bindO (dget pname (c_curve c)) (fun curve =>
      match pat_nodal_f pat name with
      | None => Some fn
      | Some f => add_outer fn (snd curve) f factor
      end)))))
    (dkeys (c_factor c)) (Some (repeat (zeros 6) max_length)).

(** load/__init__.py:91-100 [get_nodal_f_dict] and 121-130 [get_nodal_d_dict]
    ([table] selects the loads or the displacements of a pattern). *)
Definition case_table_dict (table : pattern -> dict (list R)) (heap : list pattern) (c : lcase)
  : option (dict (list R)) :=
  fold_left (fun acc kv =>
      bindO acc (fun res =>
      bindO (nth_error heap (snd kv)) (fun pat =>
      fold_left (fun acc2 nl =>
          bindO acc2 (fun res2 =>
          match dget (fst nl) res2 with
          | Some old => bindO (dget (fst kv) (c_factor c)) (fun factor =>
                        Some (dset (fst nl) (ladd old (lscale factor (snd nl))) res2))
          | None => Some (dset (fst nl) (zeros 6) res2)
          end))
        (table pat) (Some res))))
    (c_pats c) (Some []).
Definition case_nodal_f_dict := case_table_dict p_nodal.
Definition case_nodal_d_dict := case_table_dict p_disp.

(** load/__init__.py:133-141 [get_beam_f] *)
Definition case_beam_f (heap : list pattern) (c : lcase) (name : string) (l : R) : option (list R) :=
  fold_left (fun acc kv =>
      bindO acc (fun fe =>
      bindO (deref heap c (fst kv)) (fun pat =>
      Some (ladd fe (lscale (snd kv) (pat_beam_f pat name l))))))
    (c_factor c) (Some (zeros 12)).
