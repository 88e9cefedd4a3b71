(** Model of /repo/hyperstatic/app/general: the drawing model kept in a database
    (model.py [Model.scale], environment/project.py, object/joint.py, object/frame.py,
    property/material.py, property/frame_section.py, load/loadcase.py, result/result.py,
    db.py [create], [save], object/area.py, property/area_section.py).
    The SQLAlchemy session is modelled by the tables the program sees and the tables of
    the last commit; [session.rollback()] returns to the latter, [session.add] makes a row
    visible to later queries at once (autoflush).  Rows are listed in the order they were
    added and [first()] takes the first match.  Only the columns that some modelled
    function reads are kept.  Loads on areas, curves, masses, springs, [delete_material]
    (whose effect comes at the next flush), [set_joint_restraint_batch] and the modal results are not
    modelled.  Arguments are assumed to be floats, tuples of the right
    length unless a length is tested by the code. *)
From Coq Require Import Reals List String Arith Bool ZArith.
From Verif Require Import Base.
Import ListNotations.
Local Open Scope R_scope.

(** orm.py:186-191: a row of [joints]. *)
Record joint : Type := Joint { j_name : string; j_x : R; j_y : R; j_z : R }.
(** orm.py:278-289: a row of [frames]. *)
Record frame : Type := Frame { fr_name : string; fr_section : string; fr_p0 : string; fr_p1 : string; fr_order : string }.
(** orm.py:213-222: a row of [jointloads]; the six mapped attributes are [u1],...,[r3]
    (their columns are called p1,...,m3); [None] is NULL. *)
Record jload : Type := JLoad { jl_joint : string; jl_case : string; jl_cols : list (option R) }.
(** orm.py:325-340: a row of [frame_load_distributeds], in the order p01,...,m13, and
    342-352: a row of [frame_load_concentrated], in the order p1,...,m3, loc *)
Record fload : Type := FLoad { fl_frame : string; fl_case : string; fl_cols : list R }.
(** orm.py:28-46: a row of [materials] with its row of [isotropic_elastics], if any *)
Record gmat : Type := GMat { gm_rho : R; gm_elastic : option (R * R) }.
(** orm.py:51-73: a row of [frame_sections]: sizes and A, J, I2, I3 *)
Record gsec : Type := GSec { gs_mat : string; gs_size : list R; gs_A : R; gs_J : R; gs_I2 : R; gs_I3 : R }.
(** orm.py:82-88: a row of [area_sections]: material, type, thickness *)
Record gasec : Type := GASec { gas_mat : string; gas_type : string; gas_t : R }.
(** orm.py:366-380: a row of [areas]: section, names of the corners, order (which the table
    has no column for) *)
Record garea : Type := GArea { ga_name : string; ga_section : string; ga_pts : list string; ga_order : string }.
(** orm.py:430-451: results of a joint in a load case *)
Record jresult : Type := JResult { jr_joint : string; jr_case : string; jr_vals : list R }.

Record db : Type := DB {
  d_unit : string; d_tol : R;
  d_joints : list joint; d_rest : dict (list bool); d_jloads : list jload;
  d_frames : list frame; d_dist : list fload; d_conc : list fload;
  d_mats : dict gmat; d_secs : dict gsec; d_cases : dict string;
  d_disps : list jresult; d_reacs : list jresult;
  d_asecs : dict gasec; d_areas : list garea }.

(** The session: tables seen, tables committed, number of uuids drawn so far for joints and
    frames (those of materials, sections and load cases are not read by anything). *)
Record session : Type := Session { s_db : db; s_saved : db; s_next : nat }.

Definition upd (f : db -> db) (s : session) : session := Session (f (s_db s)) (s_saved s) (s_next s).
Definition commit (s : session) : session := Session (s_db s) (s_db s) (s_next s).
Definition rollback (s : session) : session := Session (s_saved s) (s_saved s) (s_next s).
Definition draw (s : session) : session := Session (s_db s) (s_saved s) (S (s_next s)).

Definition with_unit u d := DB u (d_tol d) (d_joints d) (d_rest d) (d_jloads d) (d_frames d) (d_dist d) (d_conc d) (d_mats d) (d_secs d) (d_cases d) (d_disps d) (d_reacs d) (d_asecs d) (d_areas d).
Definition with_tol t d := DB (d_unit d) t (d_joints d) (d_rest d) (d_jloads d) (d_frames d) (d_dist d) (d_conc d) (d_mats d) (d_secs d) (d_cases d) (d_disps d) (d_reacs d) (d_asecs d) (d_areas d).
Definition with_joints j d := DB (d_unit d) (d_tol d) j (d_rest d) (d_jloads d) (d_frames d) (d_dist d) (d_conc d) (d_mats d) (d_secs d) (d_cases d) (d_disps d) (d_reacs d) (d_asecs d) (d_areas d).
Definition with_rest r d := DB (d_unit d) (d_tol d) (d_joints d) r (d_jloads d) (d_frames d) (d_dist d) (d_conc d) (d_mats d) (d_secs d) (d_cases d) (d_disps d) (d_reacs d) (d_asecs d) (d_areas d).
Definition with_jloads l d := DB (d_unit d) (d_tol d) (d_joints d) (d_rest d) l (d_frames d) (d_dist d) (d_conc d) (d_mats d) (d_secs d) (d_cases d) (d_disps d) (d_reacs d) (d_asecs d) (d_areas d).
Definition with_frames f d := DB (d_unit d) (d_tol d) (d_joints d) (d_rest d) (d_jloads d) f (d_dist d) (d_conc d) (d_mats d) (d_secs d) (d_cases d) (d_disps d) (d_reacs d) (d_asecs d) (d_areas d).
Definition with_dist l d := DB (d_unit d) (d_tol d) (d_joints d) (d_rest d) (d_jloads d) (d_frames d) l (d_conc d) (d_mats d) (d_secs d) (d_cases d) (d_disps d) (d_reacs d) (d_asecs d) (d_areas d).
Definition with_conc l d := DB (d_unit d) (d_tol d) (d_joints d) (d_rest d) (d_jloads d) (d_frames d) (d_dist d) l (d_mats d) (d_secs d) (d_cases d) (d_disps d) (d_reacs d) (d_asecs d) (d_areas d).
Definition with_mats m d := DB (d_unit d) (d_tol d) (d_joints d) (d_rest d) (d_jloads d) (d_frames d) (d_dist d) (d_conc d) m (d_secs d) (d_cases d) (d_disps d) (d_reacs d) (d_asecs d) (d_areas d).
Definition with_secs x d := DB (d_unit d) (d_tol d) (d_joints d) (d_rest d) (d_jloads d) (d_frames d) (d_dist d) (d_conc d) (d_mats d) x (d_cases d) (d_disps d) (d_reacs d) (d_asecs d) (d_areas d).
Definition with_cases c d := DB (d_unit d) (d_tol d) (d_joints d) (d_rest d) (d_jloads d) (d_frames d) (d_dist d) (d_conc d) (d_mats d) (d_secs d) c (d_disps d) (d_reacs d) (d_asecs d) (d_areas d).

Definition with_results x y d := DB (d_unit d) (d_tol d) (d_joints d) (d_rest d) (d_jloads d) (d_frames d) (d_dist d) (d_conc d) (d_mats d) (d_secs d) (d_cases d) x y (d_asecs d) (d_areas d).
Definition with_asecs x d := DB (d_unit d) (d_tol d) (d_joints d) (d_rest d) (d_jloads d) (d_frames d) (d_dist d) (d_conc d) (d_mats d) (d_secs d) (d_cases d) (d_disps d) (d_reacs d) x (d_areas d).
Definition with_areas x d := DB (d_unit d) (d_tol d) (d_joints d) (d_rest d) (d_jloads d) (d_frames d) (d_dist d) (d_conc d) (d_mats d) (d_secs d) (d_cases d) (d_disps d) (d_reacs d) (d_asecs d) x.

(** ** Units *)

(** model.py:195-217 [scale]; an unknown unit leaves the dictionary empty and the first
    use raises KeyError. *)
Definition scale (u : string) : option (R * R) :=   (* (F, L) *)
  if String.eqb u "N_m_C" then Some (1, 1)
  else if String.eqb u "N_mm_C" then Some (1, 1/1000)
  else if String.eqb u "kN_m_C" then Some (1000, 1)
  else if String.eqb u "kN_mm_C" then Some (1000, 1/1000)
  else None.
Definition units : list string := ["N_m_C"; "N_mm_C"; "kN_m_C"; "kN_mm_C"]%string.

(** ** Answers *)
Inductive answer : Type :=
| GTrue | GFalse | GNone
| GRaise                        (* an exception leaves the method *)
| GName (s : string) | GNames (l : list string)
| GVals (l : list R).

(** [except: self.session.rollback(); return False] (or [return None]) *)
Definition fails (s : session) : session * answer := (rollback s, GFalse).
Definition fails_none (s : session) : session * answer := (rollback s, GNone).

(** environment/project.py:107-123 *)
Definition set_unit (u : string) (s : session) : session * answer :=
  if existsb (String.eqb u) units then (upd (with_unit u) s, GTrue) else fails s.
(** environment/project.py:143-162 and 58-69 *)
Definition set_tolerance (t : R) (s : session) : session * answer :=
  match scale (d_unit (s_db s)) with
  | Some (_, L) => (upd (with_tol (t * L)) s, GTrue)
  | None => fails s
  end.
Definition get_tolerance (s : session) : session * answer :=
  match scale (d_unit (s_db s)) with
  | Some (_, L) => (s, GVals [d_tol (s_db s) / L])
  | None => (s, GFalse)
  end.

(** ** Joints *)

Definition find_joint (n : string) (d : db) : option joint :=
  find (fun j => String.eqb (j_name j) n) (d_joints d).

(** object/joint.py:14-37; [uuid i] is the i-th name drawn by [uuid.uuid1]. *)
Definition add_joint (uuid : nat -> string) (x y z : R) (s : session) : session * string :=
  let n := uuid (s_next s) in
  (draw (upd (fun d => with_joints (d_joints d ++ [Joint n x y z]) d) s), n).

(** object/joint.py:141-165 *)
Definition set_joint_coordinate (n : string) (x y z : R) (s : session) : session * answer :=
  match find_joint n (s_db s), scale (d_unit (s_db s)) with
  | Some _, Some (_, L) =>
      (upd (fun d => with_joints (map (fun j => if String.eqb (j_name j) n then Joint n (x*L) (y*L) (z*L) else j) (d_joints d)) d) s, GTrue)
  | _, _ => fails s
  end.
(** object/joint.py:230-251 *)
Definition get_joint_coordinate (n : string) (s : session) : session * answer :=
  match find_joint n (s_db s), scale (d_unit (s_db s)) with
  | Some j, Some (_, L) => (s, GVals [j_x j / L; j_y j / L; j_z j / L])
  | _, _ => fails_none s
  end.
(** object/joint.py:188-201 *)
Definition get_joint_names (s : session) : session * answer := (s, GNames (map j_name (d_joints (s_db s)))).

(** object/joint.py:217-222: the filter on one coordinate [v] of a joint, [x] the number
    asked for *)
Definition coor_filter (tol L : R) (x : option R) (v : R) : bool :=
  match x with
  | None => true
  | Some x => Rltb (v - x * L) tol && Rltb (x - v * L) tol
  end.
(** object/joint.py:203-228 *)
Definition get_joint_name_by_coor (x y z : option R) (s : session) : session * answer :=
  match scale (d_unit (s_db s)) with
  | Some (_, L) =>
      let tol := d_tol (s_db s) in
      (s, GNames (map j_name (filter (fun j => (coor_filter tol L x (j_x j) && coor_filter tol L y (j_y j) && coor_filter tol L z (j_z j))%bool) (d_joints (s_db s)))))
  | None => fails_none s
  end.

(** object/joint.py:67-106 *)
Definition set_joint_restraint (n : string) (r : list bool) (s : session) : session * answer :=
  if negb (Nat.eqb (List.length r) 6) then fails s
  else match find_joint n (s_db s) with
  | None => fails s
  | Some _ =>
      match dget n (d_rest (s_db s)) with
      | None => (upd (fun d => with_rest (dset n r (d_rest d)) d) s, GTrue)
      | Some _ =>
          if existsb (fun b => b) r then (upd (fun d => with_rest (dset n r (d_rest d)) d) s, GTrue)
          else (upd (fun d => with_rest (filter (fun kv => negb (String.eqb (fst kv) n)) (d_rest d)) d) s, GTrue)
      end
  end.

Definition is_load (n c : string) (l : jload) : bool := (String.eqb (jl_joint l) n && String.eqb (jl_case l) c)%bool.
Definition null6 : list (option R) := [None; None; None; None; None; None].
(** object/joint.py:108-139.  The attributes p1,...,m3 assigned in lines 128-133 are not
    mapped to columns (orm.py:217-222 maps u1,...,r3): nothing but the two names is
    stored. *)
Definition set_joint_load (n c : string) (load : list R) (s : session) : session * answer :=
  if negb (Nat.eqb (List.length load) 6) then fails s
  else match find_joint n (s_db s), scale (d_unit (s_db s)) with
  | Some _, Some _ =>
      (upd (fun d => if existsb (is_load n c) (d_jloads d) then d
                     else with_jloads (d_jloads d ++ [JLoad n c null6]) d) s, GTrue)
  | _, _ => fails s
  end.
(** model.py:292 and 299-306 [apply_load]: the six numbers handed to the element model for
    every stored load of a case ([set_node_force(...,append=True)]). *)
Definition applied_loads (c : string) (d : db) : list (string * list R) :=
  map (fun l => (jl_joint l, map (fun v => match v with Some v => v | None => 0 end) (jl_cols l)))
      (filter (fun l => String.eqb (jl_case l) c) (d_jloads d)).

(** object/joint.py:263 and object/frame.py:94: [order_by(x,y,z)]; rows equal in all three
    keep their order. *)
Definition joint_le (a b : joint) : bool :=
  if Rltb (j_x a) (j_x b) then true else if Rltb (j_x b) (j_x a) then false
  else if Rltb (j_y a) (j_y b) then true else if Rltb (j_y b) (j_y a) then false
  else negb (Rltb (j_z b) (j_z a)).
Fixpoint insert_joint (a : joint) (l : list joint) : list joint :=
  match l with
  | [] => [a]
  | b :: r => if joint_le a b then a :: l else b :: insert_joint a r
  end.
Definition sort_joints (l : list joint) : list joint := fold_right insert_joint [] l.

Definition dist2 (a b : joint) : R := (j_x b - j_x a)^2 + (j_y b - j_y a)^2 + (j_z b - j_z a)^2.
(** object/joint.py:264-278, object/frame.py:95-100: the neighbours in the sorted list that
    are closer than [tol]: what each name becomes, and the joints to remove. *)
Fixpoint merge_pairs (tol : R) (l : list joint) (m : dict string) : dict string * list joint :=
  match l with
  | a :: ((b :: _) as r) =>
      if Rltb (dist2 a b) (tol^2)
      then let (m', rm) := merge_pairs tol r (dset (j_name b) (match dget (j_name a) m with Some x => x | None => j_name a end) m) in
           (m', b :: rm)
      else merge_pairs tol r m
  | _ => (m, [])
  end.
Definition merge_map (tol : R) (l : list joint) : dict string * list joint :=
  merge_pairs tol (sort_joints l) (map (fun j => (j_name j, j_name j)) (sort_joints l)).

(** [session.delete(joint)] followed by a flush: the rows of restraints and loads that
    belong to the joint would have to lose their primary key, which SQLAlchemy refuses. *)
Definition deletable (d : db) (n : string) : bool :=
  negb (dmem n (d_rest d) || existsb (fun l => String.eqb (jl_joint l) n) (d_jloads d))%bool.
Definition remove_joints (rm : list joint) (d : db) : option db :=
  if forallb (fun j => deletable d (j_name j)) rm
  then Some (with_joints (filter (fun j => negb (existsb (fun k => String.eqb (j_name k) (j_name j)) rm)) (d_joints d)) d)
  else None.

(** object/joint.py:253-315 [merge_joints].  Lines 283-296 change a frame only if one of
    its end names (strings) is a member of the list of joints to remove (objects), which is
    never the case.  Without joints [pts[1:]] is empty and nothing happens.  Lines 298-303:
    there are never areas (theorem C125_none). *)
Definition merge_joints (tol : R) (s : session) : session * answer :=
  match scale (d_unit (s_db s)) with
  | None => fails s
  | Some (_, L) =>
      match remove_joints (snd (merge_map (tol * L) (d_joints (s_db s)))) (s_db s) with
      | Some d => (upd (fun _ => d) s, GTrue)
      | None => fails s
      end
  end.

(** ** Frames *)

Definition find_frame (n : string) (d : db) : option frame :=
  find (fun f => String.eqb (fr_name f) n) (d_frames d).

(** object/frame.py:34-37 and 43-46: the joint at [(x,y,z)] up to the tolerance *)
Definition at_point (tol x y z : R) (j : joint) : bool :=
  (Rltb (j_x j - x) tol && Rltb (x - j_x j) tol && Rltb (j_y j - y) tol && Rltb (y - j_y j) tol
   && Rltb (j_z j - z) tol && Rltb (z - j_z j) tol)%bool.
Definition joint_at (uuid : nat -> string) (x y z : R) (s : session) : session * string :=
  match find (at_point (d_tol (s_db s)) x y z) (d_joints (s_db s)) with
  | Some j => (s, j_name j)
  | None => add_joint uuid x y z s
  end.

(** object/frame.py:52-63: the two names in ascending order and the marker of the
    direction *)
Definition order_ends (a b : string) : option (string * string * string) :=
  if String.ltb a b then Some (a, b, "01"%string)
  else if String.ltb b a then Some (b, a, "10"%string) else None.

Definition point : Type := (R * R * R)%type.
(** object/frame.py:15-72 [add_frame]; [name] is None or a (nonempty) string.  The first end
    is multiplied by the scale (lines 35-39), the second one is not (lines 44-48).  There is
    no [try]: exceptions leave the method and nothing is rolled back. *)
Definition add_frame (uuid : nat -> string) (p0 p1 : point) (section : string) (name : option string) (s : session) : session * answer :=
  if (match name with Some n => match find_frame n (s_db s) with Some _ => true | None => false end | None => false end)
  then (s, GRaise)
  else match dget section (d_secs (s_db s)), scale (d_unit (s_db s)) with
  | Some _, Some (_, L) =>
      match p0, p1 with ((x0, y0), z0), ((x1, y1), z1) =>
        let (s1, n0) := joint_at uuid (x0 * L) (y0 * L) (z0 * L) s in
        let (s2, n1) := joint_at uuid x1 y1 z1 s1 in
        match order_ends n0 n1 with
        | None => (s2, GRaise)
        | Some (a, b, o) =>
            let n := match name with Some n => n | None => uuid (s_next s2) end in
            (draw (upd (fun d => with_frames (d_frames d ++ [Frame n section a b o]) d) s2), GName n)
        end
      end
  | _, _ => (s, GRaise)
  end.

(** object/frame.py:89-92: both ends of every frame of the batch, scaled *)
Fixpoint batch_joints (uuid : nat -> string) (L : R) (pts : list (point * point)) (s : session) : session * list (string * string) :=
  match pts with
  | [] => (s, [])
  | (((x0, y0), z0), ((x1, y1), z1)) :: r =>
      let (s1, n0) := add_joint uuid (x0 * L) (y0 * L) (z0 * L) s in
      let (s2, n1) := add_joint uuid (x1 * L) (y1 * L) (z1 * L) s1 in
      let (s3, l) := batch_joints uuid L r s2 in (s3, (n0, n1) :: l)
  end.
(** object/frame.py:101-117 *)
Fixpoint batch_frames (uuid : nat -> string) (section : string) (m : dict string) (ends : list (string * string)) (s : session) : session * list string :=
  match ends with
  | [] => (s, [])
  | (a, b) :: r =>
      match bindO (dget a m) (fun a' => bindO (dget b m) (fun b' => order_ends a' b')) with
      | Some (a', b', o) =>
          let n := uuid (s_next s) in
          let (s', l) := batch_frames uuid section m r (draw (upd (fun d => with_frames (d_frames d ++ [Frame n section a' b' o]) d) s)) in
          (s', n :: l)
      | None => batch_frames uuid section m r s
      end
  end.
(** object/frame.py:74-125 [add_frame_batch]; the tuple [(True,names)] is shown as the names.
    An empty batch raises IndexError in line 83. *)
Definition add_frame_batch (uuid : nat -> string) (pts : list (point * point)) (section : string) (s : session) : session * answer :=
  match pts, dget section (d_secs (s_db s)), scale (d_unit (s_db s)) with
  | _ :: _, Some _, Some (_, L) =>
      let (s1, ends) := batch_joints uuid L pts s in
      let (m, rm) := merge_map (d_tol (s_db s1)) (d_joints (s_db s1)) in
      let (s2, names) := batch_frames uuid section m ends s1 in
      match remove_joints rm (s_db s2) with
      | Some d => (commit (upd (fun _ => d) s2), GNames names)
      | None => fails s2
      end
  | _, _, _ => fails s
  end.

(** object/frame.py:300-315: the names through the relationship to the joints; a joint that
    is gone is None and has no [name]. *)
Definition get_frame_end_names (n : string) (s : session) : session * answer :=
  match bindO (find_frame n (s_db s)) (fun f =>
        bindO (find_joint (fr_p0 f) (s_db s)) (fun a => bindO (find_joint (fr_p1 f) (s_db s)) (fun b => Some (a, b)))) with
  | Some (a, b) => (s, GNames [j_name a; j_name b])
  | None => fails_none s
  end.
(** object/frame.py:317-335 *)
Definition get_frame_end_coors (n : string) (s : session) : session * answer :=
  match scale (d_unit (s_db s)), bindO (find_frame n (s_db s)) (fun f =>
        bindO (find_joint (fr_p0 f) (s_db s)) (fun a => bindO (find_joint (fr_p1 f) (s_db s)) (fun b => Some (a, b)))) with
  | Some (_, L), Some (a, b) => (s, GVals [j_x a / L; j_y a / L; j_z a / L; j_x b / L; j_y b / L; j_z b / L])
  | _, _ => fails_none s
  end.
(** object/frame.py:285-298 *)
Definition get_frame_names (s : session) : session * answer := (s, GNames (map fr_name (d_frames (s_db s)))).

Definition is_fload (n c : string) (l : fload) : bool := (String.eqb (fl_frame l) n && String.eqb (fl_case l) c)%bool.
Definition put_fload (n c : string) (v : list R) (l : list fload) : list fload :=
  if existsb (is_fload n c) l then map (fun x => if is_fload n c x then FLoad n c v else x) l
  else l ++ [FLoad n c v].
(** the factors of a force triple and a moment triple, twice (object/frame.py:170-181) *)
Definition dist_factors (F L : R) : list R := [F; F; F; F*L; F*L; F*L; F; F; F; F*L; F*L; F*L].
Definition conc_factors (F L : R) : list R := [F; F; F; F*L; F*L; F*L].
Definition times (a b : list R) : list R := map (fun xy => fst xy * snd xy) (combine a b).
(** object/frame.py:150-187 *)
Definition set_frame_load_distributed (n c : string) (load : list R) (s : session) : session * answer :=
  if negb (Nat.eqb (List.length load) 12) then fails s
  else match find_frame n (s_db s), scale (d_unit (s_db s)) with
  | Some _, Some (F, L) => (upd (fun d => with_dist (put_fload n c (times load (dist_factors F L)) (d_dist d)) d) s, GTrue)
  | _, _ => fails s
  end.
(** object/frame.py:189-221 *)
Definition set_frame_load_concentrated (n c : string) (load : list R) (loc : R) (s : session) : session * answer :=
  if negb (Nat.eqb (List.length load) 6 && negb (Rltb 1 loc) && negb (Rltb loc 0))%bool then fails s
  else match find_frame n (s_db s), scale (d_unit (s_db s)) with
  | Some _, Some (F, L) => (upd (fun d => with_conc (put_fload n c (times load (conc_factors F L) ++ [loc]) (d_conc d)) d) s, GTrue)
  | _, _ => fails s
  end.

(** ** Materials, sections, load cases *)

(** property/material.py:12-47; [kw] is [kwargs['E'], kwargs['mu']] *)
Definition add_material (n : string) (rho : R) (ty : string) (kw : option (R * R)) (s : session) : session * answer :=
  match dget n (d_mats (s_db s)), scale (d_unit (s_db s)) with
  | None, Some (F, L) =>
      if String.eqb ty "isotropic_elastic" then
        match kw with
        | Some (E, mu) => (upd (fun d => with_mats (dset n (GMat (rho * (F * / L^4)) (Some (E * (F * / L^2), mu))) (d_mats d)) d) s, GTrue)
        | None => fails s
        end
      else (upd (fun d => with_mats (dset n (GMat (rho * (F * / L^4)) None) (d_mats d)) d) s, GTrue)
  | _, _ => fails s
  end.
(** property/material.py:67-79: no scaling; a material without the row raises. *)
Definition set_material_isotropic_elastic (n : string) (E mu : R) (s : session) : session * answer :=
  match dget n (d_mats (s_db s)) with
  | Some (GMat rho (Some _)) => (upd (fun d => with_mats (dset n (GMat rho (Some (E, mu))) (d_mats d)) d) s, GTrue)
  | _ => fails s
  end.

(** property/frame_section.py:33-45 [Circle], 49-66 [Pipe], 79-97 [HollowBox], 105-126
    [ISection]: (A, J, I22, I33); [None] is a division by zero. *)
Definition circle_consts (d : R) : option (R * R * R * R) :=
  if Reqb d 0 then None
  else Some (PI * d^2 / 4, PI * d^4 / 32, PI * d^4 / 64, PI * d^4 / 64).
Definition pipe_consts (d t : R) : option (R * R * R * R) :=
  if (Reqb d 0 || Reqb t 0)%bool then None
  else let A := PI * d^2 / 4 - PI * (d - 2*t)^2 / 4 in
       let I := PI * d^4 / 64 * (1 - ((d - 2*t) / d)^4) in
       Some (A, PI * (d - t) / t * 2 * A, I, I).
Definition box_consts (h b tw tf : R) : option (R * R * R * R) :=
  if (Reqb h 0 || Reqb b 0 || Reqb tw 0 || Reqb tf 0)%bool then None
  else let A := h*b - (h-2*tf)*(b-2*tw) in
       Some (A, (2*tw*(h-tf)/tw + 2*tf*(b-tw)/tf)*2*A,
             h*b^3/12 - (h-2*tf)*(b-2*tw)^3/12, b*h^3/12 - (b-2*tw)*(h-2*tf)^3/12).
Definition I_consts (h b tw tf : R) : option (R * R * R * R) :=
  if (Reqb h 0 || Reqb b 0)%bool then None
  else Some (b*tf*2 + tw*(h-2*tf), (b*tf^3*2 + (h-tf)*tw^3)/3,
             2*tf*b^3/12 + (h-2*tf)*tw^3/12, b*h^3/12 - (b-tw)*(h-2*tf)^3/12).

(** property/frame_section.py:234-263: sizes stored and constants by type; the third and
    fourth size of types I and L are the first two again; types B, T, C, Z build no section
    and fail. *)
Definition section_row (ty : string) (L : R) (size : list R) : option (list R * (R * R * R * R)) :=
  match size with
  | [d] => if String.eqb ty "o" then option_map (fun c => ([d*L], c)) (circle_consts (d*L)) else None
  | [d; t] => if String.eqb ty "O" then option_map (fun c => ([d*L; t*L], c)) (pipe_consts (d*L) (t*L)) else None
  | [h; b; _; _] =>
      if String.eqb ty "I" then option_map (fun c => ([h*L; b*L; h*L; b*L], c)) (I_consts (h*L) (b*L) (h*L) (b*L))
      else if String.eqb ty "L" then option_map (fun c => ([h*L; b*L; h*L; b*L], c)) (box_consts (h*L) (b*L) (h*L) (b*L))
      else None
  | _ => None
  end.
(** property/frame_section.py:185-269 *)
Definition add_frame_section (n mat ty : string) (size : list R) (s : session) : session * answer :=
  match dget n (d_secs (s_db s)), dget mat (d_mats (s_db s)), scale (d_unit (s_db s)) with
  | None, Some _, Some (_, L) =>
      match section_row ty L size with
      | Some (sz, (((A, J), I2), I3)) => (upd (fun d => with_secs (dset n (GSec mat sz A J I2 I3) (d_secs d)) d) s, GTrue)
      | None => fails s
      end
  | _, _, _ => fails s
  end.

(** load/loadcase.py:13-70: the case and its type (the settings rows are not modelled) *)
Definition add_loadcase (n ty : string) (s : session) : session * answer :=
  match dget n (d_cases (s_db s)) with
  | Some _ => fails s
  | None => (upd (fun d => with_cases (dset n ty (d_cases d)) d) s, GName n)
  end.

(** property/area_section.py:12-43; the material is not looked up. *)
Definition area_types : list string := ["m"; "p"; "s"; "n"]%string.
Definition add_area_section (n mat ty : string) (t : R) (s : session) : session * answer :=
  if existsb (String.eqb ty) area_types then
    match dget n (d_asecs (s_db s)), scale (d_unit (s_db s)) with
    | None, Some (_, L) => (upd (fun d => with_asecs (dset n (GASec mat ty (t * L)) (d_asecs d)) d) s, GTrue)
    | _, _ => fails s
    end
  else fails s.

(** ** Areas *)

(** object/area.py:42,51,60,75,124-128: [self._add_joint] is not an attribute of the model
    (model.py:70 names it [add_joint]); the call raises AttributeError. *)
Definition add_joint_of_area (s : session) : option (session * string) := None.
(** object/area.py:36-43, 45-52, 54-61: the joint at a corner *)
Definition area_joint (L : R) (p : point) (s : session) : option (session * string) :=
  match p with ((x, y), z) =>
    match find (at_point (d_tol (s_db s)) (x * L) (y * L) (z * L)) (d_joints (s_db s)) with
    | Some j => Some (s, j_name j)
    | None => add_joint_of_area s
    end
  end.
(** object/area.py:62-77: for the fourth corner the name of the first joint is taken. *)
Definition area_fourth (L : R) (n0 : string) (p : option point) (s : session) : option (session * list string) :=
  match p with
  | None => Some (s, [])
  | Some q => bindO (area_joint L q s) (fun sn => Some (fst sn, [n0]))
  end.
(** object/area.py:86,93: [str.join(sorted_key)], a method of [str] called with a list for
    its object, raises TypeError. *)
Definition str_join (l : list string) : option string := None.
Fixpoint insert_name (a : string) (l : list string) : list string :=
  match l with
  | [] => [a]
  | b :: r => if String.leb a b then a :: l else b :: insert_name a r
  end.
Definition sort_names (l : list string) : list string := fold_right insert_name [] l.
(** the value of key [k] in a literal [{names[0]:'0',names[1]:'1',...}] *)
Definition digit (names : list string) (k : string) : string :=
  fold_left (fun v ni => if String.eqb (fst ni) k then snd ni else v) (combine names ["0"; "1"; "2"; "3"]%string) ""%string.
(** object/area.py:79-93: [sorted_key[i]] raises IndexError if names coincide. *)
Definition area_row (names : list string) : option (list string * string) :=
  let keys := sort_names (nodup string_dec names) in
  if Nat.eqb (List.length keys) (List.length names)
  then bindO (str_join keys) (fun order => Some (map (digit names) keys, order))
  else None.
(** object/area.py:15-106 [add_area]; [name] is None or a (nonempty) string. *)
Definition add_area (uuid : nat -> string) (p0 p1 p2 : point) (p3 : option point) (section : string) (name : option string) (s : session)
  : session * answer :=
  if match name with Some n => existsb (fun a => String.eqb (ga_name a) n) (d_areas (s_db s)) | None => false end then fails s else
  match dget section (d_asecs (s_db s)), scale (d_unit (s_db s)) with
  | Some _, Some (_, L) =>
      match
        bindO (area_joint L p0 s) (fun s0 => bindO (area_joint L p1 (fst s0)) (fun s1 => bindO (area_joint L p2 (fst s1)) (fun s2 =>
        bindO (area_fourth L (snd s0) p3 (fst s2)) (fun s3 =>
        bindO (area_row (snd s0 :: snd s1 :: snd s2 :: snd s3)) (fun row => Some (fst s3, row))))))
      with
      | Some (s', (pts, order)) =>
          let n := match name with Some n => n | None => uuid (s_next s') end in
          (draw (upd (fun d => with_areas (d_areas d ++ [GArea n section pts order]) d) s'), GName n)
      | None => fails s
      end
  | _, _ => fails s
  end.
(** object/area.py:108-168 [add_area_batch].  The first pass of the loop of lines 123-132
    raises; what follows is never reached.  An empty batch raises IndexError. *)
Definition add_area_batch (pts : list (point * point * point * option point)) (section : string) (s : session) : session * answer :=
  match pts, dget section (d_asecs (s_db s)), scale (d_unit (s_db s)) with
  | _ :: _, Some _, Some _ =>
      match add_joint_of_area s with
      | None => fails s
      | Some (s', _) => (s', GNone)
      end
  | _, _, _ => fails s
  end.

(** ** Deleting and renaming *)

(** object/joint.py:329-337 [delete_joint], property/frame_section.py:293-301
    [delete_frame_section]: [session.delete] is given a query instead of a row and raises. *)
Definition delete_by_query (n : string) (s : session) : session * answer := fails s.
(** object/frame.py:346-354 [delete_frame], object/area.py:185-193 [delete_area],
    property/area_section.py:65-73 [delete_area_section], load/loadcase.py:109-117
    [delete_loadcase]: the same, and the handler refers to the undefined name [log]. *)
Definition delete_by_query_log (n : string) (s : session) : session * answer := (s, GRaise).
(** object/joint.py:317-327: the name is set on a query, and [session.add] of it raises. *)
Definition set_joint_name (n : string) (s : session) : session * answer := fails s.
(** object/joint.py:167-178: nothing is stored. *)
Definition set_joint_mass (n : string) (m : list R) (s : session) : session * answer :=
  match find_joint n (s_db s) with
  | None => fails s
  | Some _ => (s, GTrue)
  end.
(** property/material.py:91-101: the name is set to itself. *)
Definition set_material_name (n : string) (s : session) : session * answer :=
  match dget n (d_mats (s_db s)) with
  | None => fails s
  | Some _ => (s, GNone)
  end.
(** property/material.py:49-65: the answer of [add_material] is dropped. *)
Definition add_material_quick (code : string) (s : session) : session * answer :=
  if String.eqb code "Q345"
  then (fst (add_material code 7850 "isoelastic" (Some (206000000000, 3/10)) s), GNone)
  else (s, GNone).
(** property/material.py:81-89, property/frame_section.py:277-291,
    property/area_section.py:48-62, load/loadcase.py:94-107 *)
Definition get_material_names (s : session) : session * answer := (s, GNames (map fst (d_mats (s_db s)))).
Definition get_frame_section_names (s : session) : session * answer := (s, GNames (map fst (d_secs (s_db s)))).
Definition get_area_section_names (s : session) : session * answer := (s, GNames (map fst (d_asecs (s_db s)))).
Definition get_loadcase_names (s : session) : session * answer := (s, GNames (map fst (d_cases (s_db s)))).

(** ** Results *)

Definition find_result (n c : string) (l : list jresult) : option jresult :=
  find (fun r => (String.eqb (jr_joint r) n && String.eqb (jr_case r) c)%bool) l.
(** result/result.py:10-25 *)
Definition get_result_joint_displacement (n c : string) (s : session) : session * answer :=
  match find_result n c (d_disps (s_db s)) with
  | None => (s, GNone)
  | Some r => match scale (d_unit (s_db s)), jr_vals r with
              | Some (_, L), [u1; u2; u3; r1; r2; r3] => (s, GVals [u1/L; u2/L; u3/L; r1; r2; r3])
              | _, _ => (s, GRaise)
              end
  end.
(** result/result.py:27-42 *)
Definition get_result_joint_reaction (n c : string) (s : session) : session * answer :=
  match find_result n c (d_reacs (s_db s)) with
  | None => (s, GNone)
  | Some r => match scale (d_unit (s_db s)), jr_vals r with
              | Some (F, L), [p1; p2; p3; m1; m2; m3] => (s, GVals [p1/F; p2/F; p3/F; m1/F/L; m2/F/L; m3/F/L])
              | _, _ => (s, GRaise)
              end
  end.

(** model.py:355-371 and 385: the results of a static case written by [run], with what the
    element model answers for a joint ([resolve_node_disp], [resolve_node_reaction]) as
    parameters; a list not of six numbers cannot be unpacked, and a second row for the same
    joint and case breaks the primary key: both end in lines 418-421. *)
Definition result_rows (c : string) (f : string -> list R) (names : list string) : option (list jresult) :=
  mapM (fun n => if Nat.eqb (List.length (f n)) 6 then Some (JResult n c (f n)) else None) names.
Definition clash (new old : list jresult) : bool :=
  existsb (fun r => match find_result (jr_joint r) (jr_case r) old with Some _ => true | None => false end) new.
Definition write_results (c : string) (disp reac : string -> list R) (s : session) : session * answer :=
  let d := s_db s in
  match dget c (d_cases d) with
  | None => fails_none s
  | Some ty =>
      if negb (String.eqb ty "static-linear") then (s, GNone)
      else match result_rows c disp (map j_name (d_joints d)), result_rows c reac (dkeys (d_rest d)) with
      | Some rd, Some rr =>
          if (clash rd (d_disps d) || clash rr (d_reacs d))%bool then fails_none s
          else (commit (upd (with_results (d_disps d ++ rd) (d_reacs d ++ rr)) s), GNone)
      | _, _ => fails_none s
      end
  end.

(** object/frame.py:127-145: the name of the section is not looked up. *)
Definition set_frame_section (n sec : string) (s : session) : session * answer :=
  match find_frame n (s_db s) with
  | None => fails s
  | Some _ => (upd (fun d => with_frames (map (fun f => if String.eqb (fr_name f) n then Frame n sec (fr_p0 f) (fr_p1 f) (fr_order f) else f) (d_frames d)) d) s, GTrue)
  end.

(** ** Histories *)


Inductive gop : Type :=
| GSetUnit (u : string) | GSetTolerance (t : R) | GGetTolerance
| GAddJoint (x y z : R) | GSetCoordinate (n : string) (x y z : R) | GGetCoordinate (n : string)
| GJointNames | GByCoor (x y z : option R)
| GSetRestraint (n : string) (r : list bool) | GSetJointLoad (n c : string) (load : list R)
| GMerge (tol : R)
| GAddFrame (p0 p1 : point) (section : string) (name : option string)
| GAddBatch (pts : list (point * point)) (section : string)
| GEndNames (n : string) | GEndCoors (n : string) | GFrameNames
| GSetDist (n c : string) (load : list R) | GSetConc (n c : string) (load : list R) (loc : R)
| GAddMaterial (n : string) (rho : R) (ty : string) (kw : option (R * R))
| GSetElastic (n : string) (E mu : R)
| GAddSection (n mat ty : string) (size : list R) | GAddCase (n ty : string)
| GSetSection (n sec : string) | GResults (c : string) (disp reac : string -> list R)
| GDisplacement (n c : string) | GReaction (n c : string)
| GSave
| GAddAreaSec (n mat ty : string) (t : R)
| GAddArea (p0 p1 p2 : point) (p3 : option point) (section : string) (name : option string)
| GAddAreaBatch (pts : list (point * point * point * option point)) (section : string)
| GDeleteJoint (n : string) | GDeleteSection (n : string)
| GDeleteFrame (n : string) | GDeleteArea (n : string) | GDeleteAreaSec (n : string) | GDeleteCase (n : string)
| GSetJointName (n : string) | GSetJointMass (n : string) (m : list R) | GSetMaterialName (n : string) | GAddQuick (code : string)
| GMaterialNames | GSectionNames | GAreaSecNames | GCaseNames.

Definition gstep (uuid : nat -> string) (s : session) (o : gop) : session * answer :=
  match o with
  | GSetUnit u => set_unit u s
  | GSetTolerance t => set_tolerance t s
  | GGetTolerance => get_tolerance s
  | GAddJoint x y z => let (s', n) := add_joint uuid x y z s in (s', GName n)
  | GSetCoordinate n x y z => set_joint_coordinate n x y z s
  | GGetCoordinate n => get_joint_coordinate n s
  | GJointNames => get_joint_names s
  | GByCoor x y z => get_joint_name_by_coor x y z s
  | GSetRestraint n r => set_joint_restraint n r s
  | GSetJointLoad n c l => set_joint_load n c l s
  | GMerge tol => merge_joints tol s
  | GAddFrame p0 p1 sec n => add_frame uuid p0 p1 sec n s
  | GAddBatch pts sec => add_frame_batch uuid pts sec s
  | GEndNames n => get_frame_end_names n s
  | GEndCoors n => get_frame_end_coors n s
  | GFrameNames => get_frame_names s
  | GSetDist n c l => set_frame_load_distributed n c l s
  | GSetConc n c l loc => set_frame_load_concentrated n c l loc s
  | GAddMaterial n rho ty kw => add_material n rho ty kw s
  | GSetElastic n E mu => set_material_isotropic_elastic n E mu s
  | GAddSection n m ty sz => add_frame_section n m ty sz s
  | GAddCase n ty => add_loadcase n ty s
  | GSetSection n sec => set_frame_section n sec s
  | GResults c disp reac => write_results c disp reac s
  | GDisplacement n c => get_result_joint_displacement n c s
  | GReaction n c => get_result_joint_reaction n c s
  | GSave => (commit s, GNone)                                             (* db.py:65-67 *)
  | GAddAreaSec n m ty t => add_area_section n m ty t s
  | GAddArea p0 p1 p2 p3 sec n => add_area uuid p0 p1 p2 p3 sec n s
  | GAddAreaBatch pts sec => add_area_batch pts sec s
  | GDeleteJoint n | GDeleteSection n => delete_by_query n s
  | GDeleteFrame n | GDeleteArea n | GDeleteAreaSec n | GDeleteCase n => delete_by_query_log n s
  | GSetJointName n => set_joint_name n s
  | GSetJointMass n m => set_joint_mass n m s
  | GSetMaterialName n => set_material_name n s
  | GAddQuick c => add_material_quick c s
  | GMaterialNames => get_material_names s
  | GSectionNames => get_frame_section_names s
  | GAreaSecNames => get_area_section_names s
  | GCaseNames => get_loadcase_names s
  end.

Fixpoint grun (uuid : nat -> string) (s : session) (ops : list gop) : session * list answer :=
  match ops with
  | [] => (s, [])
  | o :: r => let (s1, x) := gstep uuid s o in let (s2, xs) := grun uuid s1 r in (s2, x :: xs)
  end.

Definition empty_db : db := DB "N_m_C" (1/1000000) [] [] [] [] [] [] [] [] [] [] [] [] [].
(** db.py:15-46 [create]: configuration, commit, two materials, a section and a load case,
    an area section, commit.  orm.py:23-24: the defaults of the
    configuration. *)
Definition create : session :=
  let s := Session empty_db empty_db 0 in
  let s := fst (add_material "Q345" 7849 "isotropic_elastic" (Some (200000000000, 3/10)) s) in
  let s := fst (add_material "C35" 2500 "isotropic_elastic" (Some (20000000000, 2/10)) s) in
  let s := fst (add_frame_section "1-L-H400x200x14x20" "Q345" "I" [4/10; 2/10; 14/1000; 2/100] s) in
  let s := fst (add_area_section "A-M120" "C35" "m" (12/100) s) in
  let s := fst (add_loadcase "S" "static-linear" s) in
  commit s.
