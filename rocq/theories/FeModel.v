(** Model of /repo/hyperstatic/core/fe_model/model.py (class [Model]). *)
From Coq Require Import Reals Lra List String Arith Bool.
From Verif Require Import Base Csys Sections Element.
Import ListNotations.
Local Open Scope R_scope.

(** model.py:24-36 *)
Record fem : Type := Fem {
  f_nodes : dict node;
  f_rest : dict (list bool);
  f_mats : dict material;
  f_bsecs : dict bsection;
  f_ssecs : dict ssection;
  f_beams : dict beam;
  f_shells : dict shell;
  f_hnode : dict nat;
  f_hbeam : dict nat;
  f_hshell : dict nat }.

Definition new_fem : fem := Fem [] [] [] [] [] [] [] [] [] [].

(** model.py:44-46 *)
Definition node_count (m : fem) : nat := List.length (f_nodes m).

(** model.py:72-86 [add_node]; returns the number given to the node.  The API never
    passes [check_dup=True]. *)
Definition model_add_node (name : string) (x y z : R) (check_dup : bool) (m : fem) : option (nat * fem) :=
  match mk_node name x y z with
  | None => None
  | Some nd =>
      let res := if check_dup
                 then filter (fun a => Rltb (norm (vsub (n_loc a) (V3 x y z))) abs_tol) (dvals (f_nodes m))
                 else [] in
      match res with
      | [] =>
          let hid := List.length (f_nodes m) in
          Some (hid, Fem (dset name nd (f_nodes m)) (f_rest m) (f_mats m) (f_bsecs m) (f_ssecs m)
                         (f_beams m) (f_shells m) (dset name hid (f_hnode m)) (f_hbeam m) (f_hshell m))
      | dup :: _ =>
          match dget (n_name dup) (f_hnode m) with
          | Some hid => Some (hid, m)
          | None => None
          end
      end
  end.

(** model.py:88-93 [set_nodal_restraint] *)
Definition model_set_restraint (name : string) (flags : list bool) (m : fem) : bool * fem :=
  if negb (dmem name (f_nodes m)) then (false, m)
  else (true, Fem (f_nodes m) (dset name flags (f_rest m)) (f_mats m) (f_bsecs m) (f_ssecs m)
                  (f_beams m) (f_shells m) (f_hnode m) (f_hbeam m) (f_hshell m)).

(** model.py:101-102 [set_nodal_mass] *)
Definition model_set_mass (name : string) (mass : list R) (m : fem) : option fem :=
  match dget name (f_nodes m) with
  | None => None
  | Some nd => Some (Fem (dset name (set_mass mass nd) (f_nodes m)) (f_rest m) (f_mats m) (f_bsecs m)
                         (f_ssecs m) (f_beams m) (f_shells m) (f_hnode m) (f_hbeam m) (f_hshell m))
  end.

(** model.py:104-106 *)
Definition model_add_material (name : string) (rho E mu a : R) (m : fem) : fem :=
  Fem (f_nodes m) (f_rest m) (dset name (Mat rho E mu a) (f_mats m)) (f_bsecs m) (f_ssecs m)
      (f_beams m) (f_shells m) (f_hnode m) (f_hbeam m) (f_hshell m).

(** model.py:108-136: look up the material, build the section, store it. *)
Definition model_add_bsection (name mat : string) (mk : material -> option bsection) (m : fem) : option fem :=
  bindO (dget mat (f_mats m)) (fun mt =>
  bindO (mk mt) (fun sec =>
  Some (Fem (f_nodes m) (f_rest m) (f_mats m) (dset name sec (f_bsecs m)) (f_ssecs m)
            (f_beams m) (f_shells m) (f_hnode m) (f_hbeam m) (f_hshell m)))).
Definition model_add_general name mat A As2 As3 I22 I33 J W22 W33 :=
  model_add_bsection name mat (fun mt => Some (general_section mt A As2 As3 I22 I33 J W22 W33)).
Definition model_add_rectangle name mat h b := model_add_bsection name mat (fun mt => mk_rectangle mt h b).
Definition model_add_I name mat h b tw tf := model_add_bsection name mat (fun mt => mk_I mt h b tw tf).
Definition model_add_box name mat h b tw tf := model_add_bsection name mat (fun mt => mk_box mt h b tw tf).
Definition model_add_circle name mat d := model_add_bsection name mat (fun mt => mk_circle mt d).
Definition model_add_pipe name mat d t := model_add_bsection name mat (fun mt => mk_pipe mt d t).

(** model.py:138-141 *)
Definition model_add_ssection (name mat : string) (t : R) (ty : string) (m : fem) : option fem :=
  bindO (dget mat (f_mats m)) (fun mt =>
  Some (Fem (f_nodes m) (f_rest m) (f_mats m) (f_bsecs m) (dset name (SSec mt t ty) (f_ssecs m))
            (f_beams m) (f_shells m) (f_hnode m) (f_hbeam m) (f_hshell m))).

(** model.py:149-152, 168-171: beams with the same end points (in either order). *)
Definition same_ends (p q : vec3) (b : beam) : bool :=
  let s := n_loc (b_ni b) in
  let e := n_loc (b_nj b) in
  ((Rltb (norm (vsub s p)) abs_tol && Rltb (norm (vsub e q)) abs_tol)
   || (Rltb (norm (vsub e p)) abs_tol && Rltb (norm (vsub s q)) abs_tol))%bool.

(** model.py:147-161, 166-180: common tail of [add_beam] and [add_simple_beam]. *)
Definition model_put_beam (name : string) (ni nj : node) (p : bprop) (check_dup : bool) (m : fem)
  : option (nat * fem) :=
  bindO (mk_beam name ni nj p) (fun b =>
  let res := if check_dup then filter (same_ends (n_loc ni) (n_loc nj)) (dvals (f_beams m)) else [] in
  match res with
  | [] =>
      let hid := List.length (f_beams m) in
      Some (hid, Fem (f_nodes m) (f_rest m) (f_mats m) (f_bsecs m) (f_ssecs m)
                     (dset name b (f_beams m)) (f_shells m) (f_hnode m)
                     (dset name hid (f_hbeam m)) (f_hshell m))
  | dup :: _ => bindO (dget (b_name dup) (f_hbeam m)) (fun hid => Some (hid, m))
  end).

(** model.py:143-161 [add_beam] *)
Definition model_add_beam (name start end_ section : string) (check_dup : bool) (m : fem) : option (nat * fem) :=
  bindO (dget start (f_nodes m)) (fun ni =>
  bindO (dget end_ (f_nodes m)) (fun nj =>
  bindO (dget section (f_bsecs m)) (fun sec =>
  model_put_beam name ni nj (PSection sec) check_dup m))).

(** model.py:163-180 [add_simple_beam] *)
Definition model_add_simple_beam (name start end_ : string) (E mu A I2 I3 J rho : R) (check_dup : bool) (m : fem)
  : option (nat * fem) :=
  bindO (dget start (f_nodes m)) (fun ni =>
  bindO (dget end_ (f_nodes m)) (fun nj =>
  model_put_beam name ni nj (PSimple E mu A I2 I3 J rho) check_dup m)).

(** model.py:193-196 [set_beam_releases]: reads the attribute [self.beams], which
    does not exist (the dictionary is [self.__beams]), so it raises for every name. *)
Definition model_set_releases (name : string) (rel : list bool) (m : fem) : option fem := None.

(** model.py:204-246 getters; [None] is KeyError *)
Definition model_node_names (m : fem) : list string := dkeys (f_nodes m).
Definition model_node_location (name : string) (m : fem) : option vec3 :=
  bindO (dget name (f_nodes m)) (fun n => Some (n_loc n)).
Definition model_nodal_mass (name : string) (m : fem) : option (list R) :=
  bindO (dget name (f_nodes m)) (fun n => Some (n_mass n)).
Definition model_beam_names (m : fem) : list string := dkeys (f_beams m).
Definition model_beam_connection (name : string) (m : fem) : option (string * string) :=
  bindO (dget name (f_beams m)) (fun b => Some (n_name (b_ni b), n_name (b_nj b))).
Definition model_beam_location (name : string) (m : fem) : option (vec3 * vec3) :=
  bindO (dget name (f_beams m)) (fun b => Some (n_loc (b_ni b), n_loc (b_nj b))).
Definition model_node_hid (name : string) (m : fem) : option nat := dget name (f_hnode m).
(** model.py:225-226 [get_beam_hid] *)
Definition model_beam_hid (name : string) (m : fem) : option nat := dget name (f_hbeam m).
(** model.py:315-316 [get_shell_hid] *)
Definition model_shell_hid (name : string) (m : fem) : option nat := dget name (f_hshell m).
(** model.py:228-231 *)
Definition beam_hids (b : beam) (m : fem) : option (nat * nat) :=
  bindO (model_node_hid (n_name (b_ni b)) m) (fun i =>
  bindO (model_node_hid (n_name (b_nj b)) m) (fun j => Some (i, j))).
Definition model_beam_hids (name : string) (m : fem) : option (nat * nat) :=
  bindO (dget name (f_beams m)) (fun b => beam_hids b m).

(** model.py:291-304 [add_shell] *)
Definition model_add_shell (name section n0 n1 n2 : string) (n3 : option string) (m : fem) : option (nat * fem) :=
  bindO (dget section (f_ssecs m)) (fun sec =>
  bindO (dget n0 (f_nodes m)) (fun a =>
  bindO (dget n1 (f_nodes m)) (fun b =>
  bindO (dget n2 (f_nodes m)) (fun c =>
  bindO (match n3 with
         | Some n3' => bindO (dget n3' (f_nodes m)) (fun d => mk_quad name sec a b c d)
         | None => mk_tria name sec a b c
         end) (fun elm =>
  let hid := List.length (f_shells m) in
  Some (hid, Fem (f_nodes m) (f_rest m) (f_mats m) (f_bsecs m) (f_ssecs m) (f_beams m)
                 (dset name elm (f_shells m)) (f_hnode m) (f_hbeam m) (dset name hid (f_hshell m)))))))).

(** model.py:306-313 *)
Definition model_shell_names (m : fem) : list string := dkeys (f_shells m).
(** IndexError on nodes[3] for a triangle *)
Definition model_shell_connection (name : string) (m : fem) : option (list string) :=
  bindO (dget name (f_shells m)) (fun s =>
  match sh_nodes s with
  | [a;b;c;d] => Some [n_name a; n_name b; n_name c; n_name d]
  | _ => None
  end).
(** model.py:312-313: [tuple(node)] raises TypeError (a Node is not iterable) *)
Definition model_shell_location (name : string) (m : fem) : option (list vec3) := None.

(** model.py:318-321 *)
Definition shell_hids (s : shell) (m : fem) : option (list nat) :=
  mapM (fun n => model_node_hid (n_name n) m) (sh_nodes s).
