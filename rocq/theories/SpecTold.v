(** What the caller has told: for every name the last definition that was accepted, read
    off the calls and their answers alone. *)
From Coq Require Import Reals List String Arith Bool.
From Verif Require Import Base Csys Sections Element Load FeModel Assembly Solver Post Api.
Import ListNotations.
Local Open Scope R_scope.

Record told : Type := Told {
  t_node : string -> option (vec3 * list R);             (* position, mass *)
  t_rest : string -> option (list bool);
  t_mat : string -> option (R * R * R * R);              (* rho, E, mu, expansion *)
  t_bsec : string -> option bsection;
  t_ssec : string -> option ssection;
  t_beam : string -> option (string * string * bprop);   (* start, end, properties *)
  t_shell : string -> option (list string * ssection) }. (* corners, section *)
Definition nothing : told := Told (fun _ => None) (fun _ => None) (fun _ => None) (fun _ => None) (fun _ => None) (fun _ => None) (fun _ => None).
(** What was told, what had been told when each file was saved, and when the model was
    last assembled. *)
Record book : Type := Book { now : told; kept : string -> option told; built : option told }.
Definition blank : book := Book nothing (fun _ => None) None.

Definition put {A} (k : string) (v : A) (f : string -> option A) : string -> option A :=
  fun k' => if String.eqb k' k then Some v else f k'.
Definition six_zero : list R := [0; 0; 0; 0; 0; 0].
Definition as_list {A} (s : six A) : list A := match s with (a, b, c, d, e, f) => [a; b; c; d; e; f] end.
Definition the_mat (p : R * R * R * R) : material := match p with (rho, E, mu, a) => Mat rho E mu a end.

Definition put_node k v (t : told) := Told (put k v (t_node t)) (t_rest t) (t_mat t) (t_bsec t) (t_ssec t) (t_beam t) (t_shell t).
Definition put_rest k v (t : told) := Told (t_node t) (put k v (t_rest t)) (t_mat t) (t_bsec t) (t_ssec t) (t_beam t) (t_shell t).
Definition put_mat k v (t : told) := Told (t_node t) (t_rest t) (put k v (t_mat t)) (t_bsec t) (t_ssec t) (t_beam t) (t_shell t).
Definition put_bsec k v (t : told) := Told (t_node t) (t_rest t) (t_mat t) (put k v (t_bsec t)) (t_ssec t) (t_beam t) (t_shell t).
Definition put_ssec k v (t : told) := Told (t_node t) (t_rest t) (t_mat t) (t_bsec t) (put k v (t_ssec t)) (t_beam t) (t_shell t).
Definition put_beam k v (t : told) := Told (t_node t) (t_rest t) (t_mat t) (t_bsec t) (t_ssec t) (put k v (t_beam t)) (t_shell t).
Definition put_shell k v (t : told) := Told (t_node t) (t_rest t) (t_mat t) (t_bsec t) (t_ssec t) (t_beam t) (put k v (t_shell t)).
Definition with_mat (mt : string) (t : told) (f : material -> told) : told :=
  match t_mat t mt with Some p => f (the_mat p) | None => t end.
Definition with_sec (mt : string) (t : told) (f : material -> option bsection) (n : string) : told :=
  with_mat mt t (fun m => match f m with Some s => put_bsec n s t | None => t end).

(** One accepted call.  A new node has no mass.  A restraint of an unknown node is accepted and
    has no effect.  A pipe is taken as a rectangle (C12), and the arguments of a shell in
    the order section, corners (C13). *)
Definition tell (o : op) (t : told) : told :=
  match o with
  | OpAddNode n x y z => put_node n (V3 x y z, six_zero) t
  | OpSetMass n v => match t_node t n with Some (p, _) => put_node n (p, as_list v) t | None => t end
  | OpSetRestraint n fl => match t_node t n with Some _ => put_rest n (as_list fl) t | None => t end
  | OpAddMaterial n rho E mu a => put_mat n (rho, E, mu, a) t
  | OpAddGeneral n mt A As2 As3 I22 I33 J W22 W33 =>
      with_mat mt t (fun m => put_bsec n {| s_mat := m; s_A := A; s_As2 := As2; s_As3 := As3; s_J := J;
                                            s_I22 := I22; s_I33 := I33; s_W22 := W22; s_W33 := W33 |} t)
  | OpAddRectangle n mt h b | OpAddPipe n mt h b => with_sec mt t (fun m => mk_rectangle m h b) n
  | OpAddI n mt h b tw tf => with_sec mt t (fun m => mk_I m h b tw tf) n
  | OpAddBox n mt h b tw tf => with_sec mt t (fun m => mk_box m h b tw tf) n
  | OpAddCircle n mt d => with_sec mt t (fun m => mk_circle m d) n
  | OpAddShellSection n mt th ty => with_mat mt t (fun m => put_ssec n {| ss_mat := m; ss_t := th; ss_type := ty |} t)
  | OpAddBeam n s e sec => match t_bsec t sec with Some p => put_beam n (s, e, PSection p) t | None => t end
  | OpAddSimpleBeam n s e E mu A I2 I3 J rho => put_beam n (s, e, PSimple E mu A I2 I3 J rho) t
  | OpAddShell n sec a b c d =>
      match t_ssec t sec with
      | Some p => put_shell n (match d with Some d' => [a; b; c; d'] | None => [a; b; c] end, p) t
      | None => t
      end
  | _ => t
  end.
Definition note (b : book) (entry : op * out) : book :=
  match entry with
  | (OpSave f, RBool true) => Book (now b) (put f (now b) (kept b)) (built b)
  | (OpLoad f, RBool true) => match kept b f with Some t => Book t (kept b) (built b) | None => b end
  | (OpAssemble, RBool true) => Book (now b) (kept b) (Some (now b))
  | (o, RBool true) => Book (tell o (now b)) (kept b) (built b)
  | _ => b
  end.
Definition notes (log : list (op * out)) : book := fold_left note log blank.

(** What a model holds. *)
Definition holds (m : fem) (t : told) : Prop :=
  (forall k, option_map (fun n => (n_loc n, n_mass n)) (dget k (f_nodes m)) = t_node t k)
  /\ (forall k, dget k (f_rest m) = t_rest t k)
  /\ (forall k, option_map (fun x => (m_rho x, m_E x, m_mu x, m_a x)) (dget k (f_mats m)) = t_mat t k)
  /\ (forall k, dget k (f_bsecs m) = t_bsec t k)
  /\ (forall k, dget k (f_ssecs m) = t_ssec t k)
  /\ (forall k, option_map (fun b => (n_name (b_ni b), n_name (b_nj b), b_prop b)) (dget k (f_beams m)) = t_beam t k)
  /\ (forall k, option_map (fun s => (map n_name (sh_nodes s), sh_sec s)) (dget k (f_shells m)) = t_shell t k).
