(** Vocabulary for the comparison of two histories of calls that describe the same
    structure, possibly at another place and turned about the vertical. *)
From Coq Require Import Reals List String Arith Bool.
From Verif Require Import Base Csys Sections Element Load FeModel Assembly Solver Post Api SpecApi SpecGeom SpecBeam SpecAsm SpecElim
  SpecLoad SpecSolve SpecStatics SpecTold SpecToldLoad SpecIso.
From Verif Require SpecKernel.
Import ListNotations.
Local Open Scope R_scope.

(** Turning about the vertical by the angle with cosine c and sine s. *)
Definition turn_z (c s : R) (v : vec3) : vec3 := V3 (c * vx v - s * vy v) (s * vx v + c * vy v) (vz v).
(** Force and moment, or displacement and rotation, of a node turned. *)
Definition turn_six (c s : R) (v : list R) : list R :=
  let d := turn_z c s (V3 (nth 0 v 0) (nth 1 v 0) (nth 2 v 0)) in
  let r := turn_z c s (V3 (nth 3 v 0) (nth 4 v 0) (nth 5 v 0)) in
  [vx d; vy d; vz d; vx r; vy r; vz r].

(** The second description has the nodes of the first turned and then shifted by d, and the
    same supports, members and shells, by name.  Masses and unused sections do not matter. *)
Record alike (c s : R) (d : vec3) (t t' : told) : Prop := {
  al_node : forall k, option_map fst (t_node t' k) = option_map (fun n => vadd d (turn_z c s (fst n))) (t_node t k);
  al_rest : forall k, t_rest t' k = t_rest t k;
  al_beam : forall k, t_beam t' k = t_beam t k;
  al_shell : forall k, t_shell t' k = t_shell t k }.
(** The case applies the same factors to the same loads, by name: nodal loads turned, member
    loads (which are given in member axes) unchanged; and it has the same supports. *)
Record alike_sheet (c s : R) (p p' : sheet) : Prop := {
  as_node : forall k, option_map as_list (s_node p' k) = option_map (fun f => turn_six c s (as_list f)) (s_node p k);
  as_line : forall k, s_line p' k = s_line p k;
  as_point : forall k, s_point p' k = s_point p k }.
Definition alike_case (c s : R) (l l' : loads) (case : string) : Prop :=
  match l_case l case, l_case l' case with
  | Some o, Some o' =>
      (forall p, match o_uses o p, o_uses o' p with
                 | Some (i, f), Some (i', f') => f = f' /\ alike_sheet c s (l_sheet l i) (l_sheet l' i')
                 | None, None => True
                 | _, _ => False end)
      /\ (forall k, o_rest o' k = o_rest o k)
  | _, _ => False
  end.

(** Members that are not taken for vertical ones. *)
Definition not_steep (p q : vec3) : Prop := 1 / 1000000000 <= plan_offset p q.
Definition beams_not_steep (t : told) : Prop := forall k a b p, t_beam t k = Some (a, b, p) ->
  forall pa pb, option_map fst (t_node t a) = Some pa -> option_map fst (t_node t b) = Some pb -> not_steep pa pb.
(** Shells whose unit normal is not taken for the vertical one, neither up nor down. *)
Definition not_level (p q r : vec3) : Prop := let n := unit3 (cross (vsub p q) (vsub q r)) in
  1 / 1000000000 <= norm (vsub n (V3 0 0 1)) /\ 1 / 1000000000 <= norm (vadd n (V3 0 0 1)).
(** Kernels that do not see where in its plane an element is.  Only the triangle's is given
    coordinates that depend on it. *)
Fixpoint slid (a b : R) (xl : list R) : list R :=
  match xl with x :: y :: r => (x + a) :: (y + b) :: slid a b r | _ => xl end.
Definition place_blind (ker : kernels) : Prop := forall E mu t a b x1 y1 x2 y2 x3 y3 i j,
  let xl := [x1; y1; x2; y2; x3; y3] in k_dkt ker E mu t (slid a b xl) i j = k_dkt ker E mu t xl i j.
(** Kernels whose membrane does not see how an element is turned in its plane. *)
Definition direction_blind (ker : kernels) : Prop := forall E mu t c s xl x y, c * c + s * s = 1 -> List.length xl = 8%nat ->
  SpecKernel.work 12 (k_gq12 ker E mu t (spin c s xl)) (spin_membrane c s x) (spin_membrane c s y) = SpecKernel.work 12 (k_gq12 ker E mu t xl) x y.
(** Shells that may be turned about the vertical: quadrilaterals that are not level, or membranes. *)
Definition shells_turn (ker : kernels) (t : told) : Prop := forall k ns sec, t_shell t k = Some (ns, sec) -> List.length ns = 4%nat /\
  ((forall p q r rest, map (fun n => option_map fst (t_node t n)) ns = Some p :: Some q :: Some r :: rest -> not_level p q r)
   \/ (ss_type sec = "membrane"%string /\ direction_blind ker)).
(** Supports that hold all horizontal directions of a node or none. *)
Definition round_supports (ext : externals) (w : world) (case : string) : Prop :=
  forall k, flag (governing ext w case) k 0 = flag (governing ext w case) k 1
         /\ flag (governing ext w case) k 3 = flag (governing ext w case) k 4.

(** The same structure and the same case, by name, without any motion. *)
Record same_structure (t t' : told) : Prop := {
  ss_node : forall k, option_map fst (t_node t' k) = option_map fst (t_node t k);
  ss_rest : forall k, t_rest t' k = t_rest t k;
  ss_beam : forall k, t_beam t' k = t_beam t k;
  ss_shell : forall k, t_shell t' k = t_shell t k }.
Record same_sheet (p p' : sheet) : Prop := {
  sh_node : forall k, s_node p' k = s_node p k;
  sh_line : forall k, s_line p' k = s_line p k;
  sh_point : forall k, s_point p' k = s_point p k }.
Definition same_case (l l' : loads) (case : string) : Prop :=
  match l_case l case, l_case l' case with
  | Some o, Some o' =>
      (forall p, match o_uses o p, o_uses o' p with
                 | Some (i, f), Some (i', f') => f = f' /\ same_sheet (l_sheet l i) (l_sheet l' i')
                 | None, None => True
                 | _, _ => False end)
      /\ (forall k, o_rest o' k = o_rest o k)
  | _, _ => False
  end.
(** What had been told about the structure and about the loads when the calls were assembled. *)
Definition describes (ext : externals) (ops : list op) (t : told) (l : loads) : Prop :=
  built (notes (trace ext init (ops ++ [OpAssemble]))) = Some t
  /\ l_built (load_notes (trace ext init (ops ++ [OpAssemble]))) = Some l.

(** A structure that has every member of the first one, none of them softer, and maybe more
    members; the members it has on top carry no load of the case. *)
Record stiffer (t t' : told) : Prop := {
  sf_node : forall k, option_map fst (t_node t' k) = option_map fst (t_node t k);
  sf_shell : forall k, t_shell t' k = t_shell t k;
  sf_beam : forall k, match t_beam t k, t_beam t' k with
                      | Some (a, b, p), Some (a', b', p') => a' = a /\ b' = b /\ no_softer p p'
                      | None, Some (_, _, p') => props_nonneg p'
                      | None, None => True
                      | Some _, None => False end }.
Definition unloaded_extras (t t' : told) (l : loads) (case : string) : Prop :=
  forall o p i f k, l_case l case = Some o -> o_uses o p = Some (i, f) -> t_beam t k = None -> t_beam t' k <> None ->
    s_line (l_sheet l i) k = None /\ s_point (l_sheet l i) k = None.
(** The second case applies the loads of the first. *)
Definition same_loads (l l' : loads) (case : string) : Prop :=
  match l_case l case, l_case l' case with
  | Some o, Some o' =>
      forall p, match o_uses o p, o_uses o' p with
                | Some (i, f), Some (i', f') => f = f' /\ same_sheet (l_sheet l i) (l_sheet l' i')
                | None, None => True
                | _, _ => False end
  | _, _ => False
  end.
