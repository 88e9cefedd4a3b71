(** Vocabulary for the comparison of a structure with the one in which a member has been cut
    into two by a node on it. *)
From Coq Require Import Reals List String Arith Bool.
From Verif Require Import Base Csys Sections Element Load FeModel Assembly Solver Post Api SpecApi SpecGeom SpecBeam SpecAsm SpecElim
  SpecLoad SpecSolve SpecStatics SpecTold SpecToldLoad SpecSame.
Import ListNotations.
Local Open Scope R_scope.

(** The point at the fraction r of the way from p to q. *)
Definition part_way (r : R) (p q : vec3) : vec3 := vadd p (vscale r (vsub q p)).
(** The parts are taken for vertical if the whole is. *)
Definition leans_alike (r : R) (p q : vec3) : Prop :=
  (not_steep p (part_way r p q) /\ not_steep (part_way r p q) q) \/ ~ not_steep p q.

(** In the second description the member k, which runs from the node a at pa to the node b at pb, ends
    at the new free node n at the fraction r of its length, and the new member k2 runs from there to b
    with the same section; all else is the same, by name. *)
Record cut (r : R) (k k2 n a b : string) (pa pb : vec3) (t t' : told) : Prop := {
  cu_ratio : 0 < r < 1;
  cu_fresh : t_node t n = None /\ t_rest t n = None /\ t_beam t k2 = None;
  cu_node : forall i, i <> n -> option_map fst (t_node t' i) = option_map fst (t_node t i);
  cu_rest : forall i, t_rest t' i = t_rest t i;
  cu_shell : forall i, t_shell t' i = t_shell t i;
  cu_beam : forall i, i <> k -> i <> k2 -> t_beam t' i = t_beam t i;
  cu_ends : option_map fst (t_node t a) = Some pa /\ option_map fst (t_node t b) = Some pb;
  cu_place : option_map fst (t_node t' n) = Some (part_way r pa pb);
  cu_parts : exists p, t_beam t k = Some (a, b, p) /\ t_beam t' k = Some (a, n, p) /\ t_beam t' k2 = Some (n, b, p);
  cu_lean : leans_alike r pa pb }.

(** The loads of a sheet, with those of the member k shared out: a line load to both parts, with its
    value at the cut between them; a point load to the part on which it rests. *)
Definition between (r x y : R) : R := x + r * (y - x).
Definition halves_line (r : R) (v : option ((R * R * R * R) * (R * R * R * R))) (v1 v2 : option ((R * R * R * R) * (R * R * R * R))) : Prop :=
  match v with
  | Some ((pi, qi2, qi3, ti) as i, (pj, qj2, qj3, tj) as j) =>
      let m := (between r pi pj, between r qi2 qj2, between r qi3 qj3, between r ti tj) in
      v1 = Some (i, m) /\ v2 = Some (m, j)
  | None => v1 = None /\ v2 = None
  end.
Definition halves_point (r : R) (v : option (six R * R)) (v1 v2 : option (six R * R)) : Prop :=
  match v with
  | Some (F, x) => (x <= r /\ v1 = Some (F, x / r) /\ v2 = None) \/ (r <= x /\ v1 = None /\ v2 = Some (F, (x - r) / (1 - r)))
  | None => v1 = None /\ v2 = None
  end.
Record cut_sheet (r : R) (k k2 n : string) (s s' : sheet) : Prop := {
  cs_fresh : s_node s n = None;
  cs_node : forall i, s_node s' i = s_node s i;
  cs_line : forall i, i <> k -> i <> k2 -> s_line s' i = s_line s i;
  cs_point : forall i, i <> k -> i <> k2 -> s_point s' i = s_point s i;
  cs_lines : halves_line r (s_line s k) (s_line s' k) (s_line s' k2);
  cs_points : halves_point r (s_point s k) (s_point s' k) (s_point s' k2) }.
Definition cut_case (r : R) (k k2 n : string) (l l' : loads) (case : string) : Prop :=
  match l_case l case, l_case l' case with
  | Some o, Some o' =>
      (forall p, match o_uses o p, o_uses o' p with
                 | Some (i, f), Some (i', f') => f = f' /\ cut_sheet r k k2 n (l_sheet l i) (l_sheet l' i')
                 | None, None => True
                 | _, _ => False end)
      /\ (forall i, o_rest o' i = o_rest o i) /\ o_rest o n = None
  | _, _ => False
  end.
(** No load of the case rests on the member. *)
Definition unloaded (l : loads) (case k : string) : Prop :=
  forall o p i f, l_case l case = Some o -> o_uses o p = Some (i, f) -> s_line (l_sheet l i) k = None /\ s_point (l_sheet l i) k = None.

(** Displacement and rotation among six answered values. *)
Definition shift_of (v : list R) : vec3 := V3 (nth 0 v 0) (nth 1 v 0) (nth 2 v 0).
Definition spin_of (v : list R) : vec3 := V3 (nth 3 v 0) (nth 4 v 0) (nth 5 v 0).
