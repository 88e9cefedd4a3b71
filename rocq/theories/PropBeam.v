(** Properties C28, C29, C35-C37, C39, C40 (element), C60: members.
    Only statements, each closed by a lemma proved elsewhere, with the assumptions it
    rests on and an instance of its hypotheses. *)
From Coq Require Import Reals Lra Lia List String Arith Bool ZArith Sorting.Permutation Sorting.Sorted.
From Verif Require Import Base Csys Sections Element Load FeModel Assembly Solver Post Api SpecApi SpecGeom SpecBeam SpecAsm BeamFacts MemberLoads AsmProofs Demo BeamProofs SolveDemo.
Import ListNotations.
Local Open Scope string_scope.
Local Open Scope list_scope.
Local Open Scope R_scope.

(** C28. The end actions of a distributed load do the work of the load on every deflection
    of the member. *)
Theorem C28_work b pi pj qi2 qj2 qi3 qj3 ti tj p l f
  (pr : Riemann_integrable (line_power l pi pj qi2 qj2 qi3 qj3 ti tj f) 0 l) :
  0 < l -> beam_field f -> dget b (p_conc p) = None ->
  work12 (vnth (pat_beam_f (pat_set_beam_dist b pi pj qi2 qj2 qi3 qj3 ti tj p) b l)) (ends_of_field f l)
  = RiemannInt pr.
Proof. exact (c28_work b pi pj qi2 qj2 qi3 qj3 ti tj p l f pr). Qed.
Print Assumptions C28_work.
Example C28_example : exists f, beam_field f /\ c3 (f_v f) = 4 /\ c1 (f_u f) = 2.
Proof. exists (Field (Poly 1 2 0 0) (Poly 1 2 3 4) (Poly 5 6 7 8) (Poly 1 1 0 0)). repeat split. Qed.

(** C29. The end actions of a concentrated load do the work of the load on every deflection
    of the member. *)
Theorem C29_work b F1 F2 F3 M1 M2 M3 r p l f :
  0 < l -> beam_field f -> dget b (p_dist p) = None ->
  work12 (vnth (pat_beam_f (pat_set_beam_conc b F1 F2 F3 M1 M2 M3 r p) b l)) (ends_of_field f l)
  = point_work (V3 F1 F2 F3) (V3 M1 M2 M3) f (r * l).
Proof. exact (c29_work b F1 F2 F3 M1 M2 M3 r p l f). Qed.
Print Assumptions C29_work.
Example C29_example : let f := Field (Poly 1 2 0 0) (Poly 1 2 3 4) (Poly 5 6 7 8) (Poly 1 1 0 0) in
  work12 (vnth (pat_beam_f (pat_set_beam_conc "b" 0 1 0 0 0 0 (1/2) (new_pattern "P")) "b" 2)) (ends_of_field f 2) = 10.
Proof.
  cbv zeta. rewrite C29_work; [|lra|repeat split|reflexivity].
  unfold point_work, dot3, disp_x, rot_x, peval, pder; cbn [vx vy vz f_u f_v f_w f_t c0 c1 c2 c3]. field.
Qed.

(** C28, C29 together: both kinds of load on one member add up. *)
Theorem C29_both b pi pj qi2 qj2 qi3 qj3 ti tj F1 F2 F3 M1 M2 M3 r p l f
  (pr : Riemann_integrable (line_power l pi pj qi2 qj2 qi3 qj3 ti tj f) 0 l) :
  0 < l -> beam_field f ->
  work12 (vnth (pat_beam_f (pat_set_beam_conc b F1 F2 F3 M1 M2 M3 r
                           (pat_set_beam_dist b pi pj qi2 qj2 qi3 qj3 ti tj p)) b l)) (ends_of_field f l)
  = RiemannInt pr + point_work (V3 F1 F2 F3) (V3 M1 M2 M3) f (r * l).
Proof. exact (c29_both b pi pj qi2 qj2 qi3 qj3 ti tj F1 F2 F3 M1 M2 M3 r p l f pr). Qed.
Print Assumptions C29_both.
Example C29_both_example : exists f, beam_field f /\ inhabited (Riemann_integrable (line_power 2 1 2 3 4 5 6 7 8 f) 0 2).
Proof.
  exists (Field (Poly 1 2 0 0) (Poly 1 2 3 4) (Poly 5 6 7 8) (Poly 1 1 0 0)). split; [repeat split|].
  constructor. apply line_power_integrable. lra.
Qed.

(** C35 (partial). Between two nodes the call creates the beam exactly when the end points
    are well separated (plan offset at least 1e-6 ..., see SpecGeom), and changes nothing
    otherwise.  Missing: acceptance of every pair whose distance reaches the tolerance,
    which is false (C35_refuted). *)
Theorem C35_iff_partial ext w o a b p q : adds_beam_between w o a b ->
  answer ext w (OpNodeLocation a) = RVec3 p -> answer ext w (OpNodeLocation b) = RVec3 q ->
  (well_separated p q -> answer ext w o = RBool true)
  /\ (~ well_separated p q -> answer ext w o = RBool false /\ after ext w o = w).
Proof. exact (c35_iff_partial ext w o a b p q). Qed.
Print Assumptions C35_iff_partial.
Example C35_example : forall ext, let w := final ext init demo_nodes in
  adds_beam_between w (OpAddSimpleBeam "b" "A" "B" 1 0 1 1 1 1 1) "A" "B"
  /\ answer ext w (OpNodeLocation "A") = RVec3 (V3 0 0 0) /\ answer ext w (OpNodeLocation "B") = RVec3 (V3 1 0 0)
  /\ well_separated (V3 0 0 0) (V3 1 0 0).
Proof.
  intros ext w. subst w. split; [|split; [|split]].
  - right. exists "b", 1, 0, 1, 1, 1, 1, 1. reflexivity.
  - unfold demo_nodes. unfold final; cbn [run fst snd]. rewrite !step_add_node. reflexivity.
  - unfold demo_nodes. unfold final; cbn [run fst snd]. rewrite !step_add_node. reflexivity.
  - exact demo_separated.
Qed.

(** C35. Coincident end points: the call answers False and changes nothing. *)
Theorem C35_coincident ext w o a b p : adds_beam_between w o a b ->
  answer ext w (OpNodeLocation a) = RVec3 p -> answer ext w (OpNodeLocation b) = RVec3 p ->
  answer ext w o = RBool false /\ after ext w o = w.
Proof. exact (c35_coincident ext w o a b p). Qed.
Print Assumptions C35_coincident.
Example C35_coincident_example : forall ext, let w := final ext init demo_nodes in
  adds_beam_between w (OpAddSimpleBeam "b" "A" "A" 1 0 1 1 1 1 1) "A" "A"
  /\ answer ext w (OpAddSimpleBeam "b" "A" "A" 1 0 1 1 1 1 1) = RBool false.
Proof.
  intros ext w. assert (A : adds_beam_between w (OpAddSimpleBeam "b" "A" "A" 1 0 1 1 1 1 1) "A" "A") by (right; exists "b", 1, 0, 1, 1, 1, 1, 1; reflexivity).
  split; [exact A|]. destruct (C35_example ext) as (_ & L & _). exact (proj1 (C35_coincident ext w _ "A" "A" _ A L L)).
Qed.

(** C35 refuted. A beam a kilometre long, steep but not vertical, is refused. *)
Theorem C35_refuted : exists ops a b p q o, forall ext, let w := final ext init ops in
  adds_beam_between w o a b /\ answer ext w (OpNodeLocation a) = RVec3 p /\ answer ext w (OpNodeLocation b) = RVec3 q
  /\ 1000 <= distance p q /\ answer ext w o = RBool false.
Proof. exact c35_refuted. Qed.
Print Assumptions C35_refuted.


(** C36. The stiffness matrix exists exactly when Poisson's ratio is not -1. *)
Theorem C36_defined name ni nj p b : mk_beam name ni nj p = Some b ->
  ((exists k, beam_K b = Some k) <-> 1 + poisson p <> 0).
Proof. exact (c36_defined name ni nj p b). Qed.
Print Assumptions C36_defined.
Example C36_example : mk_beam "b" nodeA nodeB (PSimple 1 0 1 1 1 1 1) = Some demo_beam
  /\ 1 + poisson (PSimple 1 0 1 1 1 1 1) <> 0.
Proof. split; [exact demo_beam_eq|]. cbn. lra. Qed.

(** C36. Stiffness matrix times end displacements of a deflection = end forces derived from
    the deflection by the differential equations of the bar. *)
Theorem C36_exact name ni nj p b k f i :
  mk_beam name ni nj p = Some b -> beam_K b = Some k -> beam_field f -> (i < 12)%nat ->
  let l := distance (n_loc ni) (n_loc nj) in
  rsum 12 (fun j => k i j * nth j (vec12 (ends_of_field f l)) 0)
  = nth i (vec12 (end_forces (props p) f l)) 0.
Proof. exact (c36_exact name ni nj p b k f i). Qed.
Print Assumptions C36_exact.
Example C36_exact_example : exists k, beam_K demo_beam = Some k
  /\ rsum 12 (fun j => k 1%nat j * nth j (vec12 (ends_of_field (Field (Poly 0 0 0 0) (Poly 0 0 0 1) (Poly 0 0 0 0) (Poly 0 0 0 0)) 1)) 0)
     = nth 1 (vec12 (end_forces (props (PSimple 1 0 1 1 1 1 1)) (Field (Poly 0 0 0 0) (Poly 0 0 0 1) (Poly 0 0 0 0) (Poly 0 0 0 0)) 1)) 0.
Proof.
  destruct (proj2 (C36_defined "b" nodeA nodeB _ demo_beam demo_beam_eq) (proj2 C36_example)) as (k & Hk). exists k. split; [exact Hk|].
  pose proof (C36_exact "b" nodeA nodeB _ demo_beam k (Field (Poly 0 0 0 0) (Poly 0 0 0 1) (Poly 0 0 0 0) (Poly 0 0 0 0)) 1 demo_beam_eq Hk ltac:(repeat split) ltac:(lia)) as H.
  cbv zeta in H. change (n_loc nodeA) with (V3 0 0 0) in H. change (n_loc nodeB) with (V3 1 0 0) in H. rewrite demo_dist in H. exact H.
Qed.

(** C36. Every set of end displacements belongs to such a deflection, so C36_exact determines
    the matrix completely. *)
Theorem C36_fields l d : l <> 0 -> exists f, beam_field f /\ ends_of_field f l = d.
Proof. exact (c36_fields l d). Qed.
Print Assumptions C36_fields.
Example C36_fields_example : (1 : R) <> 0. Proof. lra. Qed.

(** C37. The beam stiffness matrix is symmetric. *)
Theorem C37_symmetric b k i j : beam_K b = Some k -> (i < 12)%nat -> (j < 12)%nat -> k i j = k j i.
Proof. exact (c37_symmetric b k i j). Qed.
Print Assumptions C37_symmetric.
Example C37_symmetric_example : exists k, beam_K demo_beam = Some k /\ k 1%nat 5%nat = k 5%nat 1%nat.
Proof.
  destruct (proj2 (C36_defined "b" nodeA nodeB _ demo_beam demo_beam_eq) (proj2 C36_example)) as (k & Hk). exists k. split; [exact Hk|].
  apply (C37_symmetric demo_beam k 1 5 Hk); lia.
Qed.

(** C37. Its energy is non-negative, and zero exactly on the rigid motions. *)
Theorem C37_kernel name ni nj p b k d : mk_beam name ni nj p = Some b -> beam_K b = Some k ->
  stiff_pos (props p) ->
  0 <= form12 k d d
  /\ (form12 k d d = 0 <-> exists t w, d = rigid_ends t w (distance (n_loc ni) (n_loc nj))).
Proof. exact (c37_kernel name ni nj p b k d). Qed.
Print Assumptions C37_kernel.
Example C37_example : stiff_pos (props (PSimple 1 0 1 1 1 1 1)).
Proof. unfold stiff_pos, props; cbn. repeat split; lra. Qed.

(** C39 (partial). If the highest released number is n, condensation leaves nothing at n:
    row and column vanish, the matrix stays symmetric, its energy is that of the
    uncondensed matrix with the released displacement chosen freely, and it stays
    semidefinite.  Missing: all released numbers but the last (C39_refuted). *)
Theorem C39_last_partial b k rel n : beam_K b = Some k -> last_released rel n -> 0 < k n n ->
  let k' := condensate rel k in
  (forall i, (i < 12)%nat -> k' i n = 0 /\ k' n i = 0)
  /\ (forall i j, (i < 12)%nat -> (j < 12)%nat -> k' i j = k' j i)
  /\ (forall x, quad12 k' x = quad12 k (fun i => if Nat.eqb i n then x i - rsum 12 (fun j => k n j * x j) / k n n else x i))
  /\ ((forall x, 0 <= quad12 k x) -> forall x, 0 <= quad12 k' x).
Proof. exact (c39_last_partial b k rel n). Qed.
Print Assumptions C39_last_partial.
Example C39_example : last_released [false;false;false;false;false;true;false;false;false;false;false;false] 5
  /\ exists k, beam_K demo_beam = Some k.
Proof.
  split.
  - unfold last_released. split; [lia|split; [reflexivity|]]. intros i H2.
    do 12 (destruct i as [|i]; [try lia; reflexivity|]). lia.
  - apply (c36_defined "b" nodeA nodeB (PSimple 1 0 1 1 1 1 1) demo_beam demo_beam_eq). cbn. lra.
Qed.

(** C39 (partial). Nor does the condensed load leave anything at n; where the equation at n holds,
    forces minus loads are unchanged everywhere; and a solution of the other condensed
    equations becomes one of the uncondensed equations by choosing the released
    displacement.  Missing: all released numbers but the last. *)
Theorem C39_load_partial b k rel n f : beam_K b = Some k -> last_released rel n -> 0 < k n n ->
  let k' := condensate rel k in let f' := condensate_f rel f k in
  nth n f' 0 = 0
  /\ (forall d, rsum 12 (fun j => k n j * d j) = nth n f 0 -> forall i, (i < 12)%nat ->
      rsum 12 (fun j => k' i j * d j) - nth i f' 0 = rsum 12 (fun j => k i j * d j) - nth i f 0)
  /\ (forall d, (forall i, (i < 12)%nat -> i <> n -> rsum 12 (fun j => k' i j * d j) = nth i f' 0) ->
      let e := fun i => if Nat.eqb i n then d i + (nth n f 0 - rsum 12 (fun j => k n j * d j)) / k n n else d i in
      forall i, (i < 12)%nat -> rsum 12 (fun j => k i j * e j) = nth i f 0).
Proof. exact (c39_load_partial b k rel n f). Qed.
Print Assumptions C39_load_partial.
Example C39_load_example : last_released [false;false;false;false;false;true;false;false;false;false;false;false] 5
  /\ exists k, beam_K demo_beam = Some k /\ k 5%nat 5%nat = 4.
Proof.
  split; [exact (proj1 C39_example)|]. destruct C39_example as [_ (k & HK)]. exists k. split; [exact HK|].
  rewrite (end_rotation _ _ _ _ _ _ demo_beam_eq HK).
  change (n_loc nodeA) with (V3 0 0 0). change (n_loc nodeB) with (V3 1 0 0). rewrite demo_dist. cbn. field.
Qed.

(** C39. With both ends hinged the first hinge still carries the stiffness 3 E I / l: each
    condensation step starts again from the uncondensed matrix. *)
Theorem C39_two_hinges name ni nj p b k rel :
  mk_beam name ni nj p = Some b -> beam_K b = Some k -> 0 < EI3 (props p) ->
  nth 5 rel false = true -> nth 11 rel false = true ->
  condensate rel k 5%nat 5%nat = 3 * EI3 (props p) / distance (n_loc ni) (n_loc nj).
Proof. exact (c39_two_hinges name ni nj p b k rel). Qed.
Print Assumptions C39_two_hinges.
Example C39_two_hinges_example : exists k, beam_K demo_beam = Some k /\ condensate (repeat true 12) k 5%nat 5%nat = 3.
Proof.
  destruct (proj2 (C36_defined "b" nodeA nodeB _ demo_beam demo_beam_eq) (proj2 C36_example)) as (k & Hk). exists k. split; [exact Hk|].
  rewrite (C39_two_hinges "b" nodeA nodeB _ demo_beam k (repeat true 12) demo_beam_eq Hk); [|cbn; lra|reflexivity|reflexivity].
  change (n_loc nodeA) with (V3 0 0 0). change (n_loc nodeB) with (V3 1 0 0). rewrite demo_dist. cbn. field.
Qed.

(** C39 is false: a released number keeps stiffness when a later one is released too. *)
Theorem C39_refuted : exists name ni nj p b k rel n, mk_beam name ni nj p = Some b /\ beam_K b = Some k
  /\ (n < 12)%nat /\ nth n rel false = true /\ k n n <> 0 /\ condensate rel k n n <> 0.
Proof. exact c39_refuted. Qed.
Print Assumptions C39_refuted.
(* existential: the witness is part of the statement *)

(** C40 (element). The lumped mass matrix gives rho A l for every translation, is symmetric,
    and is exactly half the mass at each end plus 1e-12 in each rotation. *)
Theorem C40_element name ni nj p b t d e : mk_beam name ni nj p = Some b ->
  form12 (beam_M b) (Ends t zero3 t zero3) (Ends t zero3 t zero3)
    = bp_rho p * bp_A p * distance (n_loc ni) (n_loc nj) * dot3 t t
  /\ (forall i j, beam_M b i j = beam_M b j i)
  /\ form12 (beam_M b) d e
     = bp_rho p * bp_A p * distance (n_loc ni) (n_loc nj) / 2 * (dot3 (d_i d) (d_i e) + dot3 (d_j d) (d_j e))
       + 1 / 1000000000000 * (dot3 (r_i d) (r_i e) + dot3 (r_j d) (r_j e)).
Proof. exact (c40_element name ni nj p b t d e). Qed.
Print Assumptions C40_element.
Example C40_element_example : form12 (beam_M demo_beam) (Ends (V3 1 2 3) zero3 (V3 1 2 3) zero3) (Ends (V3 1 2 3) zero3 (V3 1 2 3) zero3) = 14.
Proof.
  rewrite (proj1 (C40_element "b" nodeA nodeB _ demo_beam (V3 1 2 3) (Ends zero3 zero3 zero3 zero3) (Ends zero3 zero3 zero3 zero3) demo_beam_eq)).
  change (n_loc nodeA) with (V3 0 0 0). change (n_loc nodeB) with (V3 1 0 0). rewrite demo_dist. unfold dot3; cbn. ring.
Qed.

(** C40 (consistent variant, dead code behind the return). It is neither symmetric nor does
    it conserve the mass along the axis. *)
Theorem C40_consistent rho A J l : rho * A * l <> 0 -> A <> 0 ->
  consistent_M rho A J l 0%nat 6%nat <> consistent_M rho A J l 6%nat 0%nat
  /\ forall t, form12 (consistent_M rho A J l) (Ends t zero3 t zero3) (Ends t zero3 t zero3)
     = rho * A * l * (5/6 * vx t ^ 2 + vy t ^ 2 + vz t ^ 2).
Proof. exact (c40_consistent_refuted rho A J l). Qed.
Print Assumptions C40_consistent.
Example C40_consistent_example : let M := consistent_M 2 3 1 4 in M 0%nat 6%nat <> M 6%nat 0%nat.
Proof. cbv zeta. exact (proj1 (C40_consistent 2 3 1 4 ltac:(lra) ltac:(lra))). Qed.

(** C40 is false of the consistent variant. *)
Theorem C40_consistent_refuted : exists rho A J l, 0 < rho /\ 0 < A /\ 0 < J /\ 0 < l
  /\ consistent_M rho A J l 0%nat 6%nat <> consistent_M rho A J l 6%nat 0%nat
  /\ exists t, form12 (consistent_M rho A J l) (Ends t zero3 t zero3) (Ends t zero3 t zero3) <> rho * A * l * dot3 t t.
Proof. exact c40_consistent_exists. Qed.
Print Assumptions C40_consistent_refuted.
(* existential: the witness is part of the statement *)

(** C60. A simple beam given the constants of a section is accepted exactly when the beam with
    that section is, and has the same axes, mass matrix and stiffness matrix. *)
Theorem C60_agree n1 n2 ni nj s :
  (mk_beam n1 ni nj (PSection s) = None <-> mk_beam n2 ni nj (constants s) = None)
  /\ forall b1 b2, mk_beam n1 ni nj (PSection s) = Some b1 -> mk_beam n2 ni nj (constants s) = Some b2 ->
     beam_T b1 = beam_T b2 /\ beam_M b1 = beam_M b2 /\ beam_K b1 = beam_K b2.
Proof. exact (c60_agree n1 n2 ni nj s). Qed.
Print Assumptions C60_agree.
Example C60_example : constants (rectangle_section (Mat 1 2 (3/10) 0) 1 1) = PSimple 2 (3/10) (s_A (rectangle_section (Mat 1 2 (3/10) 0) 1 1))
   (s_I22 (rectangle_section (Mat 1 2 (3/10) 0) 1 1)) (s_I33 (rectangle_section (Mat 1 2 (3/10) 0) 1 1)) (s_J (rectangle_section (Mat 1 2 (3/10) 0) 1 1)) 1.
Proof. reflexivity. Qed.
