(** A sloping quadrilateral on three beams, at several places, solved with the kernels of the
    code: instances for C111.  (Examples only; nothing here is part of the model.) *)
From Coq Require Import Reals Lra Lia List String Arith Bool ZArith Sorting.Permutation.
From Verif Require Import Base BaseFacts Csys Sections Element Load FeModel Assembly Kernels Solver Post Api
  SpecApi ApiFacts WfFacts HidFacts ApiProofs1 ApiProofs5 LoadFacts SpecElim ElimFacts SpecGeom CsysFacts SpecBeam BeamFacts AsmFacts SpecShell ShellGeom ShellProofs SpecAsm AsmProofs
  AsmTotal AsmProofs2 SpecLoad LoadProofs AsmProofs3 SpecSolve AsmSolve SpecMass MassProofs ShellFacts SpecKernel KernelProofs2 KernelProofs3 KernelProofs5 Demo Demo2 SolveDemo SpecStatics StaticsProofs StaticsProofs2
  SpecTold ToldProofs SpecToldLoad ToldLoadProofs SpecSame SameProofs SameProofs2 StaticsMain StaticsDemo StaticsDemo2 StaticsDemo3 SolvableProofs GaussDemo SameCode.
Import ListNotations.
Local Open Scope string_scope.
Local Open Scope list_scope.
Local Open Scope R_scope.

Definition roof_ext : externals := eliminate_ext (code_kernels gauss2 tri_mid).
Definition roof_base (ty : string) (a b c d : vec3) (e : vec3) : list op :=
  [OpAddNode "A" (vx a) (vy a) (vz a); OpAddNode "B" (vx b) (vy b) (vz b); OpAddNode "C" (vx c) (vy c) (vz c); OpAddNode "D" (vx d) (vy d) (vz d);
   OpAddMaterial "steel" 7850 2 (3/10) 0; OpAddShellSection "s" "steel" 1 ty; OpSetRestraint "A" all_fixed;
   OpAddPattern "P"; OpSetNodalLoad "P" "C" (pull e); OpAddStatic "L"; OpAddCasePattern "L" "P" 2].
Definition rib (n p q : string) : op := OpAddSimpleBeam n p q 1 0 1 1 1 1 1.
Definition roof_top : list op := [rib "ab" "A" "B"; rib "ad" "A" "D"; rib "bc" "B" "C"; OpAddShell "q" "s" "A" "B" "C" (Some "D")].
Definition roof_ops (ty : string) (a b c d e : vec3) : list op := roof_base ty a b c d e ++ roof_top.
Definition roof_sec (ty : string) : ssection := Eval cbn in
  match dget "s" (f_ssecs (k_fem (w_core (fst (step no_solver (fst (step no_solver init (OpAddMaterial "steel" 7850 2 (3/10) 0))) (OpAddShellSection "s" "steel" 1 ty)))))) with
  | Some s => s | None => unit_sec end.
Definition roof_rib (n : string) (i j : node) (cs : csys) : beam := Beam n i j cs no_releases (PSimple 1 0 1 1 1 1 1).
Definition roof_heap (e : vec3) : list pattern := [Pattern "P" [("C", list6 (pull e))] [] [] []].
Definition roof_cases : dict lcase := [("L", one_case "L" "P" 0 2 [])].

Section Roof.
Variable ty : string.
Variables a b c d e : vec3.
Hypothesis AB : well_separated a b.
Hypothesis AD : well_separated a d.
Hypothesis BC : well_separated b c.
Hypothesis PQ : plane_quad a b c d.
Let ext := roof_ext.
Let ops := roof_ops ty a b c d e.
Let w := final ext init (ops ++ [OpAssemble]).

Definition roof_nodes : dict node := [("A", nd "A" a); ("B", nd "B" b); ("C", nd "C" c); ("D", nd "D" d)].
Record roofed (m : fem) (s : shell) : Prop := {
  ro_nodes : f_nodes m = roof_nodes;
  ro_rest : f_rest m = [("A", list6 all_fixed)];
  ro_beams : exists c1 c2 c3, f_beams m = [("ab", roof_rib "ab" (nd "A" a) (nd "B" b) c1); ("ad", roof_rib "ad" (nd "A" a) (nd "D" d) c2); ("bc", roof_rib "bc" (nd "B" b) (nd "C" c) c3)];
  ro_shells : f_shells m = [("q", s)];
  ro_quad : mk_quad "q" (roof_sec ty) (nd "A" a) (nd "B" b) (nd "C" c) (nd "D" d) = Some s }.
Lemma rib_mk n i j p q : well_separated p q -> exists cs, mk_beam n (nd i p) (nd j q) (PSimple 1 0 1 1 1 1 1) = Some (roof_rib n (nd i p) (nd j q) cs).
Proof.
  intros H. unfold mk_beam, roof_rib. unfold n_loc, nd, node_at. cbn [n_csys cs_O]. rewrite !vec_eta.
  destruct (line_csys p q) as [cs|] eqn:L; [exists cs; reflexivity|]. apply line_csys_none in L. contradiction.
Qed.
Lemma roof_core : exists m s, roofed m s /\ w_core (final ext init ops) = Core m [("P", 0%nat)] (roof_heap e) roof_cases.
Proof.
  unfold ops, roof_ops. rewrite final_app.
  assert (N : exists mats ssecs, dget "s" ssecs = Some (roof_sec ty) /\ final ext init (roof_base ty a b c d e)
    = World (Core (Fem roof_nodes [("A", list6 all_fixed)] mats [] ssecs [] [] [("A", 0%nat); ("B", 1%nat); ("C", 2%nat); ("D", 3%nat)] [] []) [("P", 0%nat)] (roof_heap e) roof_cases) []).
  { eexists. eexists. split; cycle 1.
    - unfold roof_base. rewrite final_cons. unfold after at 1. rewrite step_add_node. rewrite final_cons. unfold after at 1. rewrite step_add_node.
      rewrite final_cons. unfold after at 1. rewrite step_add_node. rewrite final_cons. unfold after at 1. rewrite step_add_node. reflexivity.
    - reflexivity. }
  destruct N as (mats & ssecs & HS & ->). unfold roof_top. rewrite !final_cons, final_nil.
  destruct (rib_mk "ab" "A" "B" a b AB) as (c1 & M1). destruct (rib_mk "ad" "A" "D" a d AD) as (c2 & M2). destruct (rib_mk "bc" "B" "C" b c BC) as (c3 & M3).
  set (w0 := World _ _).
  assert (E1 : after ext w0 (rib "ab" "A" "B") = World (Core (Fem roof_nodes [("A", list6 all_fixed)] mats [] ssecs [("ab", roof_rib "ab" (nd "A" a) (nd "B" b) c1)] [] [("A", 0%nat); ("B", 1%nat); ("C", 2%nat); ("D", 3%nat)] [("ab", 0%nat)] []) [("P", 0%nat)] (roof_heap e) roof_cases) []).
  { unfold w0, after, rib. cbn [step]. unfold model_add_simple_beam. cbn [w_core k_fem f_nodes roof_nodes dget String.eqb Ascii.eqb Bool.eqb bindO]. unfold model_put_beam. rewrite M1. reflexivity. }
  rewrite E1. set (w1 := World _ _).
  assert (E2 : after ext w1 (rib "ad" "A" "D") = World (Core (Fem roof_nodes [("A", list6 all_fixed)] mats [] ssecs [("ab", roof_rib "ab" (nd "A" a) (nd "B" b) c1); ("ad", roof_rib "ad" (nd "A" a) (nd "D" d) c2)] [] [("A", 0%nat); ("B", 1%nat); ("C", 2%nat); ("D", 3%nat)] [("ab", 0%nat); ("ad", 1%nat)] []) [("P", 0%nat)] (roof_heap e) roof_cases) []).
  { unfold w1, after, rib. cbn [step]. unfold model_add_simple_beam. cbn [w_core k_fem f_nodes roof_nodes dget String.eqb Ascii.eqb Bool.eqb bindO]. unfold model_put_beam. rewrite M2. reflexivity. }
  rewrite E2. set (w2 := World _ _).
  assert (E3 : after ext w2 (rib "bc" "B" "C") = World (Core (Fem roof_nodes [("A", list6 all_fixed)] mats [] ssecs [("ab", roof_rib "ab" (nd "A" a) (nd "B" b) c1); ("ad", roof_rib "ad" (nd "A" a) (nd "D" d) c2); ("bc", roof_rib "bc" (nd "B" b) (nd "C" c) c3)] [] [("A", 0%nat); ("B", 1%nat); ("C", 2%nat); ("D", 3%nat)] [("ab", 0%nat); ("ad", 1%nat); ("bc", 2%nat)] []) [("P", 0%nat)] (roof_heap e) roof_cases) []).
  { unfold w2, after, rib. cbn [step]. unfold model_add_simple_beam. cbn [w_core k_fem f_nodes roof_nodes dget String.eqb Ascii.eqb Bool.eqb bindO]. unfold model_put_beam. rewrite M3. reflexivity. }
  rewrite E3. set (w3 := World _ _).
  assert (TR : triangle a b c).
  { destruct PQ as (n & L & (k1 & K1 & N1) & _). unfold triangle. rewrite N1. intros Z.
    assert (X : k1 * length3 n = 0).
    { pose proof (f_equal length3 Z) as Y. unfold length3 in Y at 2. cbn [zero3 vx vy vz] in Y. replace (0 ^ 2 + 0 ^ 2 + 0 ^ 2) with 0 in Y by ring. rewrite sqrt_0 in Y.
      rewrite <- Y. unfold length3, vscale. cbn [vx vy vz]. replace ((k1 * vx n) ^ 2 + (k1 * vy n) ^ 2 + (k1 * vz n) ^ 2) with (k1 ^ 2 * (vx n ^ 2 + vy n ^ 2 + vz n ^ 2)) by ring.
      rewrite sqrt_mult by nra. rewrite sqrt_pow2 by lra. reflexivity. }
    rewrite L in X. lra. }
  destruct (c46_quad a b c d TR) as (cs & QC & _).
  assert (MQ : exists s, mk_quad "q" (roof_sec ty) (nd "A" a) (nd "B" b) (nd "C" c) (nd "D" d) = Some s).
  { unfold mk_quad, n_loc, nd, node_at. cbn [n_csys cs_O]. rewrite !vec_eta, QC. eexists. reflexivity. }
  destruct MQ as (s & MQ).
  eexists. exists s. split; cycle 1.
  - unfold w3, after. cbn [step]. unfold model_add_shell. cbn [w_core k_fem f_nodes f_ssecs]. rewrite HS. cbn [roof_nodes dget String.eqb Ascii.eqb Bool.eqb bindO].
    rewrite MQ. reflexivity.
  - constructor; try reflexivity; [|exact MQ]. exists c1, c2, c3. reflexivity.
Qed.
Lemma roof_fresh : never_readds_nodes ext ops.
Proof.
  assert (A1 : forall w n x y z, answer ext (after ext w (OpAddNode n x y z)) OpNodeNames = RNames (dkeys (dset n (node_at n x y z) (f_nodes (k_fem (w_core w)))))).
  { intros. unfold answer, after. rewrite step_add_node. reflexivity. }
  unfold never_readds_nodes, ops, roof_ops, roof_base, roof_top. cbn [app guarded fresh_node rib].
  split; [exists []; split; [reflexivity|intros []]|].
  split; [rewrite A1; eexists; split; [reflexivity|]; cbn; intuition discriminate|].
  split; [rewrite A1; unfold after at 1; rewrite step_add_node; eexists; split; [reflexivity|]; cbn; intuition discriminate|].
  split; [|cbn; tauto]. rewrite A1. unfold after at 1 2. rewrite !step_add_node. eexists. split; [reflexivity|]. cbn. intuition discriminate.
Qed.
Lemma roof_asm : exists asb s, read_asb w = Some asb /\ roofed (a_model asb) s /\ a_heap asb = roof_heap e /\ a_cases asb = roof_cases
  /\ w_core w = Core (a_model asb) [("P", 0%nat)] (roof_heap e) roof_cases.
Proof.
  destruct (assembled_now ext ops (told_guard _ _ roof_fresh)) as (_ & asb & Ha & Em & Eh & Ec & _). fold w in Ha, Em, Eh, Ec.
  destruct roof_core as (m & s & RO & E). rewrite <- (core_assembled ext ops) in E. fold w in E. exists asb, s. split; [exact Ha|].
  rewrite E in Em, Eh, Ec. cbn [k_fem k_heap k_cases] in Em, Eh, Ec. rewrite Em. auto.
Qed.
Lemma roof_flag k j : flag (governing ext w "L") k j = match k with "A" => Nat.ltb j 6 | _ => false end.
Proof.
  destruct roof_asm as (asb & s & _ & RO & _ & _ & E).
  assert (T : answer ext w (OpNodeRestraints (Some "L")) = RFlags []) by (unfold answer; cbn [step]; rewrite E; reflexivity).
  assert (G : answer ext w (OpNodeRestraints None) = RFlags [("A", list6 all_fixed)]).
  { unfold answer; cbn [step]; rewrite E. unfold ret. cbn [snd k_fem]. rewrite (ro_rest _ _ RO). reflexivity. }
  unfold governing. rewrite T, G. unfold flag, entry. rewrite lookup_dget. cbn [dget]. destruct (String.eqb_spec k "A") as [->|N].
  - do 6 (destruct j as [|j]; [reflexivity|]). destruct j; reflexivity.
  - destruct k as [|[[] [] [] [] [] [] [] []] [|]]; try reflexivity. congruence.
Qed.
Lemma roof_table : answer ext w (OpNodeRestraints (Some "L")) = RFlags [].
Proof. destruct roof_asm as (asb & s & _ & RO & _ & _ & E). unfold answer; cbn [step]; rewrite E; reflexivity. Qed.
Lemma roof_symmetric : symmetric_elements ext w.
Proof. intros m _. right. apply code_symmetric. Qed.
Lemma roof_admissible m s : roofed m s -> shell_admissible s.
Proof.
  intros RO. pose proof (ro_quad _ _ RO) as Q. destruct (mk_quad_some _ _ _ _ _ _ _ Q) as (N & S). unfold mk_quad in Q.
  destruct (quad_csys _ _ _ _) as [cs|] eqn:QC; [|discriminate]. apply some_inj in Q. subst s. cbn [sh_sec sh_nodes] in *. unfold shell_admissible. cbn [sh_sec sh_nodes sh_area List.length].
  split; [cbn; lra|]. split; [cbn; lra|]. split; [cbn; lra|]. split; [discriminate|]. intros _.
  unfold n_loc, nd, node_at in QC. cbn [n_csys cs_O] in QC. rewrite !vec_eta in QC.
  pose proof (quad_axes_convex a b c d cs PQ QC) as CV. unfold in_axes. cbn [sh_csys sh_nodes flat_map]. unfold coords in CV. cbn [flat_map] in CV.
  unfold n_loc, nd, node_at. cbn [n_csys cs_O]. rewrite !vec_eta. exact CV.
Qed.
Lemma roof_positive m s : roofed m s -> forall k bm, In (k, bm) (f_beams m) -> props_pos (b_prop bm).
Proof. intros RO k bm H. destruct (ro_beams _ _ RO) as (c1 & c2 & c3 & E). rewrite E in H. cbn in H. destruct H as [H|[H|[H|[]]]]; injection H as <- <-; cbn; lra. Qed.
Lemma roof_elastic : elastic ext w.
Proof.
  destruct roof_asm as (asb & s & Ha & RO & _). intros m E. unfold assembled_model in E. rewrite Ha in E. apply some_inj in E. subst m. split.
  - intros k bm H. pose proof (roof_positive _ _ RO k bm H) as P. unfold props_pos in P. unfold props_nonneg. destruct (b_prop bm); repeat split; lra.
  - right. split; [apply code_psd; [exact gauss2_inside|apply tri_mid_ok]|]. rewrite (ro_shells _ _ RO). intros k s0 [H|[]]. injection H as <- <-. exact (roof_admissible _ _ RO).
Qed.
Lemma roof_stable : stable ext w "L".
Proof.
  destruct roof_asm as (asb & s & Ha & RO & _). assert (Hm : assembled_model w = Some (a_model asb)) by (unfold assembled_model; rewrite Ha; reflexivity).
  assert (MU : forall k b, In (k, b) (f_beams (a_model asb)) -> 1 + poisson (b_prop b) <> 0).
  { intros k bm I. pose proof (roof_positive _ _ RO k bm I) as P. unfold props_pos in P. destruct (b_prop bm); cbn; lra. }
  destruct (c21_defined ext (ops ++ [OpAssemble]) w _ eq_refl (told_guard _ _ roof_fresh) Hm MU) as (K & HK).
  apply (m107_clamped ext ops "L" _ roof_fresh Hm); [fold w; rewrite HK; discriminate|exact (roof_positive _ _ RO)| |].
  - destruct (roof_elastic _ Hm) as [_ H]. exact H.
  - fold w. destruct (ro_beams _ _ RO) as (c1 & c2 & c3 & EB). intros k n H. rewrite (ro_nodes _ _ RO) in H.
    assert (CA : carried ext w "L" (a_model asb) "A") by (apply carried_clamp; intros j Hj; rewrite roof_flag; apply Nat.ltb_lt; exact Hj).
    assert (CB : carried ext w "L" (a_model asb) "B").
    { apply (carried_end ext w "L" _ "ab" (roof_rib "ab" (nd "A" a) (nd "B" b) c1)); [rewrite EB; cbn; auto|exact CA]. }
    assert (CD : carried ext w "L" (a_model asb) "D").
    { apply (carried_end ext w "L" _ "ad" (roof_rib "ad" (nd "A" a) (nd "D" d) c2)); [rewrite EB; cbn; auto|exact CA]. }
    assert (CC : carried ext w "L" (a_model asb) "C").
    { apply (carried_end ext w "L" _ "bc" (roof_rib "bc" (nd "B" b) (nd "C" c) c3)); [rewrite EB; cbn; auto|exact CB]. }
    cbn in H. destruct H as [H|[H|[H|[H|[]]]]]; injection H as <- _; assumption.
Qed.
Lemma roof_solved : solved ext w "L".
Proof.
  constructor; [|apply eliminate_exact|fold w; rewrite roof_table; left; reflexivity].
  apply (m113_solved ext ops "L" [] roof_fresh (eliminate_exact _) (eliminate_able _) roof_symmetric roof_elastic roof_stable roof_table).
  - intros d0 k E I. injection E as <-. destruct I.
  - left. reflexivity.
Qed.
Lemma roof_told : exists t l m s, describes ext ops t l /\ roofed m s /\ holds m t /\ holds_loads (roof_heap e) roof_cases l.
Proof.
  destruct roof_asm as (asb & s & Ha & RO & Eh & Ec & _). assert (Hm : assembled_model w = Some (a_model asb)) by (unfold assembled_model; rewrite Ha; reflexivity).
  destruct (c78_built ext _ _ Hm) as (t & T & HO). destruct (c79_built ext _ asb Ha) as (l & L & HL). rewrite Eh, Ec in HL. exists t, l, (a_model asb), s. unfold describes. auto.
Qed.
Lemma roof_there k : In k ["A"; "B"; "C"; "D"] -> answer ext w (OpNodeLocation k) <> RNone.
Proof.
  intros H. destruct roof_asm as (asb & s & _ & RO & _ & _ & E). unfold answer. cbn [step snd]. rewrite E. unfold model_node_location. cbn [k_fem].
  rewrite (ro_nodes _ _ RO). cbn in H. destruct H as [<-|[<-|[<-|[<-|[]]]]]; discriminate.
Qed.
Lemma roof_round : round_supports ext w "L".
Proof. intros k. rewrite !roof_flag. split; reflexivity. Qed.
Lemma roof_not_steep m s t : roofed m s -> holds m t -> not_steep a b -> not_steep a d -> not_steep b c -> beams_not_steep t.
Proof.
  intros RO HO N1 N2 N3 k i j p HB pa pb HA HBB. rewrite (told_beam _ _ _ HO) in HB. rewrite (told_node _ _ _ HO) in HA. rewrite (told_node _ _ _ HO) in HBB. rewrite (ro_nodes _ _ RO) in HA, HBB.
  destruct (ro_beams _ _ RO) as (c1 & c2 & c3 & EB). rewrite EB in HB. cbn [dget] in HB.
  destruct (String.eqb k "ab"); [|destruct (String.eqb k "ad"); [|destruct (String.eqb k "bc"); [|discriminate]]];
  cbn [option_map] in HB; apply some_inj in HB; injection HB as <- <- _; cbn [roof_nodes roof_rib b_ni b_nj n_name nd node_at dget String.eqb Ascii.eqb Bool.eqb option_map fst] in HA, HBB;
  unfold n_loc in HA, HBB; cbn [nd node_at n_csys cs_O] in HA, HBB; rewrite vec_eta in HA; rewrite vec_eta in HBB; apply some_inj in HA; apply some_inj in HBB; subst; assumption.
Qed.
Lemma roof_quads m s t : roofed m s -> holds m t -> not_level a b c \/ ty = "membrane" -> shells_turn (code_kernels gauss2 tri_mid) t.
Proof.
  intros RO HO NL. destruct (mk_quad_some _ _ _ _ _ _ _ (ro_quad _ _ RO)) as (N & S).
  intros k ns sec H. rewrite (told_shell _ _ _ HO), (ro_shells _ _ RO) in H. cbn [dget] in H. destruct (String.eqb k "q"); [|discriminate].
  cbn [option_map] in H. rewrite N, S in H. apply some_inj in H. pose proof (f_equal fst H) as H1. pose proof (f_equal snd H) as H2. cbn [fst snd] in H1, H2. subst ns sec.
  split; [reflexivity|]. destruct NL as [NL|NL]; [left|right; split; [exact NL|apply code_direction_blind]].
  intros p q r rest M. cbn [map n_name nd node_at] in M. rewrite !(told_node _ _ _ HO), (ro_nodes _ _ RO) in M.
  cbn [roof_nodes dget String.eqb Ascii.eqb Bool.eqb option_map fst] in M. unfold n_loc, nd, node_at in M. cbn [n_csys cs_O] in M. rewrite !vec_eta in M. injection M as <- <- <- _. exact NL.
Qed.
Lemma roof_case l : holds_loads (roof_heap e) roof_cases l ->
  exists o, l_case l "L" = Some o /\ (forall k, o_uses o k = if String.eqb k "P" then Some (0%nat, 2) else None) /\ (forall k, o_rest o k = None)
  /\ forall k, s_node (l_sheet l 0) k = (if String.eqb k "C" then Some (pull e) else None) /\ s_line (l_sheet l 0) k = None /\ s_point (l_sheet l 0) k = None.
Proof.
  intros (_ & HS & HC). specialize (HC "L"). cbn [roof_cases dget String.eqb Ascii.eqb Bool.eqb] in HC. destruct (l_case l "L") as [o|]; [|contradiction].
  exists o. split; [reflexivity|]. destruct HC as (_ & P & F & R0). split; [|split].
  - intros k. specialize (P k). specialize (F k). cbn [one_case c_pats c_factor dget] in P, F. destruct (String.eqb k "P"); destruct (o_uses o k) as [[i f]|]; cbn in *; congruence.
  - intros k. specialize (R0 k). cbn in R0. symmetry in R0. apply map_none in R0. exact R0.
  - intros k. destruct (HS 0%nat _ eq_refl) as (A & B & C). specialize (A k). specialize (B k). specialize (C k). cbn [p_nodal p_dist p_conc dget] in A, B, C.
    symmetry in B, C. apply map_none in B, C. repeat split; auto. destruct (String.eqb k "C"); [apply as_list_some; symmetry; exact A|symmetry in A; apply map_none in A; exact A].
Qed.
End Roof.

(** ** A plate of four corners at home, shifted, and turned and shifted *)
Definition place (c s : R) (d p : vec3) : vec3 := vadd d (turn_z c s p).
Definition snow : vec3 := V3 1 2 (-5).
Lemma turn_normal c s d p q r : c * c + s * s = 1 -> normal3 (place c s d p) (place c s d q) (place c s d r) = turn_z c s (normal3 p q r).
Proof. intros U. unfold normal3, place. rewrite !turn_sub. apply turn_cross, U. Qed.
Lemma turn_length c s v : c * c + s * s = 1 -> length3 (turn_z c s v) = length3 v.
Proof.
  intros U. unfold length3, turn_z. cbn [vx vy vz]. f_equal. replace ((c * vx v - s * vy v) ^ 2 + (s * vx v + c * vy v) ^ 2) with ((c * c + s * s) * (vx v ^ 2 + vy v ^ 2)) by ring.
  rewrite U. ring.
Qed.
Lemma turn_scale k c s v : turn_z c s (vscale k v) = vscale k (turn_z c s v).
Proof. apply vec3_eq; unfold turn_z, vscale; cbn [vx vy vz]; ring. Qed.
Lemma plane_place c s d p q u v : c * c + s * s = 1 -> plane_quad p q u v -> plane_quad (place c s d p) (place c s d q) (place c s d u) (place c s d v).
Proof.
  intros U (n & L & (k1 & P1 & E1) & (k2 & P2 & E2) & (k3 & P3 & E3) & (k4 & P4 & E4)). exists (turn_z c s n). rewrite !(turn_normal c s d _ _ _ U), (turn_length _ _ _ U).
  split; [exact L|]. repeat split; [exists k1|exists k2|exists k3|exists k4]; (split; [assumption|]); rewrite <- turn_scale; f_equal; assumption.
Qed.
Lemma roof_alike ty a b e0 f c s d t t' m m' sh sh' : roofed ty a b e0 f m sh -> holds m t ->
  roofed ty (place c s d a) (place c s d b) (place c s d e0) (place c s d f) m' sh' -> holds m' t' -> alike c s d t t'.
Proof.
  intros RO HO RO' HO'. destruct (mk_quad_some _ _ _ _ _ _ _ (ro_quad _ _ _ _ _ _ _ RO)) as (N & S). destruct (mk_quad_some _ _ _ _ _ _ _ (ro_quad _ _ _ _ _ _ _ RO')) as (N' & S').
  constructor; intros k.
  - rewrite (told_node _ _ _ HO), (told_node _ _ _ HO'), (ro_nodes _ _ _ _ _ _ _ RO), (ro_nodes _ _ _ _ _ _ _ RO'). unfold roof_nodes. cbn [dget].
    destruct (String.eqb k "A"); [|destruct (String.eqb k "B"); [|destruct (String.eqb k "C"); [|destruct (String.eqb k "D"); [|reflexivity]]]];
    cbn [option_map fst]; f_equal.
  - rewrite (told_rest _ _ _ HO), (told_rest _ _ _ HO'), (ro_rest _ _ _ _ _ _ _ RO), (ro_rest _ _ _ _ _ _ _ RO'). reflexivity.
  - rewrite (told_beam _ _ _ HO), (told_beam _ _ _ HO'). destruct (ro_beams _ _ _ _ _ _ _ RO) as (c1 & c2 & c3 & ->). destruct (ro_beams _ _ _ _ _ _ _ RO') as (c4 & c5 & c6 & ->).
    cbn [dget]. destruct (String.eqb k "ab"); [|destruct (String.eqb k "ad"); [|destruct (String.eqb k "bc"); [|reflexivity]]]; reflexivity.
  - rewrite (told_shell _ _ _ HO), (told_shell _ _ _ HO'), (ro_shells _ _ _ _ _ _ _ RO), (ro_shells _ _ _ _ _ _ _ RO'). cbn [dget]. destruct (String.eqb k "q"); [|reflexivity].
    cbn [option_map]. rewrite N, N', S, S'. reflexivity.
Qed.
Lemma roof_alike_case c s e l l' : holds_loads (roof_heap e) roof_cases l -> holds_loads (roof_heap (turn_z c s e)) roof_cases l' -> alike_case c s l l' "L".
Proof.
  intros HL HL'. destruct (roof_case _ _ HL) as (o & E & UO & RO & SH). destruct (roof_case _ _ HL') as (o' & E' & UO' & RO' & SH').
  unfold alike_case. rewrite E, E'. split.
  - intros k. rewrite UO, UO'. destruct (String.eqb k "P"); [|exact I]. split; [reflexivity|].
    constructor; intros k0; destruct (SH k0) as (A & B & C); destruct (SH' k0) as (A' & B' & C'); [|congruence|congruence].
    rewrite A, A'. destruct (String.eqb k0 "C"); [|reflexivity]. cbn [option_map]. f_equal. unfold pull, as_list, turn_six, turn_z. cbn [nth vx vy vz].
    repeat f_equal; ring.
  - intros k. rewrite RO, RO'. reflexivity.
Qed.
Lemma roof_same_case e l l' : holds_loads (roof_heap e) roof_cases l -> holds_loads (roof_heap e) roof_cases l' -> same_case l l' "L".
Proof.
  intros HL HL'. destruct (roof_case _ _ HL) as (o & E & UO & RO & SH). destruct (roof_case _ _ HL') as (o' & E' & UO' & RO' & SH').
  unfold same_case. rewrite E, E'. split.
  - intros k. rewrite UO, UO'. destruct (String.eqb k "P"); [|exact I]. split; [reflexivity|].
    constructor; intros k0; destruct (SH k0) as (A & B & C); destruct (SH' k0) as (A' & B' & C'); congruence.
  - intros k. rewrite RO, RO'. reflexivity.
Qed.
Lemma off_x p q : 1/4 <= vx p - vx q \/ 1/4 <= vx q - vx p -> 1/4 <= plan_offset p q.
Proof. intros H. unfold plan_offset. eapply Rle_trans; [|apply Rmax_l]. unfold Rabs. destruct (Rcase_abs _); lra. Qed.
Lemma off_y p q : 1/4 <= vy p - vy q \/ 1/4 <= vy q - vy p -> 1/4 <= plan_offset p q.
Proof. intros H. unfold plan_offset. eapply Rle_trans; [|apply Rmax_r]. unfold Rabs. destruct (Rcase_abs _); lra. Qed.
Lemma off_sep p q : 1/4 <= plan_offset p q -> well_separated p q /\ not_steep p q.
Proof. intros H. split; [left|unfold not_steep]; lra. Qed.
Lemma place_none p : place 1 0 zero3 p = p.
Proof. apply vec3_eq; cbn; ring. Qed.
Lemma U10 : 1 * 1 + 0 * 0 = 1. Proof. ring. Qed.
(** The corners and the type of the section. *)
Record slab := Slab { sl_type : string; sl_a : vec3; sl_b : vec3; sl_c : vec3; sl_d : vec3 }.
Definition roof_at (r : slab) (c s : R) (d : vec3) : list op :=
  roof_ops (sl_type r) (place c s d (sl_a r)) (place c s d (sl_b r)) (place c s d (sl_c r)) (place c s d (sl_d r)) (turn_z c s snow).
Definition ribs_ok (r : slab) (c s : R) (d : vec3) : Prop :=
  1/4 <= plan_offset (place c s d (sl_a r)) (place c s d (sl_b r)) /\ 1/4 <= plan_offset (place c s d (sl_a r)) (place c s d (sl_d r)) /\ 1/4 <= plan_offset (place c s d (sl_b r)) (place c s d (sl_c r)).
Definition roofed_at (r : slab) (c s : R) (d : vec3) : fem -> shell -> Prop :=
  roofed (sl_type r) (place c s d (sl_a r)) (place c s d (sl_b r)) (place c s d (sl_c r)) (place c s d (sl_d r)).
(** The slab at any place (home is [roof_at r 1 0 zero3]). *)
Section RoofAt.
Variable r : slab.
Hypothesis PR : plane_quad (sl_a r) (sl_b r) (sl_c r) (sl_d r).
Variables (c s : R) (d : vec3).
Hypothesis U : c * c + s * s = 1.
Hypothesis R0 : ribs_ok r c s d.
Let w := final roof_ext init (roof_at r c s d ++ [OpAssemble]).
Let AB := proj1 (off_sep _ _ (proj1 R0)).
Let AD := proj1 (off_sep _ _ (proj1 (proj2 R0))).
Let BC := proj1 (off_sep _ _ (proj2 (proj2 R0))).
Let PQ := plane_place c s d _ _ _ _ U PR.
Lemma roof_at_solved : solved roof_ext w "L".
Proof. exact (roof_solved _ _ _ _ _ _ AB AD BC PQ). Qed.
Lemma roof_at_stable : stable roof_ext w "L".
Proof. exact (roof_stable _ _ _ _ _ _ AB AD BC PQ). Qed.
Lemma roof_at_round : round_supports roof_ext w "L".
Proof. exact (roof_round _ _ _ _ _ _ AB AD BC PQ). Qed.
Lemma roof_at_there k : In k ["A"; "B"; "C"; "D"] -> answer roof_ext w (OpNodeLocation k) <> RNone.
Proof. exact (roof_there _ _ _ _ _ _ AB AD BC PQ k). Qed.
Lemma roof_at_told : exists t l m sh, describes roof_ext (roof_at r c s d) t l /\ roofed_at r c s d m sh /\ holds m t
  /\ holds_loads (roof_heap (turn_z c s snow)) roof_cases l.
Proof. exact (roof_told _ _ _ _ _ _ AB AD BC PQ). Qed.
Lemma roof_at_symmetric : symmetric_elements roof_ext w.
Proof. exact (roof_symmetric _ _ _ _ _ _). Qed.
Lemma roof_at_not_steep m sh t : roofed_at r c s d m sh -> holds m t -> beams_not_steep t.
Proof.
  intros RO HO. exact (roof_not_steep _ _ _ _ _ _ _ _ RO HO (proj2 (off_sep _ _ (proj1 R0))) (proj2 (off_sep _ _ (proj1 (proj2 R0)))) (proj2 (off_sep _ _ (proj2 (proj2 R0))))).
Qed.
End RoofAt.
(** A sloping roof and a level floor. *)
Definition roof : slab := Slab "shell" (V3 0 0 0) (V3 1 0 0) (V3 1 (3/5) (4/5)) (V3 0 (3/5) (4/5)).
Definition floor_slab : slab := Slab "membrane" (V3 0 0 0) (V3 1 0 0) (V3 1 1 0) (V3 0 1 0).
Lemma roof_flat : plane_quad (sl_a roof) (sl_b roof) (sl_c roof) (sl_d roof).
Proof.
  exists (V3 0 (- (4/5)) (3/5)). split; [unfold length3; cbn [vx vy vz]; replace (0 ^ 2 + (- (4 / 5)) ^ 2 + (3 / 5) ^ 2) with 1 by lra; apply sqrt_1|].
  repeat split; exists 1; (split; [lra|]); apply vec3_eq; unfold normal3, cross, vsub, vscale, roof; cbn [sl_a sl_b sl_c sl_d vx vy vz]; lra.
Qed.
Lemma floor_flat : plane_quad (sl_a floor_slab) (sl_b floor_slab) (sl_c floor_slab) (sl_d floor_slab).
Proof.
  exists (V3 0 0 1). split; [unfold length3; cbn [vx vy vz]; replace (0 ^ 2 + 0 ^ 2 + 1 ^ 2) with 1 by lra; apply sqrt_1|].
  repeat split; exists 1; (split; [lra|]); apply vec3_eq; unfold normal3, cross, vsub, vscale, floor_slab; cbn [sl_a sl_b sl_c sl_d vx vy vz]; lra.
Qed.
Lemma ribs_straight d : ribs_ok roof 1 0 d /\ ribs_ok floor_slab 1 0 d.
Proof.
  unfold ribs_ok, place, turn_z, vadd, roof, floor_slab. cbn [sl_a sl_b sl_c sl_d]. split; (split; [|split]; [apply off_x|apply off_y|apply off_y]; cbn [vx vy vz]; lra).
Qed.
Lemma ribs_turned d : ribs_ok roof (3/5) (4/5) d /\ ribs_ok floor_slab (3/5) (4/5) d.
Proof.
  unfold ribs_ok, place, turn_z, vadd, roof, floor_slab. cbn [sl_a sl_b sl_c sl_d]. split; (split; [|split]; apply off_x; cbn [vx vy vz]; lra).
Qed.
Lemma sloping : not_level (sl_a roof) (sl_b roof) (sl_c roof).
Proof.
  cbn [roof sl_a sl_b sl_c]. set (a := V3 0 0 0). set (b := V3 1 0 0). set (e := V3 1 (3/5) (4/5)).
  assert (E : unit3 (cross (vsub a b) (vsub b e)) = V3 0 (- (4/5)) (3/5)).
  { assert (C : cross (vsub a b) (vsub b e) = V3 0 (- (4/5)) (3/5)) by (apply vec3_eq; unfold cross, vsub, a, b, e; cbn [vx vy vz]; lra).
    rewrite C. unfold unit3. cbn [vx vy vz]. replace (0 ^ 2 + (- (4 / 5)) ^ 2 + (3 / 5) ^ 2) with 1 by lra. rewrite sqrt_1, Rinv_1. apply vec3_eq; cbn; ring. }
  unfold not_level. rewrite E.
  assert (H : forall v, 1 <= dot3 v v * 4 -> 1/1000000000 <= norm v).
  { intros v H. unfold norm. rewrite <- (sqrt_square (1/1000000000)) by lra. apply sqrt_le_1_alt. lra. }
  split; apply H; unfold dot3, vsub, vadd; cbn [vx vy vz]; lra.
Qed.
(** The floor is level. *)
Lemma lying : ~ not_level (sl_a floor_slab) (sl_b floor_slab) (sl_c floor_slab).
Proof.
  cbn [floor_slab sl_a sl_b sl_c]. set (a := V3 0 0 0). set (b := V3 1 0 0). set (e := V3 1 1 0).
  assert (E : unit3 (cross (vsub a b) (vsub b e)) = V3 0 0 1).
  { assert (C : cross (vsub a b) (vsub b e) = V3 0 0 1) by (apply vec3_eq; unfold cross, vsub, a, b, e; cbn [vx vy vz]; lra).
    rewrite C. unfold unit3. cbn [vx vy vz]. replace (0 ^ 2 + 0 ^ 2 + 1 ^ 2) with 1 by lra. rewrite sqrt_1, Rinv_1. apply vec3_eq; cbn; ring. }
  unfold not_level. rewrite E. intros [H _]. unfold norm, dot3, vsub in H. cbn [vx vy vz] in H.
  replace ((0 - 0) * (0 - 0) + (0 - 0) * (0 - 0) + (1 - 1) * (1 - 1)) with 0 in H by ring. rewrite sqrt_0 in H. lra.
Qed.
Lemma turn_home : turn_z 1 0 snow = snow.
Proof. apply vec3_eq; cbn; ring. Qed.
