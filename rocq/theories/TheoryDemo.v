(** The cantilever of CutDemo by the textbook (C119).
    (Examples only; nothing here is part of the model.) *)
From Coq Require Import Reals Lra Lia List String Arith Bool ZArith Sorting.Permutation.
From Verif Require Import Base BaseFacts Csys Sections Element Load FeModel Assembly Solver Post Api
  SpecApi ApiFacts WfFacts HidFacts LoadFacts SpecElim SpecGeom CsysFacts SpecBeam BeamFacts AsmFacts SpecAsm AsmProofs
  SpecLoad LoadProofs SpecSolve AsmSolve ElimFacts ApiProofs1 ApiProofs2 AsmTotal AsmProofs2 AsmProofs3 Demo SolveDemo SpecStatics StaticsProofs SpecSame SameProofs StaticsMain ToldDemo StaticsDemo StaticsDemo2 StaticsDemo3 GaussDemo CutFacts CutDemo
  SpecTheory TheoryFacts TheoryProofs.
Import ListNotations.
Local Open Scope string_scope.
Local Open Scope list_scope.
Local Open Scope R_scope.

Section Tip.
Variable ext : externals.
Let w := final ext init (canti_ops false ++ [OpAssemble]).
Let m := canti_fem false true.
(** Deflection and slope at the free end; the twelve displacements; what the nodes exert. *)
Definition tip_deflection : R := 14151 / 10240.
Definition tip_slope : R := 89 / 48 + 27 / 256.
Definition tip_values (q : nat) : R := nth q [0; 0; 0; 0; 0; 0; 0; 0; tip_deflection; 0; - tip_slope; 0] 0.
Definition tip_acts (_ : string) : ends := Ends (V3 0 (-28) 0) (V3 0 0 (- (229 / 12))) (V3 0 10 0) zero3.
Definition tip_load : point_load := PointLoad (5 / 8 * 1) (vscale 2 (V3 0 3 0)) (vscale 2 (V3 0 0 0)).
Definition tip_field : field := Field (Poly 0 0 0 0) (Poly 0 0 (229 / 96) (- (7 / 6))) (Poly 0 0 0 0) (Poly 0 0 0 0).
Definition tip_stiff : stiff := Stiff (4 * 1) (4 / (2 * (1 + 0)) * 1) (4 * 1) (4 * 1).
Lemma tip_applied : applied w "C" = [(2, Pattern "P" [("B", [0; 0; 5; 0; 0; 0])] [] [("k", [0; 8; 0; 0; 0; 0; 0; 4; 0; 0; 0; 0])] [("k", [0; 3; 0; 0; 0; 0; 5/8])])].
Proof.
  destruct (canti_asm ext false) as (a & Ha & _ & Eh & Ec & _). fold w in Ha. unfold applied. rewrite Ha, Eh, Ec. reflexivity.
Qed.
Lemma tip_on_member : on_members w "C" m.
Proof.
  intros k b fp v Hb. rewrite tip_applied. intros [<-|[]]. cbn [snd p_conc]. destruct Hb as [E|[]]. injection E as <- _.
  intros E. injection E as <-. cbn. lra.
Qed.
Lemma tip_line : case_line w "C" "k" 1 = LineLoad (ramp (2 * 0 + 0) (2 * 0 + 0) 1) (ramp (2 * 8 + 0) (2 * 4 + 0) 1) (ramp (2 * 0 + 0) (2 * 0 + 0) 1) (ramp (2 * 0 + 0) (2 * 0 + 0) 1).
Proof. unfold case_line, entry_sum. rewrite tip_applied. reflexivity. Qed.
Lemma tip_points : case_points w "C" "k" 1 = [tip_load].
Proof. unfold case_points. rewrite tip_applied. reflexivity. Qed.
Lemma tip_bar : bar_theory tip_stiff 1 (case_line w "C" "k" 1) (case_points w "C" "k" 1)
  (Ends zero3 zero3 (V3 0 tip_deflection 0) (V3 0 0 tip_slope)) (tip_acts "k").
Proof.
  rewrite tip_line, tip_points. assert (SP : stiff_pos tip_stiff) by (unfold stiff_pos, tip_stiff; cbn; lra).
  set (f := shape_add (under_ramps tip_stiff 1 (2 * 0 + 0) (2 * 0 + 0) (2 * 8 + 0) (2 * 4 + 0) (2 * 0 + 0) (2 * 0 + 0) (2 * 0 + 0) (2 * 0 + 0)) (of_field tip_field)).
  assert (O : forall x, obeys tip_stiff (LineLoad (ramp (2 * 0 + 0) (2 * 0 + 0) 1) (ramp (2 * 8 + 0) (2 * 4 + 0) 1) (ramp (2 * 0 + 0) (2 * 0 + 0) 1) (ramp (2 * 0 + 0) (2 * 0 + 0) 1)) f x).
  { intros x. apply obeys_add; [apply under_ramps_obeys; [exact SP|lra]|]. apply of_field_obeys. repeat split. }
  exists [tip_load], f, (shape_add f (of_field (kink tip_stiff tip_load))).
  split; [reflexivity|]. split.
  - cbn [reaches tip_load pt_x]. split; [lra|]. split; [auto|]. eexists. split; [apply kink_jumps, SP|]. split; [reflexivity|]. split; [lra|].
    intros x _. apply obeys_add; [apply O|apply of_field_obeys, kink_beam].
  - unfold section_d, section_r, inner_force, inner_moment, tip_acts, f, tip_deflection, tip_slope, zero3, vscale;
      cbn [su0 su1 sv0 sv1 sv2 sv3 sw0 sw1 sw2 sw3 st0 st1 shape_add of_field under_ramps vx vy vz EA EI2 EI3 GJ tip_stiff f_u f_v f_w f_t tip_field kink tip_load pt_x pt_F pt_M].
    unfold bent, pulled, quint, peval, pder, kink_poly; cbn [c0 c1 c2 c3 vx vy vz vscale].
    split; f_equal; apply vec3_eq; unfold vscale; cbn [vx vy vz]; field.
Qed.
Lemma tip_theory : frame_theory ext w "C" m tip_values tip_acts.
Proof.
  split.
  - intros q Hq (l & k & i & j & E & Hk & Hj & -> & F).
    assert (L : answer ext w OpNodeNames = RNames ["A"; "B"]).
    { destruct (canti_asm ext false) as (a & _ & _ & _ & _ & Ew). fold w in Ew. unfold answer. cbn [step snd]. rewrite Ew. reflexivity. }
    rewrite L in E. injection E as <-. destruct i as [|[|i]]; [| |destruct i; discriminate].
    + unfold tip_values. do 6 (destruct j as [|j]; [reflexivity|]). lia.
    + injection Hk as <-. unfold governing, w in F. rewrite canti_table, canti_global in F. cbn [dget canti_cases String.eqb Ascii.eqb Bool.eqb c_rest one_case] in F. unfold flag, entry in F. try rewrite lookup_dget in F. cbn in F. discriminate.
  - intros k b [E|[]]. injection E as <- <-. cbv zeta. cbn [rod b_ni b_nj b_prop n_loc nd n_csys]. change (n_loc (nd "A" p0)) with p0. change (n_loc (nd "B" p1)) with p1.
    rewrite dist_p. unfold p0, p1. rewrite demo_x, demo_y, demo_z.
    assert (EQ : ends_along (V3 1 0 0) (V3 0 0 1) (V3 0 (-1) 0) (beam_ends m (rod "k" "A" (V3 0 0 0) "B" (V3 1 0 0)) tip_values)
      = Ends zero3 zero3 (V3 0 tip_deflection 0) (V3 0 0 tip_slope)).
    { unfold ends_along, beam_ends, ends_at, disp_at, rot_at, along, dot3, zero3. cbn -[Rmult Rplus Ropp Rdiv tip_deflection tip_slope].
      unfold dot3; cbn [vx vy vz]. f_equal; apply vec3_eq; cbn [vx vy vz]; ring. }
    rewrite EQ. exact tip_bar.
  - intros k n j Hn Hj NQ.
    assert (GA : forall v, to_global (axis_x p0 p1) (axis_y p0 p1) (axis_z p0 p1) v = V3 (vx v) (- vz v) (vy v)).
    { intros v. unfold p0, p1. rewrite demo_x, demo_y, demo_z. unfold to_global, vadd, vscale. cbn [vx vy vz]. apply vec3_eq; cbn [vx vy vz]; ring. }
    assert (EG : forall v, global_of (rod "k" "A" p0 "B" p1) v = V3 (vx v) (- vz v) (vy v)) by (intros v; exact (GA v)).
    destruct Hn as [E|[E|[]]]; injection E as <- _.
    + exfalso. apply NQ. exists ["A"; "B"], "A", 0%nat, j. split.
      { destruct (canti_asm ext false) as (a & _ & _ & _ & _ & Ew). fold w in Ew. unfold answer. cbn [step snd]. rewrite Ew. reflexivity. }
      repeat split; auto. apply (canti_clamped ext false "C" (or_introl eq_refl) j Hj).
    + unfold exerted_force, exerted_moment, case_force, case_moment. rewrite tip_applied. cbn [map vsum fold_right f_beams m canti_fem fst snd].
      change (n_name (b_ni (rod "k" "A" p0 "B" p1))) with "A". change (n_name (b_nj (rod "k" "A" p0 "B" p1))) with "B". cbn [String.eqb Ascii.eqb Bool.eqb].
      rewrite !EG. unfold node_force, node_moment, triple, load_entry. cbn [p_nodal dget String.eqb Ascii.eqb Bool.eqb Nat.add nth].
      unfold tip_acts, zero3, vadd, vscale; cbn [d_i r_i d_j r_j vx vy vz]. unfold among; cbn [vx vy vz].
      do 6 (destruct j as [|j]; [cbn [nth]; ring|]). lia.
Qed.
End Tip.
Lemma tip_solved : let ext := eliminate_ext zero_ker in let w := final ext init (canti_ops false ++ [OpAssemble]) in
  solved ext w "C" /\ stable ext w "C" /\ assembled_model w = Some (canti_fem false true).
Proof.
  split; [|split].
  - exact (canti_solved _ false "C" (or_introl eq_refl) (eliminate_exact _) (eliminate_able _)).
  - exact (canti_stable _ false "C" (or_introl eq_refl)).
  - exact (canti_model _ false).
Qed.
