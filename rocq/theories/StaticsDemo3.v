(** The conditions of the statements about static answers, met by the bars.
    (Examples only; nothing here is part of the model.) *)
From Coq Require Import Reals Lra Lia List String Arith Bool ZArith Sorting.Permutation.
From Verif Require Import Base BaseFacts Csys Sections Element Load FeModel Assembly Solver Post Api
  SpecApi ApiFacts WfFacts HidFacts ApiProofs1 LoadFacts SpecElim ElimFacts SpecGeom CsysFacts SpecBeam BeamFacts AsmFacts SpecAsm AsmProofs
  AsmTotal AsmProofs2 SpecLoad LoadProofs AsmProofs3 SpecSolve AsmSolve Demo SolveDemo SpecStatics StaticsProofs StaticsProofs2
  SpecTold ToldProofs SpecToldLoad ToldLoadProofs SpecSame SameProofs SameProofs2 StaticsMain StaticsDemo StaticsDemo2.
Import ListNotations.
Local Open Scope string_scope.
Local Open Scope list_scope.
Local Open Scope R_scope.

Definition bar_calls (ab : bool) (p q : vec3) (bs : list (string * R)) : list op := bar_run ab p q (axis_x p q) bs.
Lemma bar_told ext ab p q bs : never_readds_nodes ext (bar_calls ab p q bs).
Proof. apply bars_fresh. intros o Ho. unfold bars in Ho. apply in_map_iff in Ho as (kE & <- & _). reflexivity. Qed.

Section Facts.
Variables (ext : externals) (ab : bool) (p q : vec3) (bs : list (string * R)).
Hypothesis WS : well_separated p q.
Hypothesis ND : NoDup (map fst bs).
Let w := final ext init (bar_calls ab p q bs ++ [OpAssemble]).
Let m := bar_fem ab p q bs.
Lemma bars_model : assembled_model w = Some m.
Proof. apply (bar_assembled ext ab p q _ bs WS ND). Qed.
Lemma bars_symmetric : symmetric_elements ext w.
Proof. intros m0 E. rewrite bars_model in E. apply some_inj in E. subst m0. left. reflexivity. Qed.
Lemma bars_elastic : (forall k E, In (k, E) bs -> 0 <= E) -> elastic ext w.
Proof.
  intros H m0 E. rewrite bars_model in E. apply some_inj in E. subst m0. split; [|left; reflexivity].
  intros k b HB. apply bar_beams in HB as (E & I & ->). cbn. pose proof (H _ _ I). lra.
Qed.
Lemma bars_flag c lc k j : dget c bar_cases = Some lc -> c_rest lc = [] ->
  flag (governing ext w c) k j = match k with "A" => Nat.ltb j 6 | _ => false end.
Proof.
  intros LC RS. unfold governing, w, bar_calls. rewrite (bar_table ext ab p q _ bs WS ND c), LC, RS, (bar_global ext ab p q _ bs WS ND).
  unfold flag, entry. rewrite lookup_dget. cbn [dget]. destruct (String.eqb_spec k "A") as [->|N].
  - do 6 (destruct j as [|j]; [reflexivity|]). destruct j; reflexivity.
  - destruct k as [|[[] [] [] [] [] [] [] []] [|]]; try reflexivity. congruence.
Qed.
Lemma bars_guided k j : flag (governing ext w "C") k j = true -> flag (governing ext w "S") k j = true.
Proof.
  rewrite (bars_flag "C" _ k j eq_refl eq_refl). unfold governing, w, bar_calls. rewrite (bar_table ext ab p q _ bs WS ND "S").
  destruct (String.eqb_spec k "A") as [->|N]; [|destruct k as [|[[] [] [] [] [] [] [] []] [|]]; try discriminate; congruence].
  intros H. do 6 (destruct j as [|j]; [reflexivity|]). destruct j; discriminate.
Qed.
Lemma bars_carried c lc k n : dget c bar_cases = Some lc -> c_rest lc = [] -> bs <> [] -> In (k, n) (f_nodes m) -> carried ext w c m k.
Proof.
  intros LC RS NE H.
  assert (CA : carried ext w c m "A").
  { apply carried_clamp. intros j Hj. rewrite (bars_flag c lc _ _ LC RS). apply Nat.ltb_lt. exact Hj. }
  assert (CB : carried ext w c m "B").
  { destruct bs as [|[k0 E] r] eqn:Eb; [congruence|]. change "B" with (n_name (b_nj (bar_beam p q k0 E))). apply (carried_end ext w c m k0); [|exact CA].
    left. reflexivity. }
  unfold m in H. destruct ab; cbn in H; destruct H as [H|[H|[]]]; injection H as <- _; assumption.
Qed.
Lemma bars_stiffness : stiffness ext w <> None.
Proof. destruct (bar_stiff ext ab p q (axis_x p q) bs WS ND) as (K & E). unfold w, bar_calls. rewrite E. discriminate. Qed.
Lemma bars_positive : (forall k E, In (k, E) bs -> 0 < E) -> forall k b, In (k, b) (f_beams m) -> props_pos (b_prop b).
Proof. intros H k b HB. apply bar_beams in HB as (E & I & ->). cbn. pose proof (H _ _ I). lra. Qed.
Lemma bars_stable c lc : dget c bar_cases = Some lc -> c_rest lc = [] -> bs <> [] -> (forall k E, In (k, E) bs -> 0 < E) -> stable ext w c.
Proof.
  intros LC RS NE H. apply (m107_clamped ext (bar_calls ab p q bs) c m (bar_told ext ab p q bs) bars_model bars_stiffness (bars_positive H) (or_introl eq_refl)).
  intros k n. apply (bars_carried c lc k n LC RS NE).
Qed.
Lemma bars_same c c' lc lc' : dget c bar_cases = Some lc -> c_rest lc = [] -> dget c' bar_cases = Some lc' -> c_rest lc' = [] -> same_supports ext w c c'.
Proof.
  intros LC RS LC' RS' i. unfold restrained_for, restrained_in.
  split; intros (l & k & n & j & A & B & C & D & F); exists l, k, n, j; repeat split; auto;
  [rewrite (bars_flag c' lc' _ _ LC' RS'); rewrite (bars_flag c lc _ _ LC RS) in F|rewrite (bars_flag c lc _ _ LC RS); rewrite (bars_flag c' lc' _ _ LC' RS') in F]; exact F.
Qed.
Lemma bars_applied c : applied w c = match dget c bar_cases with Some lc => applied_in (bar_heap (axis_x p q)) lc | None => [] end.
Proof. apply (bar_applied ext ab p q _ bs WS ND). Qed.
Lemma bars_described : exists t l, describes ext (bar_calls ab p q bs) t l /\ holds m t /\ holds_loads (bar_heap (axis_x p q)) bar_cases l.
Proof.
  destruct (bar_asm ext ab p q (axis_x p q) bs WS ND) as (a & Ha & Em & Eh & Ec & _).
  destruct (c78_built ext _ m bars_model) as (t & T & HO). destruct (c79_built ext _ a Ha) as (l & L & HL). rewrite Eh, Ec in HL.
  exists t, l. unfold describes. auto.
Qed.
Lemma bars_there k : k = "A" \/ k = "B" -> answer ext w (OpNodeLocation k) <> RNone.
Proof.
  intros H. destruct (bar_asm ext ab p q (axis_x p q) bs WS ND) as (a & _ & _ & _ & _ & E). unfold answer. cbn [step snd]. unfold w, bar_calls. rewrite E.
  unfold model_node_location. cbn [k_fem bar_core]. destruct H as [-> | ->]; destruct ab; discriminate.
Qed.
Lemma bars_round c lc : dget c bar_cases = Some lc -> c_rest lc = [] -> round_supports ext w c.
Proof. intros LC RS k. rewrite !(bars_flag c lc _ _ LC RS). split; reflexivity. Qed.
End Facts.

(** ** What the bars were told to be *)
Lemma told_node m t k : holds m t -> t_node t k = option_map (fun n => (n_loc n, n_mass n)) (dget k (f_nodes m)).
Proof. intros (H & _). symmetry. apply H. Qed.
Lemma told_rest m t k : holds m t -> t_rest t k = dget k (f_rest m).
Proof. intros (_ & H & _). symmetry. apply H. Qed.
Lemma told_beam m t k : holds m t -> t_beam t k = option_map (fun b => (n_name (b_ni b), n_name (b_nj b), b_prop b)) (dget k (f_beams m)).
Proof. intros (_ & _ & _ & _ & _ & H & _). symmetry. apply H. Qed.
Lemma told_shell m t k : holds m t -> t_shell t k = option_map (fun s => (map n_name (sh_nodes s), sh_sec s)) (dget k (f_shells m)).
Proof. intros (_ & _ & _ & _ & _ & _ & H). symmetry. apply H. Qed.
Lemma bars_node ab p q bs t k : holds (bar_fem ab p q bs) t ->
  option_map fst (t_node t k) = if String.eqb k "A" then Some p else if String.eqb k "B" then Some q else None.
Proof.
  intros H. rewrite (told_node _ _ _ H). cbn [bar_fem f_nodes]. destruct ab; cbn [dget];
  destruct (String.eqb_spec k "A") as [EA|NA]; destruct (String.eqb_spec k "B") as [EB|NB];
  try (exfalso; congruence); cbn [option_map fst nd node_at n_loc n_csys cs_O]; rewrite ?vec_eta; reflexivity.
Qed.
Lemma bars_beam ab p q bs t k : holds (bar_fem ab p q bs) t ->
  t_beam t k = option_map (fun E => ("A", "B", PSimple E 0 1 1 1 1 1)) (dget k bs).
Proof.
  intros H. rewrite (told_beam _ _ _ H). cbn [bar_fem f_beams]. clear H.
  induction bs as [|[k0 E] bs IH]; [reflexivity|]. cbn [map dget fst snd]. destruct (String.eqb k k0); [reflexivity|]. exact IH.
Qed.

Lemma as_list_some {A} (x : option (six A)) (v : six A) : option_map as_list x = Some (list6 v) -> x = Some v.
Proof.
  destruct x as [[[[[[a b] c] d] e] f]|]; [|discriminate]. destruct v as [[[[[a' b'] c'] d'] e'] f']. cbn. intros E. injection E as -> -> -> -> -> ->. reflexivity.
Qed.
Lemma map_none {A B} (f : A -> B) x : option_map f x = None -> x = None.
Proof. destruct x; [discriminate|reflexivity]. Qed.
Lemma bars_sheet e l i : holds_loads (bar_heap e) bar_cases l -> (i < 2)%nat ->
  forall k, s_node (l_sheet l i) k = (if String.eqb k "B" then Some (pull e) else None) /\ s_line (l_sheet l i) k = None /\ s_point (l_sheet l i) k = None.
Proof.
  intros (_ & HS & _) Hi k.
  assert (X : forall n, holds_sheet (Pattern n [("B", list6 (pull e))] [] [] []) (l_sheet l i) ->
    s_node (l_sheet l i) k = (if String.eqb k "B" then Some (pull e) else None) /\ s_line (l_sheet l i) k = None /\ s_point (l_sheet l i) k = None).
  { intros n (A & B & C). specialize (A k). specialize (B k). specialize (C k). cbn [p_nodal p_dist p_conc dget] in A, B, C.
    symmetry in B, C. apply map_none in B, C. repeat split; auto. destruct (String.eqb k "B").
    - apply as_list_some. symmetry. exact A.
    - symmetry in A. apply map_none in A. exact A. }
  destruct i as [|[|i]]; [apply (X "P"), HS; reflexivity|apply (X "Q"), HS; reflexivity|lia].
Qed.
Lemma bars_case e l : holds_loads (bar_heap e) bar_cases l ->
  exists o, l_case l "C" = Some o /\ (forall k, o_uses o k = if String.eqb k "P" then Some (0%nat, 2) else None) /\ (forall k, o_rest o k = None).
Proof.
  intros (_ & _ & H). specialize (H "C"). cbn [bar_cases dget String.eqb Ascii.eqb Bool.eqb] in H. destruct (l_case l "C") as [o|]; [|contradiction].
  exists o. split; [reflexivity|]. destruct H as (_ & P & F & R0). split.
  - intros k. specialize (P k). specialize (F k). cbn [one_case c_pats c_factor dget] in P, F. destruct (String.eqb k "P"); destruct (o_uses o k) as [[i f]|]; cbn in *; congruence.
  - intros k. specialize (R0 k). cbn in R0. symmetry in R0. apply map_none in R0. exact R0.
Qed.
Lemma bars_same_case e l l' : holds_loads (bar_heap e) bar_cases l -> holds_loads (bar_heap e) bar_cases l' -> same_case l l' "C".
Proof.
  intros H H'. destruct (bars_case _ _ H) as (o & E & UO & RO). destruct (bars_case _ _ H') as (o' & E' & UO' & RO').
  unfold same_case. rewrite E, E'. split.
  - intros k. rewrite UO, UO'. destruct (String.eqb k "P"); [|exact I]. split; [reflexivity|].
    constructor; intros k0; destruct (bars_sheet _ _ 0 H ltac:(lia) k0) as (A & B & C); destruct (bars_sheet _ _ 0 H' ltac:(lia) k0) as (A' & B' & C'); congruence.
  - intros k. rewrite RO, RO'. reflexivity.
Qed.
Lemma bars_same_structure ab ab' p q bs t t' : holds (bar_fem ab p q bs) t -> holds (bar_fem ab' p q bs) t' -> same_structure t t'.
Proof.
  intros H H'. constructor; intros k.
  - rewrite (bars_node _ _ _ _ _ _ H), (bars_node _ _ _ _ _ _ H'). reflexivity.
  - rewrite (told_rest _ _ _ H), (told_rest _ _ _ H'). reflexivity.
  - rewrite (bars_beam _ _ _ _ _ _ H), (bars_beam _ _ _ _ _ _ H'). reflexivity.
  - rewrite (told_shell _ _ _ H), (told_shell _ _ _ H'). reflexivity.
Qed.
Lemma bars_alike ab ab' c s d p q bs t t' : holds (bar_fem ab p q bs) t -> holds (bar_fem ab' (vadd d (turn_z c s p)) (vadd d (turn_z c s q)) bs) t' ->
  alike c s d t t'.
Proof.
  intros H H'. constructor; intros k.
  - rewrite (bars_node _ _ _ _ _ _ H').
    transitivity (option_map (fun v => vadd d (turn_z c s v)) (option_map fst (t_node t k))).
    + rewrite (bars_node _ _ _ _ _ _ H). destruct (String.eqb k "A"); [reflexivity|]. destruct (String.eqb k "B"); reflexivity.
    + destruct (t_node t k); reflexivity.
  - rewrite (told_rest _ _ _ H), (told_rest _ _ _ H'). reflexivity.
  - rewrite (bars_beam _ _ _ _ _ _ H), (bars_beam _ _ _ _ _ _ H'). reflexivity.
  - rewrite (told_shell _ _ _ H), (told_shell _ _ _ H'). reflexivity.
Qed.
Lemma bars_alike_case c s e l l' : holds_loads (bar_heap e) bar_cases l -> holds_loads (bar_heap (turn_z c s e)) bar_cases l' -> alike_case c s l l' "C".
Proof.
  intros H H'. destruct (bars_case _ _ H) as (o & E & UO & RO). destruct (bars_case _ _ H') as (o' & E' & UO' & RO').
  unfold alike_case. rewrite E, E'. split.
  - intros k. rewrite UO, UO'. destruct (String.eqb k "P"); [|exact I]. split; [reflexivity|].
    constructor; intros k0; destruct (bars_sheet _ _ 0 H ltac:(lia) k0) as (A & B & C); destruct (bars_sheet _ _ 0 H' ltac:(lia) k0) as (A' & B' & C'); [|congruence|congruence].
    rewrite A, A'. destruct (String.eqb k0 "B"); [|reflexivity]. cbn [option_map]. f_equal. unfold pull, as_list, turn_six, turn_z. cbn [nth vx vy vz].
    repeat f_equal; ring.
  - intros k. rewrite RO, RO'. reflexivity.
Qed.
Lemma bars_stiffer ab ab' p q bs bs' t t' : holds (bar_fem ab p q bs) t -> holds (bar_fem ab' p q bs') t' ->
  (forall k, match dget k bs, dget k bs' with Some E, Some E' => E <= E' | None, Some E' => 0 <= E' | None, None => True | Some _, None => False end) ->
  stiffer t t'.
Proof.
  intros H H' L. constructor; intros k.
  - rewrite (bars_node _ _ _ _ _ _ H), (bars_node _ _ _ _ _ _ H'). reflexivity.
  - rewrite (told_shell _ _ _ H), (told_shell _ _ _ H'). reflexivity.
  - rewrite (bars_beam _ _ _ _ _ _ H), (bars_beam _ _ _ _ _ _ H'). specialize (L k). destruct (dget k bs), (dget k bs'); cbn [option_map]; auto.
    + repeat split; cbn; lra.
    + cbn. lra.
Qed.
Lemma bars_unloaded t t' e l : holds_loads (bar_heap e) bar_cases l -> unloaded_extras t t' l "C".
Proof.
  intros H o p i f k E Q _ _. destruct (bars_case _ _ H) as (o0 & E0 & UO & _). rewrite E in E0. apply some_inj in E0. subst o0.
  rewrite UO in Q. destruct (String.eqb p "P"); [|discriminate]. injection Q as <- <-. apply (bars_sheet _ _ 0 H ltac:(lia) k).
Qed.
Lemma same_same_loads l l' c : same_case l l' c -> same_loads l l' c.
Proof. unfold same_case, same_loads. destruct (l_case l c), (l_case l' c); tauto. Qed.
Lemma bars_not_steep ab p q bs t : holds (bar_fem ab p q bs) t -> not_steep p q -> beams_not_steep t.
Proof.
  intros H N k a b pr E pa pb. rewrite (bars_beam _ _ _ _ _ _ H) in E. destruct (dget k bs); [|discriminate]. cbn in E. injection E as <- <- _.
  rewrite !(bars_node _ _ _ _ _ _ H). cbn. intros Ea Eb. apply some_inj in Ea, Eb. subst. exact N.
Qed.

(** ** The models of the examples *)
Definition p0 : vec3 := V3 0 0 0.
Definition p1 : vec3 := V3 1 0 0.
Definition far : vec3 := V3 5 6 7.
Definition q0 : vec3 := vadd far (turn_z (3/5) (4/5) p0).
Definition q1 : vec3 := vadd far (turn_z (3/5) (4/5) p1).
Definition r0 : vec3 := vadd far (turn_z 1 0 p0).
Definition r1 : vec3 := vadd far (turn_z 1 0 p1).
Definition slim : list (string * R) := [("b", 1)].
Definition paired : list (string * R) := [("b", 1); ("c", 1)].
Definition thick : list (string * R) := [("b", 2)].
Definition tip_of (p q : vec3) (bs : list (string * R)) (c : string) : vec3 := vscale (total_of c / stiffness_sum p q bs) (axis_x p q).
Definition bench : externals := tries
  [six_of (tip_of p0 p1 slim "C"); six_of (tip_of p0 p1 slim "D"); six_of (tip_of p0 p1 slim "E");
   (let v := tip_of p0 p1 slim "S" in [vx v; vz v; 0; 0; 0]);
   six_of (tip_of p0 p1 paired "C"); six_of (tip_of p0 p1 thick "C"); six_of (tip_of q0 q1 slim "C"); six_of (tip_of r0 r1 slim "C")].

Lemma U35 : 3/5 * (3/5) + 4/5 * (4/5) = 1.
Proof. lra. Qed.
Lemma U10 : 1 * 1 + 0 * 0 = 1.
Proof. ring. Qed.
Lemma sep_p : well_separated p0 p1.
Proof. exact demo_separated. Qed.
Lemma steep_p : not_steep p0 p1.
Proof. unfold not_steep, plan_offset, p0, p1; cbn [vx vy vz]. apply Rle_trans with (Rabs (0 - 1)); [|apply Rmax_l]. rewrite Rabs_left by lra. lra. Qed.
Lemma plan_q : 3/5 <= plan_offset q0 q1.
Proof.
  unfold plan_offset, q0, q1, far, turn_z, vadd, p0, p1; cbn [vx vy vz]. eapply Rle_trans; [|apply Rmax_l].
  rewrite Rabs_left by lra. lra.
Qed.
Lemma sep_q : well_separated q0 q1.
Proof. left. pose proof plan_q. lra. Qed.
Lemma steep_q : not_steep q0 q1.
Proof. unfold not_steep. pose proof plan_q. lra. Qed.
Lemma sep_r : well_separated r0 r1.
Proof.
  left. unfold plan_offset, r0, r1, far, turn_z, vadd, p0, p1; cbn [vx vy vz]. eapply Rle_trans; [|apply Rmax_l].
  rewrite Rabs_left by lra. lra.
Qed.
Lemma axis_q : axis_x q0 q1 = turn_z (3/5) (4/5) (axis_x p0 p1).
Proof. apply (turn_axes (3/5) (4/5) U35 far p0 p1). right. split; [exact steep_p|exact steep_q]. Qed.
Lemma axis_r : axis_x r0 r1 = axis_x p0 p1.
Proof. unfold r0, r1. rewrite (proj1 (turn_axes 1 0 U10 far p0 p1 (or_introl (conj eq_refl eq_refl)))). apply (turn_id 1 0 U10); reflexivity. Qed.
Lemma dist_p : distance p0 p1 = 1.
Proof. exact demo_dist. Qed.
Lemma dist_q : distance q0 q1 = 1.
Proof. unfold q0, q1. rewrite (turn_distance _ _ U35). apply dist_p. Qed.
Lemma dist_r : distance r0 r1 = 1.
Proof. unfold r0, r1. rewrite (turn_distance _ _ U10). apply dist_p. Qed.
Lemma slim_nodup : NoDup (map fst slim).
Proof. repeat constructor. intros []. Qed.
Lemma thick_nodup : NoDup (map fst thick).
Proof. repeat constructor. intros []. Qed.
Lemma paired_nodup : NoDup (map fst paired).
Proof. repeat constructor; cbn; intuition discriminate. Qed.
Lemma slim_pos k E : In (k, E) slim -> 0 < E.
Proof. intros [H|[]]. injection H as <- <-. lra. Qed.

Lemma solved_slim c : In c ["C"; "D"; "E"; "S"] -> forall ab, solved bench (final bench init (bar_calls ab p0 p1 slim ++ [OpAssemble])) c.
Proof.
  intros H ab. assert (SS : stiffness_sum p0 p1 slim <> 0) by (unfold stiffness_sum, slim; cbn [map lsum snd]; rewrite dist_p; lra).
  assert (AY : vy (axis_x p0 p1) = 0) by (unfold p0, p1; rewrite demo_x; reflexivity).
  destruct H as [<-|[<-|[<-|[<-|[]]]]];
  [apply (bar_solved _ ab p0 p1 slim "C" _ sep_p slim_nodup SS eq_refl)|apply (bar_solved _ ab p0 p1 slim "D" _ sep_p slim_nodup SS eq_refl)
  |apply (bar_solved _ ab p0 p1 slim "E" _ sep_p slim_nodup SS eq_refl)|apply (bar_solved _ ab p0 p1 slim "S" _ sep_p slim_nodup SS eq_refl)];
  try (left; reflexivity); try (right; split; [reflexivity|exact AY]); cbn [In c_rest one_case bar_cases]; auto 10.
Qed.
Lemma solved_paired ab : solved bench (final bench init (bar_calls ab p0 p1 paired ++ [OpAssemble])) "C".
Proof.
  assert (SS : stiffness_sum p0 p1 paired <> 0) by (unfold stiffness_sum, paired; cbn [map lsum snd]; rewrite dist_p; lra).
  apply (bar_solved _ ab p0 p1 paired "C" _ sep_p paired_nodup SS eq_refl); [left; reflexivity|]. cbn [In c_rest one_case bar_cases]; auto 10.
Qed.
Lemma solved_thick ab : solved bench (final bench init (bar_calls ab p0 p1 thick ++ [OpAssemble])) "C".
Proof.
  assert (SS : stiffness_sum p0 p1 thick <> 0) by (unfold stiffness_sum, thick; cbn [map lsum snd]; rewrite dist_p; lra).
  apply (bar_solved _ ab p0 p1 thick "C" _ sep_p thick_nodup SS eq_refl); [left; reflexivity|]. cbn [In c_rest one_case bar_cases]; auto 10.
Qed.
Lemma solved_q ab : solved bench (final bench init (bar_calls ab q0 q1 slim ++ [OpAssemble])) "C".
Proof.
  assert (SS : stiffness_sum q0 q1 slim <> 0) by (unfold stiffness_sum, slim; cbn [map lsum snd]; rewrite dist_q; lra).
  apply (bar_solved _ ab q0 q1 slim "C" _ sep_q slim_nodup SS eq_refl); [left; reflexivity|]. cbn [In c_rest one_case bar_cases]; auto 10.
Qed.
Lemma solved_r ab : solved bench (final bench init (bar_calls ab r0 r1 slim ++ [OpAssemble])) "C".
Proof.
  assert (SS : stiffness_sum r0 r1 slim <> 0) by (unfold stiffness_sum, slim; cbn [map lsum snd]; rewrite dist_r; lra).
  apply (bar_solved _ ab r0 r1 slim "C" _ sep_r slim_nodup SS eq_refl); [left; reflexivity|]. cbn [In c_rest one_case bar_cases]; auto 12.
Qed.
Lemma slim_stable ab c lc : dget c bar_cases = Some lc -> c_rest lc = [] -> stable bench (final bench init (bar_calls ab p0 p1 slim ++ [OpAssemble])) c.
Proof. intros LC RS. apply (bars_stable bench ab p0 p1 slim sep_p slim_nodup c lc LC RS); [discriminate|exact slim_pos]. Qed.
