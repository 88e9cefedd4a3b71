(** Cutting a member by a node on it changes nothing elsewhere (C115). *)
From Coq Require Import Reals Lra Lia List String Arith Bool ZArith Sorting.Permutation FunctionalExtensionality.
From Verif Require Import Base BaseFacts Csys Sections Element Load FeModel Assembly Solver Post Api
  SpecApi ApiFacts WfFacts HidFacts ApiProofs1 ApiProofs2 LoadFacts SpecElim ElimFacts SpecGeom CsysFacts SpecBeam BeamFacts MemberLoads AsmFacts SpecAsm AsmProofs
  AsmTotal AsmProofs2 SpecLoad LoadProofs AsmProofs3 SpecSolve AsmSolve SpecMass MassProofs ShellFacts SpecStatics StaticsProofs StaticsProofs2
  SpecTold ToldProofs SpecToldLoad ToldLoadProofs SpecPost PostProofs SpecSame SameProofs SameProofs2 StifferProofs SpecCut CutFacts.
Import ListNotations.
Local Open Scope R_scope.

(** ** Sums over dictionaries, one entry of which becomes two *)
Lemma lsum_at {A} (d : dict A) k v (F : string * A -> R) : NoDup (dkeys d) -> dget k d = Some v ->
  lsum (map (fun kv => if String.eqb (fst kv) k then F kv else 0) d) = F (k, v).
Proof.
  induction d as [|[k0 v0] d IH]; intros N H; [discriminate|]. cbn [map lsum fst]. unfold dkeys in N. cbn [map fst] in N. inversion N as [|? ? NI N0]; subst.
  cbn [dget] in H. destruct (String.eqb_spec k k0) as [E|E].
  - subst k0. rewrite String.eqb_refl. apply some_inj in H. subst v0.
    assert (Z : lsum (map (fun kv : string * A => if String.eqb (fst kv) k then F kv else 0) d) = 0).
    { clear -NI. induction d as [|[k1 v1] d IH]; [reflexivity|]. cbn [map lsum fst] in *. destruct (String.eqb_spec k1 k) as [->|].
      - exfalso. apply NI. left. reflexivity.
      - rewrite IH; [ring|]. intros I. apply NI. right. exact I. }
    rewrite Z. ring.
  - destruct (String.eqb_spec k0 k) as [->|]; [congruence|]. rewrite (IH N0 H). ring.
Qed.
Lemma lsum_plus {A} (f g : A -> R) d : lsum (map (fun x => f x + g x) d) = lsum (map f d) + lsum (map g d).
Proof. induction d as [|x d IH]; cbn; [ring|]. rewrite IH. ring. Qed.
Lemma lsum_cut {A B} (d : dict A) (d' : dict B) k k2 v v1 v2 (g : string * A -> R) (g' : string * B -> R) :
  NoDup (dkeys d) -> NoDup (dkeys d') -> dget k d = Some v -> dget k2 d = None -> dget k d' = Some v1 -> dget k2 d' = Some v2 ->
  (forall i, i <> k -> i <> k2 -> match dget i d, dget i d' with Some x, Some x' => g (i, x) = g' (i, x') | None, None => True | _, _ => False end) ->
  lsum (map g' d') = lsum (map g d) - g (k, v) + g' (k, v1) + g' (k2, v2).
Proof.
  intros N N' H1 H2 H3 H4 H.
  assert (X : lsum (map (fun kv => g kv + (if String.eqb (fst kv) k then g' (k, v1) - g (k, v) else 0)) d)
            = lsum (map (fun kv => g' kv + (if String.eqb (fst kv) k2 then - g' kv else 0)) d')).
  { apply lsum_keyed_more; [exact N|exact N'|]. intros i. cbn [fst].
    destruct (String.eqb_spec i k) as [E|E].
    - rewrite E, H1, H3. destruct (String.eqb_spec k k2) as [E2|_]; [rewrite E2 in H1; congruence|]. ring.
    - destruct (String.eqb_spec i k2) as [E2|E2].
      + rewrite E2, H2, H4. ring.
      + specialize (H i E E2). destruct (dget i d), (dget i d'); auto; try contradiction. rewrite H. ring. }
  rewrite !lsum_plus in X. rewrite (lsum_at d k v (fun _ => g' (k, v1) - g (k, v)) N H1), (lsum_at d' k2 v2 (fun kv => - g' kv) N' H4) in X. lra.
Qed.

Lemma spread_still m x : spread m (turned_by 1 0 x) = spread m x.
Proof. apply functional_extensionality. intros q. apply spread_turned. Qed.
Lemma spread_ext m x y : (forall i j, In i (dkeys (f_nodes m)) -> (j < 6)%nat -> x i j = y i j) -> spread m x = spread m y.
Proof.
  intros H. apply functional_extensionality. intros q. unfold spread. destruct (nth_error _ _) as [i|] eqn:E; [|reflexivity].
  apply H; [apply nth_error_In in E; exact E|apply Nat.mod_upper_bound; discriminate].
Qed.

(** ** Two models *)
Section Models.
Variables (m m' : fem) (r : R) (k k2 n a b : string) (pa pb : vec3) (P : bprop) (b0 b1 b2 : beam).
Hypothesis G : good m.
Hypothesis G' : good m'.
Hypothesis BT : based 1 0 zero3 m m'.
Hypothesis HR : 0 < r < 1.
Hypothesis LA : leans_alike r pa pb.
Hypothesis NN : ~ In n (dkeys (f_nodes m)).
Hypothesis KN : forall i, In i (dkeys (f_nodes m')) -> i = n \/ In i (dkeys (f_nodes m)).
Hypothesis B0 : dget k (f_beams m) = Some b0.
Hypothesis B1 : dget k (f_beams m') = Some b1.
Hypothesis B2 : dget k2 (f_beams m') = Some b2.
Hypothesis NB : dget k2 (f_beams m) = None.
Hypothesis E0 : (n_name (b_ni b0), n_name (b_nj b0), b_prop b0) = (a, b, P) /\ n_loc (b_ni b0) = pa /\ n_loc (b_nj b0) = pb.
Hypothesis E1 : (n_name (b_ni b1), n_name (b_nj b1), b_prop b1) = (a, n, P) /\ n_loc (b_ni b1) = pa /\ n_loc (b_nj b1) = part_way r pa pb.
Hypothesis E2 : (n_name (b_ni b2), n_name (b_nj b2), b_prop b2) = (n, b, P) /\ n_loc (b_ni b2) = part_way r pa pb /\ n_loc (b_nj b2) = pb.
Hypothesis OB : forall i, i <> k -> i <> k2 -> option_map (fun b => (n_name (b_ni b), n_name (b_nj b), b_prop b)) (dget i (f_beams m'))
                    = option_map (fun b => (n_name (b_ni b), n_name (b_nj b), b_prop b)) (dget i (f_beams m)).

Let ln := distance pa pb.
Definition in_member (v : vec3) : vec3 := along (axis_x pa pb) (axis_y pa pb) (axis_z pa pb) v.
Definition member_ends (x : string -> nat -> R) : ends :=
  Ends (in_member (dvec x a)) (in_member (rvec x a)) (in_member (dvec x b)) (in_member (rvec x b)).
(** The values at the cut are those of the field through the end values. *)
Definition straddles (x : string -> nat -> R) : Prop :=
  in_member (dvec x n) = disp_x (through ln (member_ends x)) (r * ln) /\ in_member (rvec x n) = rot_x (through ln (member_ends x)) (r * ln).

Lemma length_pos : 0 < ln.
Proof.
  pose proof (wf_beam _ (proj1 G) _ _ (dget_some_in _ _ _ B0)) as O. pose proof (beam_dist_pos m k b0 O) as H.
  destruct E0 as (_ & L1 & L2). rewrite L1, L2 in H. exact H.
Qed.
Lemma member_frame : frame (axis_x pa pb) (axis_y pa pb) (axis_z pa pb).
Proof.
  pose proof (wf_beam _ (proj1 G) _ _ (dget_some_in _ _ _ B0)) as O. pose proof (bo_csys _ _ _ O) as C.
  destruct E0 as (_ & L1 & L2). rewrite L1, L2 in C. destruct (line_axes _ _ _ C) as (<- & <- & <-). apply (line_csys_some _ _ _ C).
Qed.
Lemma new_node : In n (dkeys (f_nodes m')).
Proof.
  destruct G' as (_ & _ & EC & _). destruct (EC _ _ (dget_some_in _ _ _ B1)) as [_ C]. apply cur_key in C.
  destruct E1 as (N & _). injection N as _ N _. rewrite N in C. exact C.
Qed.
Lemma end_nodes : In a (dkeys (f_nodes m)) /\ In b (dkeys (f_nodes m)).
Proof.
  destruct G as (_ & _ & EC & _). destruct (EC _ _ (dget_some_in _ _ _ B0)) as [C D]. apply cur_key in C. apply cur_key in D.
  destruct E0 as (N & _). injection N as N1 N2 _. rewrite N1 in C. rewrite N2 in D. auto.
Qed.

Lemma whole_ends x : ends_along (axis_x pa pb) (axis_y pa pb) (axis_z pa pb) (beam_ends m b0 (spread m x)) = member_ends x.
Proof.
  destruct E0 as (N & _). injection N as N1 N2 _. destruct end_nodes as [I1 I2]. unfold beam_ends, ends_at. rewrite N1, N2.
  destruct (spread_disp m x _ G I1) as [-> ->]. destruct (spread_disp m x _ G I2) as [-> ->]. reflexivity.
Qed.
Lemma left_ends x : ends_along (axis_x pa pb) (axis_y pa pb) (axis_z pa pb) (beam_ends m' b1 (spread m' x))
  = Ends (d_i (member_ends x)) (r_i (member_ends x)) (in_member (dvec x n)) (in_member (rvec x n)).
Proof.
  destruct E1 as (N & _). injection N as N1 N2 _. destruct end_nodes as [I1 I2]. apply (based_keys 1 0 zero3 m m' BT) in I1. unfold beam_ends, ends_at. rewrite N1, N2.
  destruct (spread_disp m' x _ G' I1) as [-> ->]. destruct (spread_disp m' x _ G' new_node) as [-> ->]. reflexivity.
Qed.
Lemma right_ends x : ends_along (axis_x pa pb) (axis_y pa pb) (axis_z pa pb) (beam_ends m' b2 (spread m' x))
  = Ends (in_member (dvec x n)) (in_member (rvec x n)) (d_j (member_ends x)) (r_j (member_ends x)).
Proof.
  destruct E2 as (N & _). injection N as N1 N2 _. destruct end_nodes as [I1 I2]. apply (based_keys 1 0 zero3 m m' BT) in I2. unfold beam_ends, ends_at. rewrite N1, N2.
  destruct (spread_disp m' x _ G' I2) as [-> ->]. destruct (spread_disp m' x _ G' new_node) as [-> ->]. reflexivity.
Qed.
Lemma straddling x : straddles x -> let f := through ln (member_ends x) in
  Ends (d_i (member_ends x)) (r_i (member_ends x)) (in_member (dvec x n)) (in_member (rvec x n)) = cut_left f (r * ln)
  /\ Ends (in_member (dvec x n)) (in_member (rvec x n)) (d_j (member_ends x)) (r_j (member_ends x)) = cut_right f (r * ln) ln
  /\ member_ends x = ends_of_field f ln.
Proof.
  intros [S1 S2] f. pose proof length_pos as L. pose proof (through_ends ln (member_ends x) ltac:(lra)) as T. fold f in T, S1, S2.
  rewrite S1, S2. rewrite <- T at 1 2 3 4. repeat split. symmetry. exact T.
Qed.

Lemma work_whole x y : beam_work m (spread m x) (spread m y) b0 = member_work (props P) ln (member_ends x) (member_ends y).
Proof.
  unfold beam_work. destruct E0 as (N & L1 & L2). injection N as _ _ N. rewrite N, L1, L2, !whole_ends. reflexivity.
Qed.
Lemma work_left x y : beam_work m' (spread m' x) (spread m' y) b1
  = member_work (props P) (r * ln) (Ends (d_i (member_ends x)) (r_i (member_ends x)) (in_member (dvec x n)) (in_member (rvec x n)))
      (Ends (d_i (member_ends y)) (r_i (member_ends y)) (in_member (dvec y n)) (in_member (rvec y n))).
Proof.
  unfold beam_work. destruct E1 as (N & L1 & L2). injection N as _ _ N. rewrite N, L1, L2. destruct (part_axes r pa pb HR LA) as ((-> & -> & ->) & _ & -> & _).
  rewrite !left_ends. reflexivity.
Qed.
Lemma work_right x y : beam_work m' (spread m' x) (spread m' y) b2
  = member_work (props P) ((1 - r) * ln) (Ends (in_member (dvec x n)) (in_member (rvec x n)) (d_j (member_ends x)) (r_j (member_ends x)))
      (Ends (in_member (dvec y n)) (in_member (rvec y n)) (d_j (member_ends y)) (r_j (member_ends y))).
Proof.
  unfold beam_work. destruct E2 as (N & L1 & L2). injection N as _ _ N. rewrite N, L1, L2. destruct (part_axes r pa pb HR LA) as (_ & (-> & -> & ->) & _ & ->).
  rewrite !right_ends. reflexivity.
Qed.
Lemma parts_work x y : straddles x \/ straddles y ->
  beam_work m' (spread m' x) (spread m' y) b1 + beam_work m' (spread m' x) (spread m' y) b2 = beam_work m (spread m x) (spread m y) b0.
Proof.
  rewrite work_whole, work_left, work_right. pose proof length_pos as L. intros [S|S]; destruct (straddling _ S) as (-> & -> & E).
  - pose proof (work_cut (props P) ln r _ (member_ends y) (in_member (dvec y n)) (in_member (rvec y n)) ltac:(lra) ltac:(lra) ltac:(lra) (through_beam ln (member_ends x))) as H.
    rewrite <- E in H. exact H.
  - pose proof (work_cut_r (props P) ln r _ (member_ends x) (in_member (dvec x n)) (in_member (rvec x n)) ltac:(lra) ltac:(lra) ltac:(lra) (through_beam ln (member_ends y))) as H.
    rewrite <- E in H. exact H.
Qed.

(** Members other than the one cut. *)
Lemma other_beam i : i <> k -> i <> k2 -> match dget i (f_beams m), dget i (f_beams m') with
  | Some b, Some b' => b_prop b' = b_prop b
     /\ distance (n_loc (b_ni b')) (n_loc (b_nj b')) = distance (n_loc (b_ni b)) (n_loc (b_nj b))
     /\ forall x, let p := n_loc (b_ni b) in let q := n_loc (b_nj b) in let p' := n_loc (b_ni b') in let q' := n_loc (b_nj b') in
        ends_along (axis_x p' q') (axis_y p' q') (axis_z p' q') (beam_ends m' b' (spread m' x))
        = ends_along (axis_x p q) (axis_y p q) (axis_z p q) (beam_ends m b (spread m x))
  | None, None => True | _, _ => False end.
Proof.
  intros N1 N2. pose proof (OB i N1 N2) as H. destruct (dget i (f_beams m)) as [c|] eqn:E, (dget i (f_beams m')) as [c'|] eqn:E'; try discriminate; [|exact I].
  cbn in H. apply some_inj in H. apply dget_some_in in E, E'.
  pose proof (f_equal (fun z => fst (fst z)) H) as H1. pose proof (f_equal (fun z => snd (fst z)) H) as H2. pose proof (f_equal snd H) as H3. cbn in H1, H2, H3.
  destruct (based_member 1 0 zero3 m m' ltac:(ring) G G' BT i c c' E E' H1 H2 (or_introl (conj eq_refl eq_refl))) as [D V].
  split; [exact H3|]. split; [exact D|]. intros x. rewrite <- (spread_still m'). apply V.
Qed.
Lemma beams_swap x y : lsum (map (beam_work m' (spread m' x) (spread m' y)) (dvals (f_beams m')))
  = lsum (map (beam_work m (spread m x) (spread m y)) (dvals (f_beams m)))
    - beam_work m (spread m x) (spread m y) b0 + beam_work m' (spread m' x) (spread m' y) b1 + beam_work m' (spread m' x) (spread m' y) b2.
Proof.
  unfold dvals. rewrite !map_map.
  rewrite (lsum_cut (f_beams m) (f_beams m') k k2 b0 b1 b2 (fun kv => beam_work m (spread m x) (spread m y) (snd kv)) (fun kv => beam_work m' (spread m' x) (spread m' y) (snd kv))); auto; [apply G|apply G'|].
  intros i N1 N2. pose proof (other_beam i N1 N2) as H. destruct (dget i (f_beams m)), (dget i (f_beams m')); try contradiction; [|exact I].
  destruct H as (HP & D & V). cbn [snd]. unfold beam_work. rewrite (V x), (V y), HP, D. reflexivity.
Qed.
Lemma shells_stay_put ker x y :
  lsum (map (shell_work ker m' (spread m' x) (spread m' y)) (dvals (f_shells m'))) = lsum (map (shell_work ker m (spread m x) (spread m y)) (dvals (f_shells m))).
Proof.
  rewrite <- (based_shells 1 0 zero3 m m' ltac:(ring) G G' BT ker x y (shells_stay 1 0 zero3 m ker eq_refl eq_refl eq_refl)). rewrite !spread_still. reflexivity.
Qed.

(** ** Loads *)
Variables (p p' : pattern) (s s' : sheet).
Hypothesis HS : holds_sheet p s.
Hypothesis HS' : holds_sheet p' s'.
Hypothesis CS : cut_sheet r k k2 n s s'.

Lemma beam_power q i l d : work12 (vnth (pat_beam_f q i l)) d
  = match dget i (p_dist q) with Some row => work12 (vnth (dist_f row l)) d | None => 0 end
    + match dget i (p_conc q) with Some row => work12 (vnth (conc_f row l)) d | None => 0 end.
Proof.
  assert (Z : work12 (vnth (zeros 12)) d = 0) by (unfold work12; apply rsum_0; intros j _; unfold vnth; rewrite zeros_nth; ring).
  unfold pat_beam_f. destruct (dget i (p_dist q)) as [row|], (dget i (p_conc q)) as [row'|]; rewrite ?work12_ladd by reflexivity; rewrite ?Z; ring.
Qed.
Lemma power_whole x : member_power m p (spread m x) (k, b0) = work12 (vnth (pat_beam_f p k ln)) (member_ends x).
Proof. unfold member_power. cbn [fst snd]. destruct E0 as (_ & L1 & L2). rewrite L1, L2, !whole_ends. reflexivity. Qed.
Lemma power_left x : member_power m' p' (spread m' x) (k, b1)
  = work12 (vnth (pat_beam_f p' k (r * ln))) (Ends (d_i (member_ends x)) (r_i (member_ends x)) (in_member (dvec x n)) (in_member (rvec x n))).
Proof.
  unfold member_power. cbn [fst snd]. destruct E1 as (_ & L1 & L2). rewrite L1, L2. destruct (part_axes r pa pb HR LA) as ((-> & -> & ->) & _ & -> & _).
  rewrite left_ends. reflexivity.
Qed.
Lemma power_right x : member_power m' p' (spread m' x) (k2, b2)
  = work12 (vnth (pat_beam_f p' k2 ((1 - r) * ln))) (Ends (in_member (dvec x n)) (in_member (rvec x n)) (d_j (member_ends x)) (r_j (member_ends x))).
Proof.
  unfold member_power. cbn [fst snd]. destruct E2 as (_ & L1 & L2). rewrite L1, L2. destruct (part_axes r pa pb HR LA) as (_ & (-> & -> & ->) & _ & ->).
  rewrite right_ends. reflexivity.
Qed.
Lemma parts_power x : straddles x \/ (s_line s k = None /\ s_point s k = None) ->
  member_power m' p' (spread m' x) (k, b1) + member_power m' p' (spread m' x) (k2, b2) = member_power m p (spread m x) (k, b0).
Proof.
  rewrite power_whole, power_left, power_right, !beam_power. pose proof length_pos as L. intros S.
  destruct HS as (_ & D & C). destruct HS' as (_ & D' & C'). rewrite D, C, !D', !C'. clear D C D' C'.
  destruct CS as [_ _ _ _ CL CP]. unfold halves_line in CL. unfold halves_point in CP. destruct S as [S|[Z1 Z2]].
  2:{ rewrite Z1 in CL. rewrite Z2 in CP. destruct CL as [-> ->]. destruct CP as [-> ->]. rewrite Z1, Z2. cbn [option_map]. ring. }
  destruct (straddling _ S) as (-> & -> & E). pose proof (through_beam ln (member_ends x)) as F. set (f := through ln (member_ends x)) in *. clearbody f. rewrite E.
  destruct (s_line s k) as [[[[[pi qi2] qi3] ti] [[[pj qj2] qj3] tj]]|]; destruct CL as [-> ->]; cbn [option_map line_row].
  1:  pose proof (dist_cut ln r pi pj qi2 qj2 qi3 qj3 ti tj f ltac:(lra) ltac:(lra) ltac:(lra) F) as HL.
  all: destruct (s_point s k) as [[[[[[[F1 F2] F3] M1] M2] M3] q]|]; [destruct CP as [(_ & -> & ->)|(_ & -> & ->)]|destruct CP as [-> ->]]; cbn [option_map point_row as_list fst snd app].
  all: try pose proof (conc_left ln r F1 F2 F3 M1 M2 M3 q f ltac:(lra) ltac:(lra) F) as HP.
  all: try pose proof (conc_right ln r F1 F2 F3 M1 M2 M3 q f ltac:(lra) ltac:(lra) F) as HQ.
  all: lra.
Qed.
Lemma power_cut x : straddles x \/ (s_line s k = None /\ s_point s k = None) -> pattern_power m' p' (spread m' x) = pattern_power m p (spread m x).
Proof.
  intros S. unfold pattern_power. f_equal.
  - rewrite <- (spread_still m'). apply (based_nodes 1 0 zero3 m m' ltac:(ring) G G' BT).
    + intros i. destruct HS as (D & _). destruct HS' as (D' & _). rewrite D, D', (cs_node _ _ _ _ _ _ CS).
      destruct (s_node s i) as [[[[[[a1 a2] a3] a4] a5] a6]|]; [|reflexivity].
      cbn [option_map]. f_equal. unfold turn_six, turn_z. cbn [as_list nth vx vy vz]. repeat f_equal; ring.
    + intros i Hi. destruct (KN i Hi) as [->|H]; [right|left; exact H]. destruct HS as (D & _). rewrite D, (cs_fresh _ _ _ _ _ _ CS). reflexivity.
  - rewrite (lsum_cut (f_beams m) (f_beams m') k k2 b0 b1 b2 (member_power m p (spread m x)) (member_power m' p' (spread m' x))); auto; [|apply G|apply G'|].
    + pose proof (parts_power x S). lra.
    + intros i N1 N2. pose proof (other_beam i N1 N2) as H. destruct (dget i (f_beams m)), (dget i (f_beams m')); try contradiction; [|exact I].
      destruct H as (_ & D & V). unfold member_power. cbn [fst snd]. rewrite (V x), D. unfold pat_beam_f.
      destruct HS as (_ & DD & CC). destruct HS' as (_ & DD' & CC'). rewrite DD, DD', CC, CC', (cs_line _ _ _ _ _ _ CS _ N1 N2), (cs_point _ _ _ _ _ _ CS _ N1 N2). reflexivity.
Qed.
End Models.

(** ** Carrying the field of the ends to the cut *)
Definition bridge (r : R) (n a b : string) (pa pb : vec3) (x : string -> nat -> R) (i : string) (j : nat) : R :=
  if String.eqb i n then
    let f := through (distance pa pb) (member_ends a b pa pb x) in
    let at_x := compose (axis_x pa pb) (axis_y pa pb) (axis_z pa pb) in
    let d := at_x (disp_x f (r * distance pa pb)) in let w := at_x (rot_x f (r * distance pa pb)) in
    nth j [vx d; vy d; vz d; vx w; vy w; vz w] 0
  else x i j.
Lemma bridge_other r n a b pa pb x i j : i <> n -> bridge r n a b pa pb x i j = x i j.
Proof. intros N. unfold bridge. destruct (String.eqb_spec i n); [contradiction|reflexivity]. Qed.
Lemma bridge_straddles r n a b pa pb x : frame (axis_x pa pb) (axis_y pa pb) (axis_z pa pb) -> a <> n -> b <> n ->
  straddles r n a b pa pb (bridge r n a b pa pb x).
Proof.
  intros F NA NB'. assert (E : member_ends a b pa pb (bridge r n a b pa pb x) = member_ends a b pa pb x).
  { unfold member_ends, dvec, rvec. rewrite !bridge_other by assumption. reflexivity. }
  unfold straddles. rewrite E. unfold in_member, dvec, rvec, bridge. rewrite String.eqb_refl. cbn [nth].
  split.
  - rewrite <- (along_compose _ _ _ (disp_x _ _) (proj1 F)) at 4. f_equal. 
  - rewrite <- (along_compose _ _ _ (rot_x _ _) (proj1 F)) at 4. f_equal.
Qed.
