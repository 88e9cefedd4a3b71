(** Parts of a structure that are not connected do not affect each other (C130). *)
From Coq Require Import Reals Lra Lia List String Arith Bool ZArith Sorting.Permutation FunctionalExtensionality.
From Verif Require Import Base BaseFacts Csys Sections Element Load FeModel Assembly Solver Post Api
  SpecApi ApiFacts WfFacts HidFacts ApiProofs1 ApiProofs2 LoadFacts SpecElim ElimFacts SpecGeom CsysFacts SpecBeam BeamFacts MemberLoads AsmFacts SpecAsm AsmProofs
  AsmTotal AsmProofs2 SpecLoad LoadProofs AsmProofs3 SpecSolve AsmSolve SpecMass MassProofs ShellFacts SpecStatics StaticsProofs StaticsProofs2
  SpecTold ToldProofs SpecToldLoad ToldLoadProofs SpecPost PostProofs SpecSame SameProofs SameProofs2 StifferProofs StaticsMain SpecCut CutFacts CutProofs CutProofs2 SpecPart.
Import ListNotations.
Local Open Scope R_scope.

(** ** Sums over dictionaries that agree where the terms are not zero *)
Lemma lsum_filter {A} (h : A -> R) (q : A -> bool) l : (forall k, In k l -> q k = false -> h k = 0) -> lsum (map h (filter q l)) = lsum (map h l).
Proof.
  induction l as [|k l IH]; intros H; [reflexivity|]. cbn [filter map lsum]. specialize (IH (fun k I => H k (or_intror I))).
  destruct (q k) eqn:E; cbn [map lsum]; rewrite IH; [reflexivity|]. rewrite (H k (or_introl eq_refl) E). ring.
Qed.
Definition has (l : list string) (k : string) : bool := existsb (String.eqb k) l.
Lemma has_in l k : has l k = true <-> In k l.
Proof.
  unfold has. rewrite existsb_exists. split; [intros (z & I & E); apply String.eqb_eq in E; subst; exact I|intros I; exists k; split; [exact I|apply String.eqb_refl]].
Qed.
Lemma lsum_keyed_part {A B} (d : dict A) (d' : dict B) (g : string * A -> R) (g' : string * B -> R) :
  NoDup (dkeys d) -> NoDup (dkeys d') ->
  (forall k, match dget k d with Some v => g (k, v) | None => 0 end = match dget k d' with Some v => g' (k, v) | None => 0 end) ->
  lsum (map g d) = lsum (map g' d').
Proof.
  intros N N' H.
  assert (X : forall C (e : dict C) (h : string * C -> R), NoDup (dkeys e) ->
    lsum (map h e) = lsum (map (fun k => match dget k e with Some v => h (k, v) | None => 0 end) (dkeys e))).
  { intros C e h Ne. unfold dkeys. rewrite map_map. apply lsum_map_ext. intros [k v] I. cbn [fst].
    rewrite (in_dget_nodup _ _ _ Ne I). reflexivity. }
  rewrite (X _ d g N), (X _ d' g' N').
  rewrite <- (lsum_filter _ (has (dkeys d')) (dkeys d)), <- (lsum_filter _ (has (dkeys d)) (dkeys d')).
  - assert (P : Permutation (filter (has (dkeys d')) (dkeys d)) (filter (has (dkeys d)) (dkeys d'))).
    { apply NoDup_Permutation; [apply NoDup_filter, N|apply NoDup_filter, N'|]. intros k. rewrite !filter_In, !has_in. tauto. }
    rewrite <- (lsum_perm _ _ (Permutation_map (fun k => match dget k d' with Some v => g' (k, v) | None => 0 end) P)).
    apply lsum_map_ext. intros k _. apply H.
  - intros k _ E. rewrite <- H. destruct (dget k d) eqn:F; [|reflexivity]. exfalso.
    assert (I : In k (dkeys d)) by (apply dget_in_keys; eauto). apply has_in in I. congruence.
  - intros k _ E. rewrite H. destruct (dget k d') eqn:F; [|reflexivity]. exfalso.
    assert (I : In k (dkeys d')) by (apply dget_in_keys; eauto). apply has_in in I. congruence.
Qed.

(** ** One part of two models *)
Definition within (part : string -> bool) (x : string -> nat -> R) : Prop := forall k j, part k = false -> x k j = 0.
Definition agree (part : string -> bool) (x y : string -> nat -> R) : Prop := forall k j, part k = true -> x k j = y k j.
Lemma within_vec part x k : within part x -> part k = false -> dvec x k = zero3 /\ rvec x k = zero3.
Proof. intros W E. unfold dvec, rvec. rewrite !W by exact E. auto. Qed.
Lemma agree_vec part x y k : agree part x y -> part k = true -> dvec x k = dvec y k /\ rvec x k = rvec y k.
Proof. intros W E. unfold dvec, rvec. rewrite !(W k) by exact E. auto. Qed.

Lemma ends_named m i b x : good m -> In (i, b) (f_beams m) ->
  beam_ends m b (spread m x) = Ends (dvec x (n_name (b_ni b))) (rvec x (n_name (b_ni b))) (dvec x (n_name (b_nj b))) (rvec x (n_name (b_nj b))).
Proof.
  intros G I. destruct (proj1 (proj2 (proj2 G)) _ _ I) as [C1 C2]. apply cur_key in C1, C2. unfold beam_ends, ends_at.
  destruct (spread_disp m x _ G C1) as [-> ->]. destruct (spread_disp m x _ G C2) as [-> ->]. reflexivity.
Qed.
Lemma along_nil ex ey ez : ends_along ex ey ez (Ends zero3 zero3 zero3 zero3) = Ends zero3 zero3 zero3 zero3.
Proof.
  assert (Z : along ex ey ez zero3 = zero3) by (unfold along, dot3, zero3; cbn [vx vy vz]; f_equal; ring).
  unfold ends_along. cbn [d_i r_i d_j r_j]. rewrite Z. reflexivity.
Qed.
Lemma work12_nil f : work12 f (Ends zero3 zero3 zero3 zero3) = 0.
Proof. unfold work12. apply rsum_0. intros i Hi. unfold vec12, zero3. cbn [d_i r_i d_j r_j vx vy vz]. do 12 (destruct i as [|i]; [cbn; ring|]). lia. Qed.

(** Work within a beam, and of the loads of a beam, of displacements that vanish at its ends. *)
Lemma beam_still part m i b x y : good m -> In (i, b) (f_beams m) -> within part x -> part (n_name (b_ni b)) = false -> part (n_name (b_nj b)) = false ->
  beam_work m (spread m x) (spread m y) b = 0.
Proof.
  intros G I W E1 E2. unfold beam_work. rewrite (ends_named m i b x G I). destruct (within_vec _ _ _ W E1) as [-> ->]. destruct (within_vec _ _ _ W E2) as [-> ->].
  rewrite along_nil. apply member_work_zero.
Qed.
Lemma load_still part m p i b x : good m -> In (i, b) (f_beams m) -> within part x -> part (n_name (b_ni b)) = false -> part (n_name (b_nj b)) = false ->
  member_power m p (spread m x) (i, b) = 0.
Proof.
  intros G I W E1 E2. unfold member_power. cbn [fst snd]. rewrite (ends_named m i b x G I). destruct (within_vec _ _ _ W E1) as [-> ->]. destruct (within_vec _ _ _ W E2) as [-> ->].
  rewrite along_nil. apply work12_nil.
Qed.
Lemma load_free m p i b x : dget i (p_dist p) = None -> dget i (p_conc p) = None -> member_power m p x (i, b) = 0.
Proof.
  intros E1 E2. unfold member_power, pat_beam_f. cbn [fst snd]. rewrite E1, E2. unfold work12. apply rsum_0. intros j _. unfold vnth. rewrite zeros_nth. ring.
Qed.
Lemma shell_still part ker m i s x y : good m -> In (i, s) (f_shells m) -> within part x -> (forall n, In n (sh_nodes s) -> part (n_name n) = false) ->
  shell_work ker m (spread m x) (spread m y) s = 0.
Proof.
  intros G I W E. unfold shell_work. apply rsum_0. intros r Hr. apply rsum_0. intros q _.
  enough (Z : shell_values m s (spread m x) r = 0) by (rewrite Z; ring). unfold shell_values.
  destruct (nth_error (sh_nodes s) (r / 6)) as [n|] eqn:En.
  - apply nth_error_In in En. pose proof (cur_key _ _ (proj2 (proj2 (proj2 G)) _ _ _ I En)) as K.
    destruct (spread_disp m x _ G K) as [-> ->]. destruct (within_vec _ _ _ W (E _ En)) as [-> ->].
    destruct (Nat.ltb _ 3); unfold dot3, zero3; cbn [vx vy vz]; ring.
  - exfalso. apply nth_error_None in En. assert (r / 6 < List.length (sh_nodes s))%nat by (apply Nat.div_lt_upper_bound; [discriminate|exact Hr]). lia.
Qed.

Record share (part : string -> bool) (m m' : fem) : Prop := {
  sh_place : forall k, part k = true -> option_map n_loc (dget k (f_nodes m')) = option_map n_loc (dget k (f_nodes m));
  sh_beams : forall k b, dget k (f_beams m) = Some b ->
      (part (n_name (b_ni b)) = false /\ part (n_name (b_nj b)) = false)
      \/ (part (n_name (b_ni b)) = true /\ part (n_name (b_nj b)) = true
          /\ exists b', dget k (f_beams m') = Some b' /\ n_name (b_ni b') = n_name (b_ni b) /\ n_name (b_nj b') = n_name (b_nj b) /\ b_prop b' = b_prop b);
  sh_plates : forall k s, dget k (f_shells m) = Some s ->
      (forall n, In n (sh_nodes s) -> part (n_name n) = false)
      \/ ((forall n, In n (sh_nodes s) -> part (n_name n) = true)
          /\ exists s', dget k (f_shells m') = Some s' /\ map n_name (sh_nodes s') = map n_name (sh_nodes s) /\ sh_sec s' = sh_sec s) }.

Lemma existsb_off (part : string -> bool) l : existsb part l = false -> forall a, In a l -> part a = false.
Proof. intros E a I. destruct (part a) eqn:F; [|reflexivity]. enough (existsb part l = true) by congruence. apply existsb_exists. eauto. Qed.
Lemma share_told part m m' t t' : holds m t -> holds m' t' -> apart part t -> same_part part t t' -> share part m m'.
Proof.
  intros (N & _ & _ & _ & _ & B & S) (N' & _ & _ & _ & _ & B' & S') [A1 A2] [H1 H2 H3]. split; intros k.
  - intros P. specialize (H1 k P). rewrite <- N, <- N' in H1. destruct (dget k (f_nodes m)), (dget k (f_nodes m')); try discriminate; [|reflexivity].
    cbn [option_map fst] in H1. exact H1.
  - intros b E. specialize (H2 k). unfold beam_of in H2. specialize (B k). specialize (B' k). rewrite E in B. cbn [option_map] in B.
    symmetry in B. pose proof (A1 _ _ _ _ B) as AP. rewrite B in H2. rewrite <- AP. destruct (part (n_name (b_ni b))); [right|left; auto].
    split; [reflexivity|]. split; [reflexivity|]. rewrite <- B' in H2. destruct (dget k (f_beams m')) as [b'|]; cbn [option_map] in H2; [|discriminate].
    exists b'. split; [reflexivity|]. destruct (part (n_name (b_ni b'))); [|discriminate]. apply some_inj in H2.
    split; [exact (f_equal (fun z => fst (fst z)) H2)|]. split; [exact (f_equal (fun z => snd (fst z)) H2)|exact (f_equal snd H2)].
  - intros s E. specialize (H3 k). unfold shell_of in H3. specialize (S k). specialize (S' k). rewrite E in S. cbn [option_map] in S.
    symmetry in S. pose proof (A2 _ _ _ S) as AP. rewrite S in H3. destruct (existsb part (map n_name (sh_nodes s))) eqn:Q.
    + right. apply existsb_exists in Q as (a & Ia & Pa). split; [intros n In1; rewrite <- Pa; apply AP; [apply in_map, In1|exact Ia]|].
      rewrite <- S' in H3. destruct (dget k (f_shells m')) as [s'|]; cbn [option_map] in H3; [|discriminate]. exists s'. split; [reflexivity|].
      destruct (existsb part (map n_name (sh_nodes s'))); [|discriminate]. apply some_inj in H3. split; [exact (f_equal fst H3)|exact (f_equal snd H3)].
    + left. intros n In1. apply (existsb_off _ _ Q). apply in_map, In1.
Qed.
Lemma share_self part m t : holds m t -> apart part t -> share part m m.
Proof. intros H A. apply (share_told part m m t t H H A). split; auto. Qed.

Section Share.
Variables (part : string -> bool) (m m' : fem).
Hypothesis G : good m.
Hypothesis G' : good m'.
Hypothesis HS : share part m m'.
Hypothesis HS' : share part m' m.

Lemma share_cur n n' : cur m n -> cur m' n' -> n_name n' = n_name n -> part (n_name n) = true -> n_loc n' = n_loc n.
Proof.
  intros (x & E & L) (x' & E' & L') N P. rewrite <- L, <- L'. rewrite N in E'. pose proof (sh_place _ _ _ HS (n_name n) P) as H.
  rewrite E, E' in H. cbn in H. now apply some_inj in H.
Qed.
Lemma share_member k b b' x y : In (k, b) (f_beams m) -> In (k, b') (f_beams m') -> n_name (b_ni b') = n_name (b_ni b) -> n_name (b_nj b') = n_name (b_nj b) ->
  part (n_name (b_ni b)) = true -> part (n_name (b_nj b)) = true -> agree part x y ->
  n_loc (b_ni b') = n_loc (b_ni b) /\ n_loc (b_nj b') = n_loc (b_nj b) /\ beam_ends m' b' (spread m' y) = beam_ends m b (spread m x).
Proof.
  intros I I' N1 N2 P1 P2 AG. destruct (proj1 (proj2 (proj2 G)) _ _ I) as [C1 C2]. destruct (proj1 (proj2 (proj2 G')) _ _ I') as [C1' C2'].
  split; [apply share_cur; assumption|]. split; [apply share_cur; assumption|].
  rewrite (ends_named m k b x G I), (ends_named m' k b' y G' I'), N1, N2.
  destruct (agree_vec _ _ _ _ AG P1) as [-> ->]. destruct (agree_vec _ _ _ _ AG P2) as [-> ->]. reflexivity.
Qed.
Lemma share_beams x y y' : within part x -> agree part y y' ->
  lsum (map (beam_work m' (spread m' x) (spread m' y')) (dvals (f_beams m'))) = lsum (map (beam_work m (spread m x) (spread m y)) (dvals (f_beams m))).
Proof.
  intros W AG. unfold dvals. rewrite !map_map. symmetry. apply lsum_keyed_part; [apply G|apply G'|]. intros k. cbn [snd].
  destruct (dget k (f_beams m)) as [b|] eqn:E.
  - pose proof (dget_some_in _ _ _ E) as I. destruct (sh_beams _ _ _ HS k b E) as [[F1 F2]|(F1 & F2 & b' & E' & N1 & N2 & PR)].
    + rewrite (beam_still part m k b x y G I W F1 F2). destruct (dget k (f_beams m')) as [b'|] eqn:E'; [|reflexivity].
      pose proof (dget_some_in _ _ _ E') as I'. destruct (sh_beams _ _ _ HS' k b' E') as [[F1' F2']|(F1' & _ & b0 & E0 & N1 & _)].
      * symmetry. apply (beam_still part m' k b' x y' G' I' W F1' F2').
      * exfalso. rewrite E in E0. apply some_inj in E0. subst b0. congruence.
    + rewrite E'. pose proof (dget_some_in _ _ _ E') as I'.
      destruct (share_member k b b' x x I I' N1 N2 F1 F2 (fun _ _ _ => eq_refl)) as (L1 & L2 & EX). destruct (share_member k b b' y y' I I' N1 N2 F1 F2 AG) as (_ & _ & EY).
      unfold beam_work. rewrite L1, L2, EX, EY, PR. reflexivity.
  - destruct (dget k (f_beams m')) as [b'|] eqn:E'; [|reflexivity]. pose proof (dget_some_in _ _ _ E') as I'.
    destruct (sh_beams _ _ _ HS' k b' E') as [[F1' F2']|(F1' & _ & b0 & E0 & _)]; [|congruence].
    symmetry. apply (beam_still part m' k b' x y' G' I' W F1' F2').
Qed.

Lemma share_shell ker k s s' x y : In (k, s) (f_shells m) -> In (k, s') (f_shells m') -> map n_name (sh_nodes s') = map n_name (sh_nodes s) -> sh_sec s' = sh_sec s ->
  (forall n, In n (sh_nodes s) -> part (n_name n) = true) -> agree part x y ->
  List.length (sh_nodes s') = List.length (sh_nodes s) /\ shell_K ker s' = shell_K ker s
  /\ forall r, (r < 6 * List.length (sh_nodes s))%nat -> shell_values m' s' (spread m' y) r = shell_values m s (spread m x) r.
Proof.
  intros E E' NM SE PT AG.
  assert (CU : forall n, In n (sh_nodes s) -> cur m n) by (intros n; apply (proj2 (proj2 (proj2 G)) _ _ _ E)).
  assert (CU' : forall n, In n (sh_nodes s') -> cur m' n) by (intros n; apply (proj2 (proj2 (proj2 G')) _ _ _ E')).
  destruct (wf_shell _ (proj1 G) _ _ E) as [_ SH _]. destruct (wf_shell _ (proj1 G') _ _ E') as [_ SH' _].
  assert (LE : List.length (sh_nodes s') = List.length (sh_nodes s)) by (rewrite <- (map_length n_name), NM; apply map_length).
  assert (LC : map n_loc (sh_nodes s') = map n_loc (sh_nodes s)).
  { assert (SC : forall n n', cur m n -> cur m' n' -> n_name n' = n_name n -> part (n_name n) = true -> n_loc n' = n_loc n) by exact share_cur.
    revert NM CU CU' PT. generalize (sh_nodes s), (sh_nodes s'). clear -SC. intros l. induction l as [|n l IH]; intros [|n' l'] E CU CU' PT; try discriminate; [reflexivity|].
    cbn in E. injection E as E1 E2. cbn. f_equal.
    - apply SC; [apply CU; now left|apply CU'; now left|exact E1|apply PT; now left].
    - apply IH; [exact E2|intros; apply CU; now right|intros; apply CU'; now right|intros; apply PT; now right]. }
  split; [exact LE|].
  assert (KA : sh_csys s' = sh_csys s /\ shell_K ker s' = shell_K ker s).
  { destruct SH as [(n1 & n2 & n3 & E1 & T1 & A1)|(n1 & n2 & n3 & n4 & E1 & T1 & A1)];
    destruct SH' as [(p1 & p2 & p3 & E1' & T1' & A1')|(p1 & p2 & p3 & p4 & E1' & T1' & A1')]; rewrite E1, E1' in LE; cbn [List.length] in LE; try discriminate;
    pose proof LC as LC0; rewrite E1, E1' in LC0; cbn [map] in LC0;
    pose proof (f_equal (fun l => nth 0 l zero3) LC0) as L1; pose proof (f_equal (fun l => nth 1 l zero3) LC0) as L2; pose proof (f_equal (fun l => nth 2 l zero3) LC0) as L3;
    pose proof (f_equal (fun l => nth 3 l zero3) LC0) as L4; cbn [nth] in L1, L2, L3, L4; clear LC0.
    - rewrite L1, L2, L3 in T1', A1'. assert (AX : sh_csys s' = sh_csys s) by congruence. split; [exact AX|].
      unfold shell_K. rewrite E1, E1'. cbn [List.length Nat.eqb]. unfold tria_K. rewrite SE, A1, A1', E1, E1', AX. cbn [flat_map]. rewrite L1, L2, L3. reflexivity.
    - rewrite L1, L2, L3, L4 in T1'. assert (AX : sh_csys s' = sh_csys s) by congruence. split; [exact AX|].
      unfold shell_K. rewrite E1, E1'. cbn [List.length Nat.eqb]. unfold quad_K. rewrite SE, E1, E1', AX. cbn [flat_map]. rewrite L1, L2, L3, L4. reflexivity. }
  destruct KA as [AX KE]. split; [exact KE|].
  intros r Hr. unfold shell_values.
  pose proof (f_equal (fun l => nth_error l (r / 6)) NM) as NE. cbn beta in NE. rewrite !nth_error_map in NE.
  destruct (nth_error (sh_nodes s) (r / 6)) as [n|] eqn:En, (nth_error (sh_nodes s') (r / 6)) as [n'|] eqn:En'; try discriminate.
  - cbn in NE. apply some_inj in NE. apply nth_error_In in En, En'. pose proof (cur_key _ _ (CU _ En)) as IK. pose proof (cur_key _ _ (CU' _ En')) as IK'.
    destruct (spread_disp m x _ G IK) as [-> ->]. destruct (spread_disp m' y _ G' IK') as [-> ->]. rewrite NE, AX.
    destruct (agree_vec _ _ _ _ AG (PT _ En)) as [-> ->]. reflexivity.
  - exfalso. apply nth_error_None in En. assert (r / 6 < List.length (sh_nodes s))%nat by (apply Nat.div_lt_upper_bound; [discriminate|exact Hr]). lia.
Qed.
Lemma share_shells ker x y y' : within part x -> agree part y y' ->
  lsum (map (shell_work ker m' (spread m' x) (spread m' y')) (dvals (f_shells m'))) = lsum (map (shell_work ker m (spread m x) (spread m y)) (dvals (f_shells m))).
Proof.
  intros W AG. unfold dvals. rewrite !map_map. symmetry. apply lsum_keyed_part; [apply G|apply G'|]. intros k. cbn [snd].
  assert (NE : forall m0 s, good m0 -> In (k, s) (f_shells m0) -> exists n, In n (sh_nodes s)).
  { intros m0 s G0 I0. destruct (wf_shell _ (proj1 G0) _ _ I0) as [_ [(a & b & c & Q & _)|(a & b & c & d & Q & _)] _]; exists a; rewrite Q; now left. }
  destruct (dget k (f_shells m)) as [s|] eqn:E.
  - pose proof (dget_some_in _ _ _ E) as I. destruct (sh_plates _ _ _ HS k s E) as [F|(F & s' & E' & NM & SE)].
    + rewrite (shell_still part ker m k s x y G I W F). destruct (dget k (f_shells m')) as [s'|] eqn:E'; [|reflexivity].
      pose proof (dget_some_in _ _ _ E') as I'. destruct (sh_plates _ _ _ HS' k s' E') as [F'|(F' & s0 & E0 & NM & _)].
      * symmetry. apply (shell_still part ker m' k s' x y' G' I' W F').
      * exfalso. rewrite E in E0. apply some_inj in E0. subst s0. destruct (NE m' s' G' I') as [n In1]. pose proof (F' _ In1) as T.
        apply (in_map n_name) in In1. rewrite <- NM in In1. apply in_map_iff in In1 as (n0 & N0 & I0). pose proof (F _ I0). congruence.
    + rewrite E'. pose proof (dget_some_in _ _ _ E') as I'.
      destruct (share_shell ker k s s' x x I I' NM SE F (fun _ _ _ => eq_refl)) as (LE & KE & VX). destruct (share_shell ker k s s' y y' I I' NM SE F AG) as (_ & _ & VY).
      unfold shell_work. rewrite LE. apply rsum_ext. intros r Hr. apply rsum_ext. intros q Hq. rewrite KE, VX, VY by assumption. reflexivity.
  - destruct (dget k (f_shells m')) as [s'|] eqn:E'; [|reflexivity]. pose proof (dget_some_in _ _ _ E') as I'.
    destruct (sh_plates _ _ _ HS' k s' E') as [F'|(_ & s0 & E0 & _)]; [|congruence].
    symmetry. apply (shell_still part ker m' k s' x y' G' I' W F').
Qed.

(** ** Loads *)
Lemma node_still mm p x k : good mm -> within part x -> part k = false -> In k (dkeys (f_nodes mm)) -> node_power mm p (spread mm x) k = 0.
Proof.
  intros GG W P I. unfold node_power. destruct (spread_disp mm x k GG I) as [-> ->]. destruct (within_vec _ _ _ W P) as [-> ->].
  unfold dot3, zero3. cbn [vx vy vz]. ring.
Qed.
Lemma share_power p p' x : within part x -> (forall k, part k = true -> dget k (p_nodal p') = dget k (p_nodal p)) ->
  (forall k b, dget k (f_beams m) = Some b -> part (n_name (b_ni b)) = true -> dget k (p_dist p') = dget k (p_dist p) /\ dget k (p_conc p') = dget k (p_conc p)) ->
  pattern_power m' p' (spread m' x) = pattern_power m p (spread m x).
Proof.
  intros W HN HB. unfold pattern_power. f_equal.
  - unfold dkeys. rewrite !map_map. symmetry. apply lsum_keyed_part; [apply G|apply G'|]. intros k. cbn [fst].
    destruct (part k) eqn:P.
    + pose proof (sh_place _ _ _ HS k P) as L. destruct (dget k (f_nodes m)) as [n|] eqn:E, (dget k (f_nodes m')) as [n'|] eqn:E'; try discriminate; [|reflexivity].
      assert (I : In k (dkeys (f_nodes m))) by (apply dget_in_keys; eauto). assert (I' : In k (dkeys (f_nodes m'))) by (apply dget_in_keys; eauto).
      unfold node_power. destruct (spread_disp m x k G I) as [-> ->]. destruct (spread_disp m' x k G' I') as [-> ->].
      unfold node_force, node_moment, triple, load_entry. rewrite (HN k P). reflexivity.
    + transitivity 0; [|symmetry].
      * destruct (dget k (f_nodes m)) as [n|] eqn:E; [|reflexivity]. apply node_still; auto. apply dget_in_keys; eauto.
      * destruct (dget k (f_nodes m')) as [n|] eqn:E; [|reflexivity]. apply node_still; auto. apply dget_in_keys; eauto.
  - symmetry. apply lsum_keyed_part; [apply G|apply G'|]. intros k.
    destruct (dget k (f_beams m)) as [b|] eqn:E.
    + pose proof (dget_some_in _ _ _ E) as I. destruct (sh_beams _ _ _ HS k b E) as [[F1 F2]|(F1 & F2 & b' & E' & N1 & N2 & PR)].
      * rewrite (load_still part m p k b x G I W F1 F2). destruct (dget k (f_beams m')) as [b'|] eqn:E'; [|reflexivity].
        pose proof (dget_some_in _ _ _ E') as I'. destruct (sh_beams _ _ _ HS' k b' E') as [[F1' F2']|(F1' & _ & b0 & E0 & N1 & _)].
        -- symmetry. apply (load_still part m' p' k b' x G' I' W F1' F2').
        -- exfalso. rewrite E in E0. apply some_inj in E0. subst b0. congruence.
      * rewrite E'. pose proof (dget_some_in _ _ _ E') as I'.
        destruct (share_member k b b' x x I I' N1 N2 F1 F2 (fun _ _ _ => eq_refl)) as (L1 & L2 & EX).
        destruct (HB k b E F1) as [D C]. unfold member_power, pat_beam_f. cbn [fst snd]. rewrite L1, L2, EX, D, C. reflexivity.
    + destruct (dget k (f_beams m')) as [b'|] eqn:E'; [|reflexivity]. pose proof (dget_some_in _ _ _ E') as I'.
      destruct (sh_beams _ _ _ HS' k b' E') as [[F1' F2']|(F1' & _ & b0 & E0 & _)]; [|congruence].
      symmetry. apply (load_still part m' p' k b' x G' I' W F1' F2').
Qed.
End Share.
Lemma idle_power part m t p s x : good m -> holds m t -> apart part t -> holds_sheet p s -> within part x -> idle part t s -> pattern_power m p (spread m x) = 0.
Proof.
  intros G H A (S1 & S2 & S3) W [I1 I2]. unfold pattern_power. replace 0 with (0 + 0) by ring.
  assert (Z : forall C (f : C -> R) l, (forall z, In z l -> f z = 0) -> lsum (map f l) = 0).
  { intros C f l. induction l as [|z l IH]; intros Q; [reflexivity|]. cbn. rewrite (Q z (or_introl eq_refl)), (IH (fun z I => Q z (or_intror I))). ring. }
  f_equal; apply Z.
  - intros k Hk. destruct (part k) eqn:P; [|apply (node_still part m p x k G W P Hk)].
    unfold node_power, node_force, node_moment, triple, load_entry. rewrite S1, (I1 k P). cbn [option_map]. unfold dot3. cbn [vx vy vz nth]. ring.
  - intros [k b] Hb. pose proof (in_dget_nodup _ _ _ (wf_beam_nodup _ (proj1 G)) Hb) as E.
    destruct (sh_beams _ _ _ (share_self part m t H A) k b E) as [[F1 F2]|(F1 & F2 & _)]; [apply (load_still part m p k b x G Hb W F1 F2)|].
    assert (BO : beam_of part t k <> None).
    { unfold beam_of. destruct H as (_ & _ & _ & _ & _ & B & _). rewrite <- B, E. cbn [option_map]. rewrite F1. discriminate. }
    destruct (I2 k BO) as [Q1 Q2]. apply load_free; [rewrite S2, Q1|rewrite S3, Q2]; reflexivity.
Qed.
