(** Element matrices of beams: exactness, kernel, releases, mass; acceptance of beams. *)
From Coq Require Import Reals Lra Lia List String Arith Bool.
From Verif Require Import Base BaseFacts Csys Sections Element Load FeModel Assembly Solver Post Api
  SpecApi ApiFacts SpecGeom CsysFacts SpecBeam BeamFacts SpecAsm AsmFacts AsmProofs AsmProofs2 Demo.
Import ListNotations.
Local Open Scope R_scope.

Lemma mk_beam_inv name ni nj p b : mk_beam name ni nj p = Some b ->
  exists c, line_csys (n_loc ni) (n_loc nj) = Some c /\ b = Beam name ni nj c no_releases p.
Proof.
  unfold mk_beam. destruct (line_csys _ _) as [c|]; [|discriminate]. intros H. injection H as <-. eauto.
Qed.

Lemma mk_beam_length name ni nj p b : mk_beam name ni nj p = Some b ->
  b_length b = distance (n_loc ni) (n_loc nj) /\ 0 < b_length b /\ b_prop b = p.
Proof.
  intros H. apply mk_beam_inv in H as (c & Hc & ->). unfold b_length; cbn [b_ni b_nj b_prop].
  destruct (line_csys_some _ _ _ Hc) as (_ & L & _). rewrite norm_distance in *.
  assert (E : distance (n_loc ni) (n_loc nj) = norm (vsub (n_loc ni) (n_loc nj))) by (rewrite norm_distance; reflexivity).
  rewrite <- norm_distance. split; [reflexivity|]. split; [|reflexivity]. rewrite norm_distance. exact L.
Qed.

(** ** C36 *)
Lemma beam_K_inv b k : beam_K b = Some k ->
  1 + poisson (b_prop b) <> 0 /\
  exists E G A I2 I3 J, k = beam_K_mat E G A I2 I3 J (b_length b) /\ beam_stiff E G A I2 I3 J = props (b_prop b).
Proof.
  unfold beam_K. destruct (Reqb _ 0) eqn:M; [discriminate|]. apply Reqb_false in M. intros H. apply some_inj in H. subst k.
  split; [exact M|]. exists (bp_E (b_prop b)), (bp_G (b_prop b)), (bp_A (b_prop b)), (bp_I2 (b_prop b)), (bp_I3 (b_prop b)), (bp_J (b_prop b)).
  destruct (b_prop b) as [s|E mu A I2 I3 J rho]; cbn [bp_mu] in M.
  - split; [reflexivity|]. unfold beam_stiff, props, bp_E, bp_G, bp_A, bp_I2, bp_I3, bp_J, mat_G. f_equal. field. lra.
  - split; [reflexivity|]. unfold beam_stiff, props, bp_E, bp_G, bp_A, bp_I2, bp_I3, bp_J. f_equal. field. lra.
Qed.

Lemma c36_defined name ni nj p b : mk_beam name ni nj p = Some b ->
  ((exists k, beam_K b = Some k) <-> 1 + poisson p <> 0).
Proof.
  intros H. destruct (mk_beam_length _ _ _ _ _ H) as (_ & _ & Ep). split.
  - intros [k Hk]. apply beam_K_inv in Hk as [Hk _]. rewrite Ep in Hk. exact Hk.
  - intros M. unfold beam_K. destruct (Reqb (1 + bp_mu (b_prop b)) 0) eqn:Z; [|eauto].
    apply Reqb_true in Z. rewrite Ep in Z. exfalso. apply M. exact Z.
Qed.

Lemma c36_exact name ni nj p b k f i :
  mk_beam name ni nj p = Some b -> beam_K b = Some k -> beam_field f -> (i < 12)%nat ->
  let l := distance (n_loc ni) (n_loc nj) in
  rsum 12 (fun j => k i j * nth j (vec12 (ends_of_field f l)) 0)
  = nth i (vec12 (end_forces (props p) f l)) 0.
Proof.
  intros H HK F Hi l. destruct (mk_beam_length _ _ _ _ _ H) as (El & Lp & Ep).
  destruct (beam_K_inv _ _ HK) as (_ & E & G & A & I2 & I3 & J & -> & S). rewrite Ep in S.
  rewrite El in *. fold l in Lp |- *. rewrite <- S. apply beam_field_forces; [lra|exact F|exact Hi].
Qed.

(** every choice of end displacements comes from one such field *)
Lemma c36_fields l d : l <> 0 -> exists f, beam_field f /\ ends_of_field f l = d.
Proof. apply field_exists. Qed.

(** ** C37 *)
Lemma c37_symmetric b k i j : beam_K b = Some k -> (i < 12)%nat -> (j < 12)%nat -> k i j = k j i.
Proof.
  intros HK Hi Hj. destruct (beam_K_inv _ _ HK) as (_ & E & G & A & I2 & I3 & J & -> & _).
  generalize (b_length b). intros l. unfold beam_K_mat, beam_K_data.
  do 12 (destruct i as [|i]; [do 12 (destruct j as [|j]; [cbn; ring|]); lia|]). lia.
Qed.

Lemma beam_K_form name ni nj p b k d e : mk_beam name ni nj p = Some b -> beam_K b = Some k ->
  form12 k d e = member_work (props p) (distance (n_loc ni) (n_loc nj)) d e.
Proof.
  intros H HK. destruct (mk_beam_length _ _ _ _ _ H) as (El & Lp & Ep).
  rewrite (beam_K_work _ _ _ _ HK Lp), Ep, El. reflexivity.
Qed.

Lemma c37_kernel name ni nj p b k d : mk_beam name ni nj p = Some b -> beam_K b = Some k ->
  stiff_pos (props p) ->
  0 <= form12 k d d
  /\ (form12 k d d = 0 <-> exists t w, d = rigid_ends t w (distance (n_loc ni) (n_loc nj))).
Proof.
  intros H HK S. destruct (mk_beam_length _ _ _ _ _ H) as (El & Lp & Ep). rewrite El in Lp.
  rewrite (beam_K_form _ _ _ _ _ _ _ _ H HK). split.
  - apply member_nonneg; [|exact Lp]. destruct S as (S1 & S2 & S3 & S4). repeat split; left; assumption.
  - apply member_zero; assumption.
Qed.

(** ** C60 *)

Lemma c60_agree n1 n2 ni nj s :
  (mk_beam n1 ni nj (PSection s) = None <-> mk_beam n2 ni nj (constants s) = None)
  /\ forall b1 b2, mk_beam n1 ni nj (PSection s) = Some b1 -> mk_beam n2 ni nj (constants s) = Some b2 ->
     beam_T b1 = beam_T b2 /\ beam_M b1 = beam_M b2 /\ beam_K b1 = beam_K b2.
Proof.
  unfold mk_beam. destruct (line_csys _ _) as [c|]; split.
  - split; intros H; discriminate.
  - intros b1 b2 H1 H2. injection H1 as <-. injection H2 as <-. repeat split.
  - split; reflexivity.
  - intros b1 b2 H1. discriminate.
Qed.

(** ** C39 *)

Lemma fold_last {A} (rel : nat -> bool) (g : nat -> A) L k0 n :
  (forall m, In m L -> rel m = false) ->
  fold_left (fun acc m => if rel m then g m else acc) (n :: L) k0 = (if rel n then g n else k0).
Proof.
  intros H. simpl. revert H. generalize (if rel n then g n else k0). induction L as [|m L IH]; intros x H; [reflexivity|].
  simpl. rewrite (H m) by (left; reflexivity). apply IH. intros; apply H; right; assumption.
Qed.

Lemma condensate_last rel k n : last_released rel n ->
  condensate rel k = (fun i j => k i j - k i n * k n j / k n n).
Proof.
  intros (Hn & Hr & Hm). unfold condensate.
  replace (seq 0 12) with (seq 0 n ++ seq n (12 - n))%list by (rewrite <- seq_app; f_equal; lia).
  rewrite fold_left_app. replace (12 - n)%nat with (S (11 - n)) by lia. cbn [seq].
  rewrite (fold_last (fun m => nth m rel false) (fun n => fun i j => k i j - k i n * k n j / k n n)).
  - rewrite Hr. reflexivity.
  - intros m Hin. apply in_seq in Hin. apply Hm. lia.
Qed.


(** energy of the condensed matrix = energy of the member with the released
    displacement set so that the released force vanishes *)
Lemma pick_n n v : (n < 12)%nat -> rsum 12 (fun i => if Nat.eqb i n then v i else 0) = v n.
Proof.
  intros Hn. rewrite (rsum_single 12 n) by (exact Hn || (intros j _ Hj; apply Nat.eqb_neq in Hj; rewrite Hj; reflexivity)).
  rewrite Nat.eqb_refl. reflexivity.
Qed.

Lemma quad12_row k x : quad12 k x = rsum 12 (fun i => x i * rsum 12 (fun j => k i j * x j)).
Proof. unfold quad12. apply rsum_ext. intros. rewrite <- rsum_scal. apply rsum_ext. intros. ring. Qed.

Lemma condensed_energy k n x : (n < 12)%nat -> k n n <> 0 -> (forall i j, (i < 12)%nat -> (j < 12)%nat -> k i j = k j i) ->
  quad12 (fun i j => k i j - k i n * k n j / k n n) x
  = quad12 k (fun i => if Nat.eqb i n then x i - rsum 12 (fun j => k n j * x j) / k n n else x i).
Proof.
  intros Hn Hp Hs. set (a := rsum 12 (fun j => k n j * x j)). set (s := a / k n n).
  assert (L : quad12 (fun i j => k i j - k i n * k n j / k n n) x = quad12 k x - s * a).
  { rewrite !quad12_row. transitivity (rsum 12 (fun i => x i * rsum 12 (fun j => k i j * x j) - s * (k n i * x i))).
    - apply rsum_ext. intros i Hi.
      replace (rsum 12 (fun j => (k i j - k i n * k n j / k n n) * x j))
        with (rsum 12 (fun j => k i j * x j) - k i n / k n n * a).
      2:{ unfold a. rewrite <- rsum_scal, <- rsum_minus. apply rsum_ext. intros. field. exact Hp. }
      rewrite (Hs i n) by assumption. unfold s. field. exact Hp.
    - rewrite rsum_minus, rsum_scal. reflexivity. }
  rewrite L, quad12_row. set (y := fun i => if Nat.eqb i n then x i - s else x i).
  assert (Y : forall c, rsum 12 (fun i => c i * y i) = rsum 12 (fun i => c i * x i) - c n * s).
  { intros c. rewrite <- (pick_n n (fun i => c i * s) Hn), <- rsum_minus. apply rsum_ext. intros i _. unfold y.
    destruct (Nat.eqb i n); ring. }
  symmetry. rewrite quad12_row.
  transitivity (rsum 12 (fun i => (rsum 12 (fun j => k i j * x j) - k i n * s) * y i)).
  { apply rsum_ext. intros i _. rewrite (Y (fun j => k i j)). ring. }
  rewrite (Y (fun i => rsum 12 (fun j => k i j * x j) - k i n * s)). fold a.
  replace (rsum 12 (fun i => (rsum 12 (fun j => k i j * x j) - k i n * s) * x i))
    with (rsum 12 (fun i => x i * rsum 12 (fun j => k i j * x j)) - s * a).
  2:{ unfold a. rewrite <- rsum_scal, <- rsum_minus. apply rsum_ext. intros i Hi. rewrite (Hs i n) by assumption. ring. }
  unfold s. field. exact Hp.
Qed.

Lemma c39_last_partial b k rel n : beam_K b = Some k -> last_released rel n -> 0 < k n n ->
  let k' := condensate rel k in
  (forall i, (i < 12)%nat -> k' i n = 0 /\ k' n i = 0)
  /\ (forall i j, (i < 12)%nat -> (j < 12)%nat -> k' i j = k' j i)
  /\ (forall x, quad12 k' x = quad12 k (fun i => if Nat.eqb i n then x i - rsum 12 (fun j => k n j * x j) / k n n else x i))
  /\ ((forall x, 0 <= quad12 k x) -> forall x, 0 <= quad12 k' x).
Proof.
  intros HK HL Hp k'. pose proof HL as (Hn & _). unfold k'. rewrite (condensate_last _ _ _ HL).
  assert (Hs : forall i j, (i < 12)%nat -> (j < 12)%nat -> k i j = k j i) by (intros; eapply c37_symmetric; eauto).
  split; [|split; [|split]].
  - intros i Hi. split; field; lra.
  - intros i j Hi Hj. rewrite (Hs i j), (Hs i n), (Hs n j) by assumption. field. lra.
  - intros x. apply condensed_energy; [exact Hn|lra|exact Hs].
  - intros P x. rewrite condensed_energy by (exact Hn || lra || exact Hs). apply P.
Qed.

Lemma condensate_f_last rel f k n : last_released rel n ->
  condensate_f rel f k = map (fun i => nth i f 0 - nth n f 0 * k n i / k n n) (seq 0 12).
Proof.
  intros (Hn & Hr & Hm). unfold condensate_f.
  set (g := fun n => map (fun i => nth i f 0 - nth n f 0 * k n i / k n n) (seq 0 12)).
  change (fold_left (fun r_ m => if nth m rel false then g m else r_) (seq 0 12) f = g n). clearbody g.
  replace (seq 0 12) with (seq 0 n ++ seq n (12 - n))%list by (rewrite <- seq_app; f_equal; lia).
  rewrite fold_left_app. replace (12 - n)%nat with (S (11 - n)) by lia. cbn [seq].
  rewrite (fold_last (fun m => nth m rel false) g).
  - rewrite Hr. reflexivity.
  - intros m Hin. apply in_seq in Hin. apply Hm. lia.
Qed.

Lemma c39_load_partial b k rel n f : beam_K b = Some k -> last_released rel n -> 0 < k n n ->
  let k' := condensate rel k in let f' := condensate_f rel f k in
  nth n f' 0 = 0
  /\ (forall d, rsum 12 (fun j => k n j * d j) = nth n f 0 -> forall i, (i < 12)%nat ->
      rsum 12 (fun j => k' i j * d j) - nth i f' 0 = rsum 12 (fun j => k i j * d j) - nth i f 0)
  /\ (forall d, (forall i, (i < 12)%nat -> i <> n -> rsum 12 (fun j => k' i j * d j) = nth i f' 0) ->
      let e := fun i => if Nat.eqb i n then d i + (nth n f 0 - rsum 12 (fun j => k n j * d j)) / k n n else d i in
      forall i, (i < 12)%nat -> rsum 12 (fun j => k i j * e j) = nth i f 0).
Proof.
  intros HK HL Hp k' f'. pose proof HL as (Hn & _).
  assert (Hs : forall i j, (i < 12)%nat -> (j < 12)%nat -> k i j = k j i) by (intros; eapply c37_symmetric; eauto).
  assert (F : forall i, (i < 12)%nat -> nth i f' 0 = nth i f 0 - nth n f 0 * k n i / k n n).
  { intros i Hi. unfold f'. rewrite (condensate_f_last _ _ _ _ HL).
    rewrite (nth_indep _ 0 ((fun i => nth i f 0 - nth n f 0 * k n i / k n n) 0%nat)) by (rewrite map_length, seq_length; exact Hi).
    rewrite (map_nth (fun i => nth i f 0 - nth n f 0 * k n i / k n n)), seq_nth by exact Hi. reflexivity. }
  assert (Kd : forall d i, (i < 12)%nat -> rsum 12 (fun j => k' i j * d j) = rsum 12 (fun j => k i j * d j) - k i n / k n n * rsum 12 (fun j => k n j * d j)).
  { intros d i Hi. unfold k'. rewrite (condensate_last _ _ _ HL). rewrite <- rsum_scal, <- rsum_minus.
    apply rsum_ext; intros j _. field. lra. }
  split; [rewrite F by exact Hn; field; lra|]. split.
  - intros d E i Hi. rewrite Kd, F, E by exact Hi. rewrite (Hs n i) by assumption. field. lra.
  - intros d E e.
    assert (Ke : forall i, rsum 12 (fun j => k i j * e j) = rsum 12 (fun j => k i j * d j) + k i n * ((nth n f 0 - rsum 12 (fun j => k n j * d j)) / k n n)).
    { intros i. rewrite <- (pick_n n (fun j => k i j * ((nth n f 0 - rsum 12 (fun j => k n j * d j)) / k n n)) Hn), <- rsum_plus.
      apply rsum_ext; intros j _. unfold e. destruct (Nat.eqb j n); ring. }
    intros i Hi. rewrite Ke. destruct (Nat.eq_dec i n) as [->|Hin]; [field; lra|].
    pose proof (E i Hi Hin) as Q. rewrite Kd, F in Q by exact Hi. rewrite (Hs n i) in Q by assumption.
    set (S1 := rsum 12 (fun j => k i j * d j)) in *. set (S2 := rsum 12 (fun j => k n j * d j)) in *.
    replace S1 with (nth i f 0 - nth n f 0 * k i n / k n n + k i n / k n n * S2) by lra. field. lra.
Qed.

(** both ends released about z: the start still transmits a moment, for every beam *)
Lemma c39_two_hinges name ni nj p b k rel :
  mk_beam name ni nj p = Some b -> beam_K b = Some k -> 0 < EI3 (props p) ->
  nth 5 rel false = true -> nth 11 rel false = true ->
  condensate rel k 5%nat 5%nat = 3 * EI3 (props p) / distance (n_loc ni) (n_loc nj).
Proof.
  intros H HK P R5 R11. destruct (mk_beam_length _ _ _ _ _ H) as (El & Lp & Ep).
  destruct (beam_K_inv _ _ HK) as (_ & E & G & A & I2 & I3 & J & -> & S). rewrite Ep in S. rewrite El in *.
  set (l := distance _ _) in *. rewrite <- S in *. unfold beam_stiff in *. cbn [EI3] in *.
  rewrite (condensate_last _ _ 11%nat).
  - unfold beam_K_mat, beam_K_data. cbn. field. repeat split; try lra; intros Z; rewrite Z in P; lra.
  - split; [lia|]. split; [exact R11|]. intros m Hm. lia.
Qed.

Lemma end_rotation name ni nj p b k :
  mk_beam name ni nj p = Some b -> beam_K b = Some k ->
  k 5%nat 5%nat = 4 * EI3 (props p) / distance (n_loc ni) (n_loc nj).
Proof.
  intros H HK. destruct (mk_beam_length _ _ _ _ _ H) as (El & Lp & Ep).
  destruct (beam_K_inv _ _ HK) as (_ & E & G & A & I2 & I3 & J & -> & S). rewrite Ep in S. rewrite El in *.
  set (l := distance _ _) in *. rewrite <- S in *. unfold beam_stiff in *. cbn [EI3] in *.
  unfold beam_K_mat, beam_K_data. cbn. field. repeat split; try lra.
Qed.

Lemma rel_all_12 : nth 5 (repeat true 12) false = true /\ nth 11 (repeat true 12) false = true.
Proof. split; reflexivity. Qed.

(** ** C40, element level *)
Lemma c40_element name ni nj p b t d e : mk_beam name ni nj p = Some b ->
  form12 (beam_M b) (Ends t zero3 t zero3) (Ends t zero3 t zero3)
    = bp_rho p * bp_A p * distance (n_loc ni) (n_loc nj) * dot3 t t
  /\ (forall i j, beam_M b i j = beam_M b j i)
  /\ form12 (beam_M b) d e
     = bp_rho p * bp_A p * distance (n_loc ni) (n_loc nj) / 2 * (dot3 (d_i d) (d_i e) + dot3 (d_j d) (d_j e))
       + 1 / 1000000000000 * (dot3 (r_i d) (r_i e) + dot3 (r_j d) (r_j e)).
Proof.
  intros H. destruct (mk_beam_length _ _ _ _ _ H) as (El & Lp & Ep).
  assert (F : forall d e, form12 (beam_M b) d e
     = bp_rho p * bp_A p * distance (n_loc ni) (n_loc nj) / 2 * (dot3 (d_i d) (d_i e) + dot3 (d_j d) (d_j e))
       + 1 / 1000000000000 * (dot3 (r_i d) (r_i e) + dot3 (r_j d) (r_j e))).
  { intros d' e'. unfold beam_M. rewrite Ep, El.
    destruct d' as [[a1 a2 a3] [a4 a5 a6] [a7 a8 a9] [a10 a11 a12]].
    destruct e' as [[b1 b2 b3] [b4 b5 b6] [b7 b8 b9] [b10 b11 b12]].
    destruct p; unfold form12, vec12, lumped_M, simple_lumped_M, is_rot, dot3; cbn [d_i d_j r_i r_j vx vy vz]; cbn; field. }
  split; [|split; [|apply F]].
  - rewrite F. cbn [d_i d_j r_i r_j]. unfold zero3, dot3; cbn [vx vy vz]. field.
  - intros i j. unfold beam_M. destruct (b_prop b); unfold lumped_M, simple_lumped_M; rewrite (Nat.eqb_sym j i);
      destruct (Nat.eqb i j) eqn:Q; try reflexivity; apply Nat.eqb_eq in Q; subst; reflexivity.
Qed.

(** the consistent matrix (an option of integrate_M, not used by the assembly) *)
Lemma c40_consistent_refuted rho A J l : rho * A * l <> 0 -> A <> 0 ->
  consistent_M rho A J l 0%nat 6%nat <> consistent_M rho A J l 6%nat 0%nat
  /\ forall t, form12 (consistent_M rho A J l) (Ends t zero3 t zero3) (Ends t zero3 t zero3)
     = rho * A * l * (5/6 * vx t ^ 2 + vy t ^ 2 + vz t ^ 2).
Proof.
  intros H HA. split.
  - unfold consistent_M, consistent_M_data. cbn. intros Z. apply H. lra.
  - intros [x y z]. unfold form12, consistent_M, vec12, zero3. cbn [d_i d_j r_i r_j vx vy vz].
    unfold consistent_M_data. cbn. field. exact HA.
Qed.

(** ** C35 *)
Lemma sep_dec p q : well_separated p q \/ ~ well_separated p q.
Proof.
  unfold well_separated.
  destruct (Rle_lt_dec (2 / 1000000000) (plan_offset p q)); [left; left; assumption|].
  destruct (Rlt_le_dec (plan_offset p q) (1 / 1000000000)); [|right; intros [?|[? ?]]; lra].
  destruct (Rle_lt_dec (2 / 1000000000) (rise p q)); [left; right; split; assumption|right; intros [?|[? ?]]; lra].
Qed.

Lemma mk_beam_sep name ni nj p :
  (well_separated (n_loc ni) (n_loc nj) /\ exists b, mk_beam name ni nj p = Some b)
  \/ (~ well_separated (n_loc ni) (n_loc nj) /\ mk_beam name ni nj p = None).
Proof.
  pose proof (line_csys_none (n_loc ni) (n_loc nj)) as [H1 H2]. unfold mk_beam.
  destruct (sep_dec (n_loc ni) (n_loc nj)) as [S|S].
  - left. split; [exact S|]. destruct (line_csys _ _) as [c|]; [eauto|]. exfalso. apply H1; auto.
  - right. split; [exact S|]. rewrite (H2 S). reflexivity.
Qed.

Lemma loc_answer ext w a p : answer ext w (OpNodeLocation a) = RVec3 p ->
  exists n, dget a (f_nodes (k_fem (w_core w))) = Some n /\ n_loc n = p.
Proof.
  unfold answer. cbn [step snd ret]. unfold ret, model_node_location. cbn [snd].
  destruct (dget a _) as [n|]; cbn [bindO]; [|discriminate]. intros H. injection H as <-. eauto.
Qed.


Lemma c35_iff_partial ext w o a b p q : adds_beam_between w o a b ->
  answer ext w (OpNodeLocation a) = RVec3 p -> answer ext w (OpNodeLocation b) = RVec3 q ->
  (well_separated p q -> answer ext w o = RBool true)
  /\ (~ well_separated p q -> answer ext w o = RBool false /\ after ext w o = w).
Proof.
  intros HO Ha Hb. apply loc_answer in Ha as (ni & Hi & <-). apply loc_answer in Hb as (nj & Hj & <-).
  destruct HO as [(name & sec & s & -> & Hs)|(name & E & mu & A & I2 & I3 & J & rho & ->)];
    unfold answer, after; cbn [step]; unfold model_add_beam, model_add_simple_beam;
    rewrite Hi, Hj, ?Hs; cbn [bindO]; unfold model_put_beam.
  - destruct (mk_beam_sep name ni nj (PSection s)) as [(S & x & ->)|(S & ->)]; cbn [bindO]; split; intros H; try contradiction; [|split]; reflexivity.
  - destruct (mk_beam_sep name ni nj (PSimple E mu A I2 I3 J rho)) as [(S & x & ->)|(S & ->)]; cbn [bindO]; split; intros H; try contradiction; [|split]; reflexivity.
Qed.

Lemma c35_coincident ext w o a b p : adds_beam_between w o a b ->
  answer ext w (OpNodeLocation a) = RVec3 p -> answer ext w (OpNodeLocation b) = RVec3 p ->
  answer ext w o = RBool false /\ after ext w o = w.
Proof.
  intros HO Ha Hb. apply (c35_iff_partial _ _ _ _ _ _ _ HO Ha Hb). apply same_point_not_separated.
Qed.

(** steep but clearly separated end points are rejected *)
Definition steep : list op := [OpAddNode "A" 0 0 0; OpAddNode "B" (3 / 2000000000) 0 1000].
Lemma c35_refuted : exists ops a b p q o, forall ext, let w := final ext init ops in
  adds_beam_between w o a b /\ answer ext w (OpNodeLocation a) = RVec3 p /\ answer ext w (OpNodeLocation b) = RVec3 q
  /\ 1000 <= distance p q /\ answer ext w o = RBool false.
Proof.
  exists steep, "A"%string, "B"%string, (V3 0 0 0), (V3 (3 / 2000000000) 0 1000),
    (OpAddSimpleBeam "b" "A" "B" 1 0 1 1 1 1 1). intros ext w.
  assert (HO : adds_beam_between w (OpAddSimpleBeam "b" "A" "B" 1 0 1 1 1 1 1) "A" "B") by (right; do 8 eexists; reflexivity).
  assert (Ha : answer ext w (OpNodeLocation "A") = RVec3 (V3 0 0 0)).
  { unfold w, final, steep. cbn [run]. rewrite !step_add_node. reflexivity. }
  assert (Hb : answer ext w (OpNodeLocation "B") = RVec3 (V3 (3 / 2000000000) 0 1000)).
  { unfold w, final, steep. cbn [run]. rewrite !step_add_node. reflexivity. }
  split; [exact HO|]. split; [exact Ha|]. split; [exact Hb|]. split.
  - unfold distance; cbn [vx vy vz]. rewrite <- (sqrt_square 1000) at 1 by lra. apply sqrt_le_1_alt.
    pose proof (pow2_ge_0 (0 - 3 / 2000000000)). lra.
  - apply (c35_iff_partial _ _ _ _ _ _ _ HO Ha Hb). unfold well_separated, plan_offset; cbn [vx vy vz].
    assert (E : Rmax (Rabs (0 - 3 / 2000000000)) (Rabs (0 - 0)) = 3 / 2000000000).
    { rewrite Rabs_left by lra. replace (0 - 0) with 0 by ring. rewrite Rabs_R0, Rmax_left; lra. }
    rewrite E. intros [H|[H _]]; lra.
Qed.

(** ** C39 refuted in one instance *)
Lemma c39_refuted : exists name ni nj p b k rel n, mk_beam name ni nj p = Some b /\ beam_K b = Some k
  /\ (n < 12)%nat /\ nth n rel false = true /\ k n n <> 0 /\ condensate rel k n n <> 0.
Proof.
  exists "b"%string, nodeA, nodeB, (PSimple 1 0 1 1 1 1 1), demo_beam.
  destruct (proj2 (c36_defined _ _ _ _ _ demo_beam_eq)) as [k Hk]; [cbn; lra|].
  exists k, (repeat true 12), 5%nat. split; [exact demo_beam_eq|]. split; [exact Hk|]. split; [lia|]. split; [reflexivity|].
  destruct (mk_beam_length _ _ _ _ _ demo_beam_eq) as (El & Lp & Ep). split.
  - destruct (beam_K_inv _ _ Hk) as (_ & E & G & A & I2 & I3 & J & -> & S).
    assert (S3 : E * I3 = 1 * 1) by (apply (f_equal EI3) in S; rewrite Ep in S; exact S).
    unfold beam_K_mat, beam_K_data. cbn. intros Z.
    assert (4 * (E * I3) / b_length demo_beam = 0) by (rewrite <- Z; field; lra).
    rewrite S3 in H. assert (0 < 4 * (1 * 1) / b_length demo_beam) by (apply Rdiv_lt_0_compat; lra). lra.
  - rewrite (c39_two_hinges _ _ _ _ _ _ _ demo_beam_eq Hk) by (cbn; lra || reflexivity).
    rewrite <- El. assert (0 < 3 * EI3 (props (PSimple 1 0 1 1 1 1 1)) / b_length demo_beam) by (apply Rdiv_lt_0_compat; cbn; lra). lra.
Qed.
Lemma c40_consistent_exists : exists rho A J l, 0 < rho /\ 0 < A /\ 0 < J /\ 0 < l
  /\ consistent_M rho A J l 0%nat 6%nat <> consistent_M rho A J l 6%nat 0%nat
  /\ exists t, form12 (consistent_M rho A J l) (Ends t zero3 t zero3) (Ends t zero3 t zero3) <> rho * A * l * dot3 t t.
Proof.
  exists 1, 1, 1, 1. repeat (split; [lra|]). destruct (c40_consistent_refuted 1 1 1 1) as (H1 & H2); try lra. split; [exact H1|].
  exists (V3 1 0 0). rewrite H2. unfold dot3; cbn [vx vy vz]. lra.
Qed.
