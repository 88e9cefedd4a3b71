(** The assembled stiffness as a sum over elements. *)
From Coq Require Import Reals Lra Lia List String Arith Bool Permutation.
From Verif Require Import Base BaseFacts Csys Sections Element Load FeModel Assembly Solver Post Api
  SpecApi ApiFacts WfFacts HidFacts CsysFacts SpecGeom SpecBeam BeamFacts AsmFacts SpecAsm.
Import ListNotations.
Local Open Scope R_scope.

Lemma some_inj {A} (a b : A) : Some a = Some b -> a = b.
Proof. intros H. inversion H. reflexivity. Qed.
Lemma condensate_id k : condensate no_releases k = k.
Proof. reflexivity. Qed.

(** ** Axes *)
Lemma unit3_vdiv v : unit3 v = vdiv v (norm v).
Proof.
  unfold unit3. replace (sqrt (vx v ^ 2 + vy v ^ 2 + vz v ^ 2)) with (norm v).
  - apply vec3_eq; simpl; unfold Rdiv; ring.
  - unfold norm, dot3. f_equal. ring.
Qed.

Lemma norm_scale k v : 0 < k -> norm (vscale k v) = k * norm v.
Proof.
  intros H. unfold norm. replace (dot3 (vscale k v) (vscale k v)) with (k^2 * dot3 v v) by (unfold dot3; simpl; ring).
  rewrite sqrt_mult_alt by nra. rewrite sqrt_pow2 by lra. reflexivity.
Qed.

Lemma unit3_scale k v : 0 < k -> unit3 (vscale k v) = unit3 v.
Proof.
  intros H. rewrite !unit3_vdiv, norm_scale by exact H.
  unfold vdiv, vscale; simpl. destruct (Req_dec (norm v) 0) as [E|E].
  - apply norm_zero_iff in E. subst v. f_equal; simpl; unfold Rdiv; ring.
  - f_equal; field; split; lra.
Qed.

Lemma line_axes p q c : line_csys p q = Some c ->
  cs_x c = axis_x p q /\ cs_y c = axis_y p q /\ cs_z c = axis_z p q.
Proof.
  intros H. pose proof (line_csys_some _ _ _ H) as (F & L & E).
  assert (X : cs_x c = axis_x p q).
  { unfold axis_x. rewrite E, unit3_scale by exact L. rewrite unit3_vdiv.
    destruct F as ((A1&_)&_). unfold norm. rewrite A1, sqrt_1. apply vec3_eq; simpl; field. }
  assert (Z : cs_z c = axis_z p q).
  { unfold line_csys in H.
    set (o := vdiv (vadd p q) 2) in *.
    assert (U : (if Rltb (Rmax (Rabs (vx (vsub p q))) (Rabs (vy (vsub p q)))) abs_tol
                 then vadd o (V3 1 0 0) else vadd o (V3 0 0 1)) = vadd o (up_for p q)).
    { unfold up_for, plan_offset, abs_tol, Rltb. simpl. destruct (Rlt_dec _ _); reflexivity. }
    rewrite U in H. unfold cartesian in H. destruct (Rltb _ _) in H; [discriminate|].
    injection H as H. rewrite <- H. simpl.
    unfold axis_z. rewrite <- unit3_vdiv.
    assert (G : cross (vsub q o) (vsub (vadd o (up_for p q)) o)
                = vscale (norm (vsub p q) / 2) (cross (axis_x p q) (up_for p q))).
    { transitivity (vscale (1/2) (cross (vsub q p) (up_for p q))).
      - apply vec3_eq; unfold o; simpl; field.
      - rewrite E, <- X. apply vec3_eq; simpl; field. }
    rewrite G. apply unit3_scale. lra. }
  split; [exact X|]. split; [|exact Z].
  unfold axis_y. rewrite <- X, <- Z. destruct F as (_ & _ & _ & B3). symmetry; exact B3.
Qed.

Lemma norm_distance p q : norm (vsub p q) = distance p q.
Proof. unfold norm, distance, dot3. simpl. f_equal. ring. Qed.

(** ** One beam *)
Lemma num_some m k i : dget k (f_hnode m) = Some i -> num m k = i.
Proof. unfold num. intros ->. reflexivity. Qed.

Lemma beam_hids_num m b ij : beam_hids b m = Some ij ->
  ij = (num m (n_name (b_ni b)), num m (n_name (b_nj b))).
Proof.
  unfold beam_hids, model_node_hid. intros H.
  apply bindO_some in H as (i & Hi & H). apply bindO_some in H as (j & Hj & H).
  inversion H. rewrite (num_some _ _ _ Hi), (num_some _ _ _ Hj). reflexivity.
Qed.

Lemma beam_K_work b K d e :
  beam_K b = Some K -> 0 < b_length b ->
  form12 K d e = member_work (props (b_prop b)) (b_length b) d e.
Proof.
  unfold beam_K. destruct (Reqb _ 0) eqn:M; [discriminate|]. apply Reqb_false in M. intros H L.
  injection H as <-. destruct (b_prop b) as [s|E mu A I2 I3 J rho]; simpl in *.
  - rewrite beam_form by lra. unfold beam_stiff, props, mat_G. f_equal. f_equal. field. lra.
  - rewrite simple_is_beam, beam_form by lra. unfold beam_stiff, props. f_equal. f_equal. field. lra.
Qed.

Lemma beam_triplets_bil m k b L x y :
  beam_ok m k b -> beam_triplets m b = Some L -> bil L x y = beam_work m x y b.
Proof.
  intros OK H. unfold beam_triplets in H.
  apply bindO_some in H as (ij & H1 & H). apply bindO_some in H as (K & H2 & H).
  apply beam_hids_num in H1. subst ij. cbn [fst snd] in H. rewrite (bo_rel _ _ _ OK) in H.
  apply some_inj in H. subst L. rewrite condensate_id.
  rewrite bil_scatter, bil_nz, bil_mat_coo. unfold beam_T. rewrite block12_form, !scat2_ends.
  pose proof (bo_csys _ _ _ OK) as HC.
  pose proof (line_csys_some _ _ _ HC) as (F & L & E).
  pose proof (line_axes _ _ _ HC) as (-> & -> & ->).
  rewrite (beam_K_work _ _ _ _ H2) by exact L. unfold beam_work, beam_ends, b_length.
  rewrite norm_distance. reflexivity.
Qed.

(** ** One shell *)
Lemma mvec_block n c x a : (a < 6 * n)%nat ->
  mvec (6 * n) (blockdiag (cs_T c)) x a
  = (if Nat.ltb (a mod 6) 3
     then dot3 (axis_of c (a mod 6)) (disp_at x (a / 6))
     else dot3 (axis_of c (a mod 6 - 3)) (rot_at x (a / 6))).
Proof.
  intros H. unfold mvec.
  pose proof (Nat.div_mod a 6 ltac:(lia)) as DM. pose proof (Nat.mod_upper_bound a 6 ltac:(lia)) as UB.
  set (k := (a / 6)%nat) in *. set (b := (a mod 6)%nat) in *.
  assert (HK : (k < n)%nat) by lia.
  replace (6 * n)%nat with (6 * k + (6 + 6 * (n - k - 1)))%nat by lia.
  rewrite rsum_split, rsum_split.
  assert (A3 : (a / 3 = 2 * k + b / 3)%nat).
  { rewrite DM. replace (6 * k + b)%nat with (b + (2 * k) * 3)%nat by lia. rewrite Nat.div_add by lia. lia. }
  assert (B3 : (a mod 3 = b mod 3)%nat).
  { rewrite DM. replace (6 * k + b)%nat with (b + (2 * k) * 3)%nat by lia. apply Nat.mod_add. lia. }
  rewrite (rsum_0 (6 * k)).
  2:{ intros i Hi. unfold blockdiag. destruct (Nat.eqb_spec (a / 3) (i / 3)) as [e|_]; [|ring].
      exfalso. assert (i / 3 < 2 * k)%nat by (apply Nat.div_lt_upper_bound; lia). lia. }
  rewrite (rsum_0 (6 * (n - k - 1))).
  2:{ intros i Hi. unfold blockdiag. destruct (Nat.eqb_spec (a / 3) ((6 * k + (6 + i)) / 3)) as [e|_]; [|ring].
      exfalso. assert (b / 3 < 2)%nat by (apply Nat.div_lt_upper_bound; lia).
      assert (2 * k + 2 <= (6 * k + (6 + i)) / 3)%nat by (apply Nat.div_le_lower_bound; lia). lia. }
  assert (C : forall i, (i < 6)%nat -> blockdiag (cs_T c) a (6 * k + i)%nat
              = if Nat.eqb (b / 3) (i / 3) then cs_T c (b mod 3) (i mod 3) else 0).
  { intros i Hi. unfold blockdiag. rewrite A3, B3.
    replace (6 * k + i)%nat with (i + (2 * k) * 3)%nat by lia. rewrite Nat.div_add, Nat.mod_add by lia.
    destruct (Nat.eqb_spec (2 * k + b / 3) (i / 3 + 2 * k)), (Nat.eqb_spec (b / 3) (i / 3)); try lia; reflexivity. }
  rewrite (rsum_ext 6 _ (fun i => (if Nat.eqb (b / 3) (i / 3) then cs_T c (b mod 3) (i mod 3) else 0) * x (6 * k + i)%nat)).
  2:{ intros i Hi. rewrite C by exact Hi. reflexivity. }
  unfold disp_at, rot_at. clearbody b. clear - UB.
  do 6 (destruct b as [|b]; [cbn [rsum Nat.div Nat.divmod fst snd Nat.eqb Nat.modulo Nat.sub Nat.ltb Nat.leb cs_T vnthc axis_of]; unfold dot3; cbn [vx vy vz]; rewrite ?Nat.add_0_r; ring|]). lia.
Qed.

Lemma mod6 k a : (a < 6)%nat -> ((6 * k + a) mod 6 = a)%nat.
Proof. intros H. replace (6 * k + a)%nat with (a + k * 6)%nat by lia. rewrite Nat.mod_add by lia. apply Nat.mod_small, H. Qed.
Lemma div6 k a : (a < 6)%nat -> ((6 * k + a) / 6 = k)%nat.
Proof. intros H. replace (6 * k + a)%nat with (a + k * 6)%nat by lia. rewrite Nat.div_add by lia. rewrite Nat.div_small; lia. Qed.

Definition scatL (hids : list nat) (r : nat) : nat := (6 * nth (r / 6) hids O + r mod 6)%nat.

Lemma scat4_L i j k l r : (r < 24)%nat -> scat4 i j k l r = scatL [i;j;k;l] r.
Proof.
  intros H. unfold scat4, scatL.
  pose proof (Nat.div_mod r 6 ltac:(lia)) as DM. pose proof (Nat.mod_upper_bound r 6 ltac:(lia)) as UB.
  set (q := (r / 6)%nat) in *. set (b := (r mod 6)%nat) in *.
  assert (q < 4)%nat by lia.
  destruct (Nat.ltb_spec r 6), (Nat.ltb_spec r 12), (Nat.ltb_spec r 18); try lia;
    destruct q as [|[|[|[|q]]]]; cbn [nth]; lia.
Qed.

Lemma scat3_L i j k r : (r < 18)%nat -> scat3 i j k r = scatL [i;j;k] r.
Proof.
  intros H. unfold scat3, scatL.
  pose proof (Nat.div_mod r 6 ltac:(lia)) as DM. pose proof (Nat.mod_upper_bound r 6 ltac:(lia)) as UB.
  set (q := (r / 6)%nat) in *. set (b := (r mod 6)%nat) in *.
  assert (q < 3)%nat by lia.
  destruct (Nat.ltb_spec r 6), (Nat.ltb_spec r 12); try lia;
    destruct q as [|[|[|q]]]; cbn [nth]; lia.
Qed.

Lemma scatL_at hids x b : disp_at (fun r => x (scatL hids r)) b = disp_at x (nth b hids O)
   /\ rot_at (fun r => x (scatL hids r)) b = rot_at x (nth b hids O).
Proof.
  unfold disp_at, rot_at, scatL.
  rewrite !mod6, !div6 by lia.
  replace (6 * b)%nat with (6 * b + 0)%nat by lia. rewrite !mod6, !div6 by lia. rewrite !Nat.add_0_r. auto.
Qed.

Lemma shell_hids_num m s hids : shell_hids s m = Some hids ->
  hids = map (fun n => num m (n_name n)) (sh_nodes s).
Proof.
  unfold shell_hids, model_node_hid. intros H. revert hids H.
  induction (sh_nodes s) as [|n l IH]; cbn [mapM map]; intros hids H; [inversion H; reflexivity|].
  destruct (dget (n_name n) (f_hnode m)) as [i|] eqn:E; [|discriminate].
  destruct (mapM _ l) as [bs|]; [|discriminate]. inversion H. rewrite (num_some _ _ _ E). f_equal. auto.
Qed.

Lemma bil_scatter_ext n f g (A : mat) x y : (forall r, (r < n)%nat -> f r = g r) ->
  bil (scatter f (nz (mat_coo n n A))) x y = rsum n (fun i => rsum n (fun j => x (g i) * A i j * y (g j))).
Proof.
  intros H. rewrite bil_scatter, bil_nz, bil_mat_coo. apply rsum_ext; intros i Hi. apply rsum_ext; intros j Hj.
  rewrite !H by assumption. reflexivity.
Qed.

Lemma shell_form m ker s k hids x y : List.length (sh_nodes s) = k -> shell_hids s m = Some hids ->
  rsum (6 * k) (fun i => rsum (6 * k) (fun j =>
     x (scatL hids i) * congr (6 * k) (shell_T s) (shell_K ker s) i j * y (scatL hids j)))
  = shell_work ker m x y s.
Proof.
  intros Hk H. apply shell_hids_num in H.
  rewrite (congr_form (6 * k) (shell_T s) (shell_K ker s) (fun r => x (scatL hids r)) (fun r => y (scatL hids r))).
  unfold shell_work. rewrite Hk.
  assert (G : forall v a, (a < 6 * k)%nat -> mvec (6 * k) (shell_T s) (fun r => v (scatL hids r)) a = shell_values m s v a).
  { intros v a Ha. unfold shell_T. rewrite mvec_block by exact Ha. unfold shell_values.
    destruct (scatL_at hids v (a / 6)) as [-> ->].
    assert (E : nth (a / 6) hids O = match nth_error (sh_nodes s) (a / 6) with Some n => num m (n_name n) | None => O end).
    { subst hids. destruct (nth_error (sh_nodes s) (a / 6)) eqn:E.
      - apply (map_nth_error (fun n => num m (n_name n))) in E. apply nth_error_nth. exact E.
      - apply nth_error_None in E. apply nth_overflow. rewrite map_length. exact E. }
    rewrite E. reflexivity. }
  apply rsum_ext; intros i Hi. apply rsum_ext; intros j Hj. rewrite !G by assumption. reflexivity.
Qed.

Lemma shell_triplets_bil ker m s L x y :
  shell_triplets ker m s = Some L -> bil L x y = shell_work ker m x y s.
Proof.
  intros H. unfold shell_triplets in H. apply bindO_some in H as (hids & H1 & H).
  pose proof (shell_hids_num _ _ _ H1) as HN.
  assert (HL : List.length hids = List.length (sh_nodes s)) by (rewrite HN; apply map_length).
  destruct hids as [|i [|j [|k [|l [|? ?]]]]]; try discriminate H.
  - apply some_inj in H. subst L. rewrite (bil_scatter_ext 18 _ (scatL [i;j;k])) by (intros; apply scat3_L; assumption).
    change 18%nat with (6 * 3)%nat. apply (shell_form m ker s 3 [i;j;k]); [symmetry; exact HL|exact H1].
  - apply some_inj in H. subst L. rewrite (bil_scatter_ext 24 _ (scatL [i;j;k;l])) by (intros; apply scat4_L; assumption).
    change 24%nat with (6 * 4)%nat. apply (shell_form m ker s 4 [i;j;k;l]); [symmetry; exact HL|exact H1].
Qed.

(** ** The whole matrix *)
Lemma mapM_bil {A} (f : A -> option coo) (g : A -> R) l LL x y :
  mapM f l = Some LL -> (forall a L, In a l -> f a = Some L -> bil L x y = g a) ->
  bil (List.concat LL) x y = lsum (map g l).
Proof.
  intros H HG. rewrite bil_concat. revert LL H. induction l as [|a l IH]; cbn [mapM]; intros LL H.
  - inversion H. reflexivity.
  - destruct (f a) as [L|] eqn:E; [|discriminate]. destruct (mapM f l) as [bs|] eqn:E2; [|discriminate].
    apply some_inj in H. subst LL. cbn [map lsum]. rewrite (HG a L) by (simpl; auto). rewrite (IH) with (LL := bs); auto.
    intros; apply HG; simpl; auto.
Qed.

Lemma in_dvals_ex {A} (d : dict A) v : In v (dvals d) -> exists k, In (k, v) d.
Proof. unfold dvals. intros H. apply in_map_iff in H as ([k v'] & E & H). simpl in E. subst. eauto. Qed.

Lemma assemble_K_bil ker a K x y :
  fem_wf (a_model a) -> assemble_K ker a = Some K ->
  bil K x y = lsum (map (beam_work (a_model a) x y) (dvals (f_beams (a_model a))))
            + lsum (map (shell_work ker (a_model a) x y) (dvals (f_shells (a_model a))))
  /\ coo_inrange (size (a_model a)) (size (a_model a)) K = true.
Proof.
  intros W H. unfold assemble_K in H.
  apply bindO_some in H as (bs & H1 & H). apply bindO_some in H as (ss & H2 & H).
  apply coo_make_some in H as (-> & R). split.
  - rewrite bil_app. f_equal.
    + eapply mapM_bil; [exact H1|]. intros b L Hb HL. apply in_dvals_ex in Hb as [k Hk].
      eapply beam_triplets_bil; [eapply (wf_beam _ W), Hk|exact HL].
    + eapply mapM_bil; [exact H2|]. intros s L Hs HL. eapply shell_triplets_bil; exact HL.
  - unfold size. rewrite Nat.mul_comm. exact R.
Qed.

Lemma assembled_wf ext ops w a : w = final ext init ops -> read_asb w = Some a -> fem_wf (a_model a).
Proof.
  intros -> H. destruct (wwf_reach ext ops) as (_ & _ & HA). unfold read_asb in H.
  destruct (dget asb_file _) as [[]|] eqn:E; try discriminate. apply some_inj in H. subst a0.
  destruct (HA _ eq_refl) as (c & Wc & Ha). apply asm_of_model in Ha as [-> _]. apply Wc.
Qed.

Lemma stiffness_inv ext ops w m K : w = final ext init ops ->
  assembled_model w = Some m -> stiffness ext w = Some K ->
  exists a, read_asb w = Some a /\ a_model a = m /\ assemble_K (x_ker ext) a = Some K /\ fem_wf m.
Proof.
  intros Hw Hm HK. unfold assembled_model, stiffness in *. destruct (read_asb w) as [a|] eqn:E; [|discriminate].
  exists a. simpl in *. apply some_inj in Hm. split; [reflexivity|]. split; [exact Hm|]. split; [exact HK|].
  rewrite <- Hm. apply (assembled_wf ext ops w a Hw E).
Qed.

Lemma c21_energy ext ops w m K x y : w = final ext init ops ->
  assembled_model w = Some m -> stiffness ext w = Some K ->
  form (size m) K x y = lsum (map (beam_work m x y) (dvals (f_beams m)))
                      + lsum (map (shell_work (x_ker ext) m x y) (dvals (f_shells m))).
Proof.
  intros Hw Hm HK. destruct (stiffness_inv _ _ _ _ _ Hw Hm HK) as (a & Ha & Em & EK & W). subst m.
  destruct (assemble_K_bil _ _ _ x y W EK) as [E R]. unfold form. rewrite (bil_quad _ _ _ _ _ R). exact E.
Qed.

Lemma row_bil n K y q : coo_inrange n n K = true -> row n K y q = bil K (delta q) y.
Proof. intros H. unfold row. apply bil_row with (nr := n). exact H. Qed.

Lemma block_zero x i : (forall a, (a < 6)%nat -> x (6 * i + a)%nat = 0) ->
  disp_at x i = zero3 /\ rot_at x i = zero3.
Proof.
  intros H. unfold disp_at, rot_at.
  replace (6 * i)%nat with (6 * i + 0)%nat at 1 by lia. rewrite !H by lia. auto.
Qed.

Lemma along_zero ex ey ez : along ex ey ez zero3 = zero3.
Proof. apply vec3_eq; simpl; unfold dot3; simpl; ring. Qed.

Lemma member_work_zero s l e : member_work s l (Ends zero3 zero3 zero3 zero3) e = 0.
Proof. unfold member_work, bend. simpl. unfold Rdiv. ring. Qed.

Lemma delta_block q i : (q / 6 <> i)%nat -> disp_at (delta q) i = zero3 /\ rot_at (delta q) i = zero3.
Proof.
  intros H. apply block_zero. intros a Ha. unfold delta. destruct (Nat.eqb_spec (6 * i + a) q) as [E|]; [|reflexivity].
  exfalso. apply H. rewrite <- E. apply div6. exact Ha.
Qed.

Lemma beam_work_off m q y b : beam_at m (q / 6) b = false -> beam_work m (delta q) y b = 0.
Proof.
  unfold beam_at. intros H. apply orb_false_iff in H as [H1 H2]. apply Nat.eqb_neq in H1, H2.
  unfold beam_work, beam_ends, ends_at. destruct (delta_block q _ H1) as [-> ->]. destruct (delta_block q _ H2) as [-> ->].
  unfold ends_along; simpl. rewrite along_zero. apply member_work_zero.
Qed.

Lemma shell_work_off ker m q y s : shell_at m (q / 6) s = false -> shell_work ker m (delta q) y s = 0.
Proof.
  unfold shell_at. intros H. unfold shell_work. apply rsum_0. intros r Hr. apply rsum_0. intros c Hc.
  assert (Z : shell_values m s (delta q) r = 0).
  { unfold shell_values.
    destruct (nth_error (sh_nodes s) (r / 6)) as [n|] eqn:E.
    - assert (N : (q / 6 <> num m (n_name n))%nat).
      { intros Q. assert (X : existsb (fun n => Nat.eqb (q / 6) (num m (n_name n))) (sh_nodes s) = true).
        { apply existsb_exists. exists n. split; [eapply nth_error_In; exact E|]. apply Nat.eqb_eq. exact Q. }
        rewrite X in H. discriminate. }
      destruct (delta_block q _ N) as [-> ->]. destruct (Nat.ltb _ 3); unfold dot3; simpl; ring.
    - exfalso. apply nth_error_None in E. assert (r / 6 < List.length (sh_nodes s))%nat; [|lia].
      apply Nat.div_lt_upper_bound; lia. }
  rewrite Z. ring.
Qed.

Lemma lsum_filter {A} (f : A -> bool) (g : A -> R) l :
  (forall a, In a l -> f a = false -> g a = 0) -> lsum (map g l) = lsum (map g (filter f l)).
Proof.
  induction l as [|a l IH]; intros H; [reflexivity|]. cbn [map lsum filter].
  rewrite IH by (intros; apply H; simpl; auto). destruct (f a) eqn:E; cbn [map lsum]; [reflexivity|].
  rewrite (H a) by (simpl; auto). ring.
Qed.

Lemma c21_row ext ops w m K y q : w = final ext init ops ->
  assembled_model w = Some m -> stiffness ext w = Some K ->
  row (size m) K y q
  = lsum (map (beam_work m (unit_at q) y) (filter (beam_at m (q / 6)) (dvals (f_beams m))))
  + lsum (map (shell_work (x_ker ext) m (unit_at q) y) (filter (shell_at m (q / 6)) (dvals (f_shells m)))).
Proof.
  intros Hw Hm HK. destruct (stiffness_inv _ _ _ _ _ Hw Hm HK) as (a & Ha & Em & EK & W). subst m.
  destruct (assemble_K_bil _ _ _ (delta q) y W EK) as [E R]. rewrite row_bil by exact R. rewrite E.
  change unit_at with delta. f_equal; apply lsum_filter; intros; [apply beam_work_off|apply shell_work_off]; assumption.
Qed.
