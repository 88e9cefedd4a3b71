(** Symmetry, semidefiniteness and rigid motions of the assembled stiffness. *)
From Coq Require Import Reals Lra Lia List String Arith Bool Permutation.
From Verif Require Import Base BaseFacts Csys Sections Element Load FeModel Assembly Solver Post Api
  SpecApi ApiFacts WfFacts HidFacts CsysFacts SpecGeom SpecBeam BeamFacts AsmFacts SpecAsm AsmProofs ShellFacts AsmTotal.
Import ListNotations.
Local Open Scope R_scope.

Lemma beam_work_sym m x y b : beam_work m x y b = beam_work m y x b.
Proof. unfold beam_work. apply member_work_sym. Qed.

Lemma shell_nodes_34 m k s : shell_ok m k s -> List.length (sh_nodes s) = 3%nat \/ List.length (sh_nodes s) = 4%nat.
Proof.
  intros OK. destruct (so_shape _ _ _ OK) as [(a & b & c & E & _)|(a & b & c & d & E & _)]; rewrite E; simpl; auto.
Qed.

Lemma shell_work_sym ker m k s x y : symmetric_kernels ker -> shell_ok m k s -> shell_work ker m x y s = shell_work ker m y x s.
Proof.
  intros S OK. unfold shell_work. rewrite (shell_form_sym ker s _ _ S (shell_nodes_34 _ _ _ OK)).
  reflexivity.
Qed.

Lemma works_sym ker m x y : fem_wf m -> (f_shells m = [] \/ symmetric_kernels ker) ->
  lsum (map (beam_work m x y) (dvals (f_beams m))) + lsum (map (shell_work ker m x y) (dvals (f_shells m)))
  = lsum (map (beam_work m y x) (dvals (f_beams m))) + lsum (map (shell_work ker m y x) (dvals (f_shells m))).
Proof.
  intros W S. f_equal; apply lsum_map_ext.
  - intros; apply beam_work_sym.
  - intros s Hs. apply in_dvals_ex in Hs as [k Hk]. destruct S as [E|S]; [rewrite E in Hk; destruct Hk|].
    eapply shell_work_sym; [exact S|apply (wf_shell _ W), Hk].
Qed.

Lemma c22_symmetric ext ops w m K : w = final ext init ops ->
  assembled_model w = Some m -> stiffness ext w = Some K ->
  f_shells m = [] \/ symmetric_kernels (x_ker ext) ->
  forall p q, coo_get K p q = coo_get K q p.
Proof.
  intros Hw Hm HK S p q. destruct (stiffness_inv _ _ _ _ _ Hw Hm HK) as (a & Ha & Em & EK & W). subst m.
  rewrite <- !bil_delta.
  destruct (assemble_K_bil _ _ _ (delta p) (delta q) W EK) as [-> _].
  destruct (assemble_K_bil _ _ _ (delta q) (delta p) W EK) as [-> _].
  apply works_sym; assumption.
Qed.

Lemma coo_get_half L i j : coo_get (map (fun t => match t with (r, c, v) => (r, c, v / 2) end) L) i j = coo_get L i j / 2.
Proof.
  induction L as [|[[r c] v] L IH]; cbn [map coo_get]; [lra|]. rewrite IH.
  destruct (Nat.eqb r i && Nat.eqb c j)%bool; lra.
Qed.
Lemma symmetrise_get K i j : coo_get (symmetrise K) i j = (coo_get K i j + coo_get K j i) / 2.
Proof. unfold symmetrise. rewrite coo_get_half, coo_get_app, coo_get_T. reflexivity. Qed.

Lemma c22_symmetrise ext ops w m K : w = final ext init ops ->
  assembled_model w = Some m -> stiffness ext w = Some K ->
  f_shells m = [] \/ symmetric_kernels (x_ker ext) ->
  forall p q, coo_get (symmetrise K) p q = coo_get K p q.
Proof.
  intros Hw Hm HK S p q. rewrite symmetrise_get. rewrite (c22_symmetric _ _ _ _ _ Hw Hm HK S q p). lra.
Qed.

(** ** C23 *)
Lemma props_nonneg_stiff p : props_nonneg p -> stiff_nonneg (props p).
Proof.
  unfold props_nonneg, stiff_nonneg, props. destruct p as [s|E mu A I2 I3 J rho]; cbn [EA GJ EI2 EI3];
    intros (H1 & H2 & H3 & H4 & H5 & H6); (split; [|split; [|split]]);
    try (apply Rmult_le_pos; assumption); apply Rmult_le_pos; try assumption;
    (apply Rmult_le_pos; [assumption|left; apply Rinv_0_lt_compat; lra]).
Qed.

Lemma beam_dist_pos m k b : beam_ok m k b -> 0 < distance (n_loc (b_ni b)) (n_loc (b_nj b)).
Proof.
  intros OK. destruct (line_csys_some _ _ _ (bo_csys _ _ _ OK)) as (_ & L & _). rewrite <- norm_distance. exact L.
Qed.

Lemma c23_psd ext ops w m K : w = final ext init ops ->
  assembled_model w = Some m -> stiffness ext w = Some K ->
  (forall k b, In (k, b) (f_beams m) -> props_nonneg (b_prop b)) ->
  f_shells m = [] \/ psd_kernels (x_ker ext) /\ (forall k s, In (k, s) (f_shells m) -> shell_admissible s) ->
  forall x, 0 <= form (size m) K x x.
Proof.
  intros Hw Hm HK HB HS x. rewrite (c21_energy _ _ _ _ _ x x Hw Hm HK).
  destruct (stiffness_inv _ _ _ _ _ Hw Hm HK) as (a & Ha & Em & EK & W).
  apply Rplus_le_le_0_compat; apply lsum_nonneg.
  - intros b Hb. apply in_dvals_ex in Hb as [k Hk]. unfold beam_work. apply member_nonneg.
    + apply props_nonneg_stiff. eapply HB; exact Hk.
    + eapply beam_dist_pos. apply (wf_beam _ W), Hk.
  - intros s Hs. apply in_dvals_ex in Hs as [k Hk]. destruct HS as [E|[P A]]; [rewrite E in Hk; destruct Hk|].
    unfold shell_work. apply (shell_form_psd (x_ker ext) s _ P (A _ _ Hk)).
    eapply shell_nodes_34. apply (wf_shell _ W), Hk.
Qed.

(** ** C24 *)
Lemma frame_axes p q c : line_csys p q = Some c ->
  frame (axis_x p q) (axis_y p q) (axis_z p q) /\ vsub q p = vscale (distance p q) (axis_x p q) /\ 0 < distance p q.
Proof.
  intros H. destruct (line_csys_some _ _ _ H) as (F & L & E). destruct (line_axes _ _ _ H) as (E1 & E2 & E3).
  rewrite E1, E2, E3 in F. rewrite E1 in E. rewrite norm_distance in *. auto.
Qed.

Lemma dot_cross3 a b c : dot3 a (cross b c) = dot3 b (cross c a).
Proof. unfold dot3, cross; cbn [vx vy vz]; ring. Qed.
Lemma along_add ex ey ez u v : along ex ey ez (vadd u v) = vadd (along ex ey ez u) (along ex ey ez v).
Proof. unfold along, vadd, dot3; cbn [vx vy vz]; f_equal; ring. Qed.

Lemma along_spin ex ey ez w l : frame ex ey ez ->
  along ex ey ez (cross w (vscale l ex)) = cross (along ex ey ez w) (V3 l 0 0).
Proof.
  intros [_ (XY & YZ & ZX)].
  assert (A : dot3 ex (cross w ex) = 0) by apply dot_cross_r.
  assert (B : dot3 ey (cross w ex) = dot3 ez w).
  { rewrite dot_cross3, XY. apply dot3_comm. }
  assert (C : dot3 ez (cross w ex) = - dot3 ey w).
  { rewrite dot_cross3. rewrite <- ZX. unfold dot3, cross; cbn [vx vy vz]; ring. }
  assert (S : forall u, dot3 u (cross w (vscale l ex)) = l * dot3 u (cross w ex))
    by (intros u; unfold dot3, cross, vscale; cbn [vx vy vz]; ring).
  apply vec3_eq; unfold along; cbn [vx vy vz]; rewrite S, ?A, ?B, ?C; unfold cross; cbn [vx vy vz]; ring.
Qed.

Lemma rigid_beam p q c t w : line_csys p q = Some c ->
  ends_along (axis_x p q) (axis_y p q) (axis_z p q) (Ends (moved t w p) w (moved t w q) w)
  = rigid_ends (along (axis_x p q) (axis_y p q) (axis_z p q) (moved t w p))
               (along (axis_x p q) (axis_y p q) (axis_z p q) w) (distance p q).
Proof.
  intros H. destruct (frame_axes _ _ _ H) as (F & E & _). unfold ends_along, rigid_ends. cbn [d_i r_i d_j r_j].
  set (A := along (axis_x p q) (axis_y p q) (axis_z p q)).
  assert (E1 : moved t w q = vadd (moved t w p) (cross w (vscale (distance p q) (axis_x p q)))).
  { rewrite <- E. unfold moved. apply vec3_eq; unfold vadd, cross, vsub; cbn [vx vy vz]; ring. }
  assert (E2 : A (moved t w q) = moved (A (moved t w p)) (A w) (V3 (distance p q) 0 0)).
  { rewrite E1. unfold A. rewrite along_add, along_spin by exact F. reflexivity. }
  assert (E3 : moved (A (moved t w p)) (A w) (V3 0 0 0) = A (moved t w p)).
  { unfold moved at 1. apply vec3_eq; unfold vadd, cross; cbn [vx vy vz]; ring. }
  rewrite E2, E3. reflexivity.
Qed.

Lemma rigid_at m t w x n : rigid_motion m t w x -> cur m n ->
  disp_at x (num m (n_name n)) = moved t w (n_loc n) /\ rot_at x (num m (n_name n)) = w.
Proof.
  intros R (n' & H1 & H2). apply dget_some_in in H1. destruct (R _ _ H1) as [-> ->]. rewrite H2. auto.
Qed.

Lemma rigid_beam_work m k b t w x y : beam_ok m k b -> cur m (b_ni b) -> cur m (b_nj b) ->
  rigid_motion m t w x -> beam_work m x y b = 0.
Proof.
  intros OK C1 C2 R. unfold beam_work, beam_ends, ends_at.
  destruct (rigid_at _ _ _ _ _ R C1) as [-> ->]. destruct (rigid_at _ _ _ _ _ R C2) as [-> ->].
  rewrite (rigid_beam _ _ _ _ _ (bo_csys _ _ _ OK)). apply member_rigid.
  pose proof (beam_dist_pos _ _ _ OK). lra.
Qed.

Lemma assembled_good ext ops w m : w = final ext init ops -> never_readds_nodes ext ops ->
  assembled_model w = Some m -> good m.
Proof.
  intros -> N H. unfold assembled_model in H. destruct (read_asb _) as [a|] eqn:E; [|discriminate].
  apply some_inj in H. subst m. destruct (asm_reach _ _ _ E) as (c & _ & _ & _ & -> & _ & _ & G). auto.
Qed.

Lemma rigid_form ext ops w m K t r x y : w = final ext init ops -> never_readds_nodes ext ops ->
  assembled_model w = Some m -> stiffness ext w = Some K -> f_shells m = [] ->
  rigid_motion m t r x -> bil K x y = 0 /\ bil K y x = 0.
Proof.
  intros Hw N Hm HK S R. destruct (stiffness_inv _ _ _ _ _ Hw Hm HK) as (a & Ha & Em & EK & W).
  pose proof (assembled_good _ _ _ _ Hw N Hm) as (_ & _ & EC & _).
  subst m. destruct (assemble_K_bil _ _ _ x y W EK) as [E1 _]. destruct (assemble_K_bil _ _ _ y x W EK) as [E2 _].
  assert (Z : bil K x y = 0).
  { rewrite E1, S. cbn [dvals map lsum]. rewrite lsum_zero; [lra|]. intros b Hb. apply in_dvals_ex in Hb as [k Hk].
    destruct (EC _ _ Hk). eapply rigid_beam_work; eauto. apply (wf_beam _ W), Hk. }
  split; [exact Z|]. rewrite E2, <- (works_sym (x_ker ext) _ x y W) by (left; exact S). rewrite <- E1. exact Z.
Qed.

Lemma c24_no_force ext ops w m K t r x : w = final ext init ops -> never_readds_nodes ext ops ->
  assembled_model w = Some m -> stiffness ext w = Some K -> f_shells m = [] ->
  rigid_motion m t r x -> forall q, row (size m) K x q = 0.
Proof.
  intros Hw N Hm HK S R q. destruct (stiffness_inv _ _ _ _ _ Hw Hm HK) as (a & Ha & Em & EK & W).
  rewrite <- Em in W. destruct (assemble_K_bil _ _ _ x x W EK) as [_ IR]. rewrite Em in IR. rewrite row_bil by exact IR.
  apply (rigid_form _ _ _ _ _ _ _ _ (delta q) Hw N Hm HK S R).
Qed.

(** the vector of a rigid motion *)
Definition rigid_vec (m : fem) (t w : vec3) : nat -> R := fun q =>
  match nth_error (f_nodes m) (q / 6) with
  | Some (_, n) => nth (q mod 6) [vx (moved t w (n_loc n)); vy (moved t w (n_loc n)); vz (moved t w (n_loc n)); vx w; vy w; vz w] 0
  | None => 0
  end.

Lemma nth_error_keys {A} (d : dict A) i k v : nth_error d i = Some (k, v) -> nth_error (dkeys d) i = Some k.
Proof. intros H. apply (map_nth_error fst) in H. exact H. Qed.

Lemma num_nth m i k n : good m -> nth_error (f_nodes m) i = Some (k, n) -> num m k = i.
Proof. intros (_ & HP & _) H. apply num_some, HP. eapply nth_error_keys; eauto. Qed.

Lemma rigid_vec_at m t w i k n : nth_error (f_nodes m) i = Some (k, n) ->
  disp_at (rigid_vec m t w) i = moved t w (n_loc n) /\ rot_at (rigid_vec m t w) i = w.
Proof.
  intros H. unfold disp_at, rot_at, rigid_vec.
  replace (6 * i)%nat with (6 * i + 0)%nat by lia. rewrite !mod6, !div6 by lia. rewrite <- !Nat.add_assoc. cbn [Nat.add].
  rewrite !mod6, !div6 by lia. rewrite H.
  split; apply vec3_eq; reflexivity.
Qed.

Lemma rigid_vec_motion m t w : good m -> rigid_motion m t w (rigid_vec m t w).
Proof.
  intros G k n H. apply In_nth_error in H as [i H]. rewrite (num_nth _ _ _ _ G H). eapply rigid_vec_at; eauto.
Qed.

Lemma rsum_list {A} (l : list A) (h : nat -> A -> R) (g : nat -> R) :
  (forall i a, nth_error l i = Some a -> g i = h i a) ->
  rsum (List.length l) g = lsum (map (fun ia => h (fst ia) (snd ia)) (combine (seq 0 (List.length l)) l)).
Proof.
  revert h g. induction l as [|a l IH]; intros h g H; [reflexivity|].
  change (List.length (a :: l)) with (1 + List.length l)%nat. rewrite rsum_split. cbn [rsum Nat.add seq combine map lsum fst snd].
  rewrite (H 0%nat a) by reflexivity. rewrite Rplus_0_l. f_equal.
  rewrite (IH (fun i x => h (S i) x)) by (intros i x Hx; apply (H (S i)); exact Hx).
  rewrite <- seq_shift. f_equal. clear. generalize (seq 0 (List.length l)). induction l as [|b l IH]; intros [|s ss]; cbn [map combine]; try reflexivity.
  cbn [fst snd]. rewrite IH. reflexivity.
Qed.

Lemma lsum_nodes m (h : nat -> string * node -> R) : good m ->
  lsum (map (fun ia => h (fst ia) (snd ia)) (combine (seq 0 (List.length (f_nodes m))) (f_nodes m)))
  = lsum (map (fun kn => h (num m (fst kn)) kn) (f_nodes m)).
Proof.
  intros G. rewrite <- (rsum_list (f_nodes m) h (fun i => match nth_error (f_nodes m) i with Some a => h i a | None => 0 end)).
  2:{ intros i a H. rewrite H. reflexivity. }
  rewrite (rsum_list (f_nodes m) (fun i kn => h (num m (fst kn)) kn)).
  2:{ intros i [k n] H. rewrite H. cbn [fst]. rewrite (num_nth _ _ _ _ G H). reflexivity. }
  clear. set (g := fun kn : string * node => h (num m (fst kn)) kn). change (lsum (map (fun ia : nat * (string * node) => g (snd ia)) (combine (seq 0 (List.length (f_nodes m))) (f_nodes m))) = lsum (map g (f_nodes m))).
  clearbody g. generalize 0%nat. induction (f_nodes m) as [|a l IH]; intros s; cbn [List.length seq combine map lsum snd]; [reflexivity|].
  rewrite IH. reflexivity.
Qed.

Lemma dot_vsum t l : dot3 t (vsum l) = lsum (map (dot3 t) l).
Proof.
  induction l as [|v l IH]; cbn [map lsum].
  - unfold vsum, fold_right, dot3; cbn [zero3 vx vy vz]; ring.
  - rewrite <- IH. change (vsum (v :: l)) with (vadd v (vsum l)). unfold dot3, vadd; cbn [vx vy vz]; ring.
Qed.

(** power of nodal forces on a rigid motion *)
Lemma rigid_power m t w f : good m ->
  rsum (size m) (fun q => rigid_vec m t w q * f q) = dot3 t (resultant_force m f) + dot3 w (resultant_moment m f).
Proof.
  intros G. unfold size. rewrite rsum_blocks.
  rewrite (rsum_list (f_nodes m) (fun i kn => dot3 (moved t w (n_loc (snd kn))) (disp_at f i) + dot3 w (rot_at f i))).
  2:{ intros i [k n] H. cbn [snd]. destruct (rigid_vec_at m t w i k n H) as [E1 E2].
      set (v := rigid_vec m t w) in *. unfold disp_at, rot_at in E1, E2. rewrite <- E1, <- E2.
      unfold dot3, disp_at, rot_at. cbn [rsum vx vy vz]. rewrite !Nat.add_0_r. ring. }
  rewrite (lsum_nodes m (fun i kn => dot3 (moved t w (n_loc (snd kn))) (disp_at f i) + dot3 w (rot_at f i)) G).
  unfold resultant_force, resultant_moment. rewrite !dot_vsum, !map_map, <- lsum_map_plus.
  apply lsum_map_ext. intros [k n] _. cbn [fst snd]. unfold moved, dot3, vadd, cross; cbn [vx vy vz]; ring.
Qed.

Lemma dot_all_zero v : (forall t, dot3 t v = 0) -> v = zero3.
Proof.
  intros H. apply vec3_eq; cbn [zero3 vx vy vz].
  - rewrite <- (H (V3 1 0 0)). unfold dot3; cbn [vx vy vz]; ring.
  - rewrite <- (H (V3 0 1 0)). unfold dot3; cbn [vx vy vz]; ring.
  - rewrite <- (H (V3 0 0 1)). unfold dot3; cbn [vx vy vz]; ring.
Qed.

Lemma c24_balance ext ops w m K : w = final ext init ops -> never_readds_nodes ext ops ->
  assembled_model w = Some m -> stiffness ext w = Some K -> f_shells m = [] ->
  forall y, resultant_force m (row (size m) K y) = zero3 /\ resultant_moment m (row (size m) K y) = zero3.
Proof.
  intros Hw N Hm HK S y. pose proof (assembled_good _ _ _ _ Hw N Hm) as G.
  destruct (stiffness_inv _ _ _ _ _ Hw Hm HK) as (a & Ha & Em & EK & W).
  rewrite <- Em in W. destruct (assemble_K_bil _ _ _ y y W EK) as [_ IR]. rewrite Em in IR.
  assert (Z : forall t r, dot3 t (resultant_force m (row (size m) K y)) + dot3 r (resultant_moment m (row (size m) K y)) = 0).
  { intros t r. rewrite <- rigid_power by exact G.
    transitivity (bil K (rigid_vec m t r) y).
    - rewrite <- (bil_quad (size m) (size m)) by exact IR. reflexivity.
    - apply (rigid_form _ _ _ _ _ t r _ y Hw N Hm HK S). apply rigid_vec_motion, G. }
  split; apply dot_all_zero; intros t.
  - specialize (Z t zero3). unfold dot3 in *; cbn [zero3 vx vy vz] in *. lra.
  - specialize (Z zero3 t). unfold dot3 in *; cbn [zero3 vx vy vz] in *. lra.
Qed.

(** ** The assembled stiffness exists *)

Lemma c21_defined ext ops w m : w = final ext init ops -> never_readds_nodes ext ops ->
  assembled_model w = Some m ->
  (forall k b, In (k, b) (f_beams m) -> 1 + poisson (b_prop b) <> 0) ->
  exists K, stiffness ext w = Some K.
Proof.
  intros Hw N Hm MU. pose proof (assembled_good _ _ _ _ Hw N Hm) as G. unfold assembled_model in Hm.
  unfold stiffness. destruct (read_asb w) as [a|]; [|discriminate]. apply some_inj in Hm. subst m.
  cbn [bindO]. apply assemble_K_total; [exact G|]. exact MU.
Qed.
