(** Proofs about reactions and about stiffer structures (C108, C109). *)
From Coq Require Import Reals Lra Lia List String Arith Bool ZArith Sorting.Permutation.
From Verif Require Import Base BaseFacts Csys Sections Element Load FeModel Assembly Solver Post Api
  SpecApi ApiFacts WfFacts HidFacts ApiProofs1 LoadFacts SpecElim ElimFacts SpecGeom CsysFacts SpecBeam BeamFacts AsmFacts SpecAsm AsmProofs
  AsmTotal AsmProofs2 SpecLoad LoadProofs AsmProofs3 SpecSolve AsmSolve SpecMass MassProofs ShellFacts SpecShell SpecKernel Kernels
  KernelProofs KernelProofs2 KernelProofs3 KernelProofs6 SpecStatics StaticsProofs.
Import ListNotations.
Local Open Scope R_scope.

(** ** C108 *)
Lemma vsum_sub {A} (f g : A -> vec3) l : vsum (map (fun x => vsub (f x) (g x)) l) = vsub (vsum (map f l)) (vsum (map g l)).
Proof.
  induction l as [|a l IH]; [apply vec3_eq; cbn; ring|]. cbn [map vsum fold_right]. fold (vsum (map (fun x => vsub (f x) (g x)) l)).
  fold (vsum (map f l)). fold (vsum (map g l)). rewrite IH. apply vec3_eq; cbn; ring.
Qed.
Lemma resultant_sub m f g : resultant_force m (fun q => f q - g q) = vsub (resultant_force m f) (resultant_force m g)
  /\ resultant_moment m (fun q => f q - g q) = vsub (resultant_moment m f) (resultant_moment m g).
Proof.
  unfold resultant_force, resultant_moment. rewrite <- !vsum_sub. split; f_equal; apply map_ext; intros kn; apply vec3_eq; cbn; ring.
Qed.
Lemma resultant_ext m f g : (forall q, f q = g q) -> resultant_force m f = resultant_force m g /\ resultant_moment m f = resultant_moment m g.
Proof.
  intros H. unfold resultant_force, resultant_moment, disp_at, rot_at. split; f_equal; apply map_ext; intros kn; rewrite !H; reflexivity.
Qed.
Lemma zero_sub v u : v = zero3 -> vadd (vsub v u) u = zero3.
Proof. intros ->. apply vec3_eq; cbn; ring. Qed.

Section Run.
Variable ext : externals.
Variable ops : list op.
Hypothesis NR : never_readds_nodes ext (ops ++ [OpAssemble]).
Let w := final ext init (ops ++ [OpAssemble]).

Lemma reaction_free c : solved ext w c -> symmetric_elements ext w ->
  forall q, (q < equations w)%nat -> ~ restrained_for ext w c q -> reaction ext w c q = 0.
Proof.
  intros S SY q Hq R. destruct (solved_facts ext ops NR c S SY) as [_ B]. unfold reaction. fold w in B. rewrite (B q Hq R). ring.
Qed.

Lemma reaction_shape c m K f : assembled_model w = Some m -> stiffness ext w = Some K -> load_vector w c = Some f ->
  forall q, reaction ext w c q = row (size m) K (solution ext w c) q - coo_get f q 0.
Proof. intros Hm HK HF q. unfold reaction. rewrite (holding_row _ _ _ _ _ _ Hm HK). unfold load_at. rewrite HF. reflexivity. Qed.

Lemma solved_all c : solved ext w c -> exists m K f, assembled_model w = Some m /\ stiffness ext w = Some K /\ load_vector w c = Some f.
Proof.
  intros [S1 S2 S3]. destruct (c19_equilibrium_partial ext ops c NR S1 S2 S3) as (m & K & f & Hm & HK & HF & _).
  exists m, K, f. fold w in Hm, HK, HF. auto.
Qed.

Lemma c108_reactions c m : solved ext w c -> assembled_model w = Some m -> f_shells m = [] ->
  (forall q, (q < equations w)%nat -> ~ restrained_for ext w c q -> reaction ext w c q = 0)
  /\ vadd (resultant_force m (reaction ext w c)) (vsum (map (fun fp => vscale (fst fp) (pattern_force m (snd fp))) (applied w c))) = zero3
  /\ vadd (resultant_moment m (reaction ext w c)) (vsum (map (fun fp => vscale (fst fp) (pattern_moment m (snd fp))) (applied w c))) = zero3.
Proof.
  intros S Hm HS. split.
  { apply reaction_free; [exact S|]. intros m' Hm'. left. congruence. }
  destruct (solved_all c S) as (m' & K & f & Hm' & HK & HF). assert (m' = m) by congruence. subst m'.
  destruct (c27_resultants ext _ w m c f eq_refl NR Hm HF) as [F1 F2]. rewrite <- F1, <- F2.
  destruct (c24_balance ext _ w m K eq_refl NR Hm HK HS (solution ext w c)) as [B1 B2].
  destruct (resultant_ext m _ _ (reaction_shape c m K f Hm HK HF)) as [-> ->].
  destruct (resultant_sub m (row (size m) K (solution ext w c)) (fun q => coo_get f q 0)) as [-> ->].
  split; apply zero_sub; assumption.
Qed.

Lemma c108_shells c m c2 t2 : solved ext w c -> assembled_model w = Some m ->
  x_ker ext = code_kernels c2 t2 -> inside_square c2 ->
  (forall k s, In (k, s) (f_shells m) -> proper_shape s) ->
  (forall q, (q < equations w)%nat -> ~ restrained_for ext w c q -> reaction ext w c q = 0)
  /\ vadd (resultant_force m (reaction ext w c)) (vsum (map (fun fp => vscale (fst fp) (pattern_force m (snd fp))) (applied w c))) = zero3
  /\ forall r, (forall k s, In (k, s) (f_shells m) -> unturned r s) ->
     dot3 r (vadd (resultant_moment m (reaction ext w c)) (vsum (map (fun fp => vscale (fst fp) (pattern_moment m (snd fp))) (applied w c)))) = 0.
Proof.
  intros S Hm HX HC HS. split.
  { apply reaction_free; [exact S|]. intros m' Hm'. right. rewrite HX. apply code_symmetric. }
  destruct (solved_all c S) as (m' & K & f & Hm' & HK & HF). assert (m' = m) by congruence. subst m'.
  destruct (c27_resultants ext _ w m c f eq_refl NR Hm HF) as [F1 F2]. rewrite <- F1, <- F2.
  destruct (c24_shells_balance ext _ w m K c2 t2 eq_refl NR HX HC Hm HK HS (solution ext w c)) as [B1 B2].
  destruct (resultant_ext m _ _ (reaction_shape c m K f Hm HK HF)) as [-> ->].
  destruct (resultant_sub m (row (size m) K (solution ext w c)) (fun q => coo_get f q 0)) as [-> ->].
  split; [apply zero_sub; assumption|]. intros r Hr. specialize (B2 r Hr).
  transitivity (dot3 r (resultant_moment m (row (size m) K (solution ext w c)))); [|exact B2].
  unfold dot3; cbn; ring.
Qed.

(** ** C109: more supports *)
Lemma potential_solution c : solved ext w c -> symmetric_elements ext w ->
  potential ext w c (solution ext w c) = - (work_of w (load_at w c) (solution ext w c)) / 2.
Proof.
  intros S SY. pose proof (c106_clapeyron ext ops NR c S SY) as E. fold w in E. unfold potential. rewrite <- E. field.
Qed.

Lemma c109_supports a b : solved ext w a -> solved ext w b -> symmetric_elements ext w -> elastic ext w ->
  (forall q, restrained_for ext w a q -> restrained_for ext w b q) ->
  Permutation (applied w a) (applied w b) ->
  work_of w (load_at w b) (solution ext w b) <= work_of w (load_at w a) (solution ext w a).
Proof.
  intros SA SB SY EL IN P. destruct (solved_facts ext ops NR b SB SY) as [Pb Bb]. fold w in Pb.
  assert (PA : permitted ext w a (solution ext w b)) by (intros q Hq R; apply Pb; [exact Hq|apply IN, R]).
  pose proof (c106_minimum ext ops NR a _ SA SY EL PA) as M. fold w in M. rewrite (potential_solution a SA SY) in M.
  pose proof (c106_clapeyron ext ops NR b SB SY) as E. fold w in E. unfold potential in M. rewrite <- E in M.
  assert (LD : forall q, load_at w a q = load_at w b q).
  { intros q. destruct (load_applied ext ops a (solved_loads ext ops NR a SA)) as (m & Hm & Ea).
    destruct (load_applied ext ops b (solved_loads ext ops NR b SB)) as (m' & Hm' & Eb). fold w in Hm, Hm', Ea, Eb.
    assert (m' = m) by congruence. subst m'. rewrite Ea, Eb. apply lsum_perm, Permutation_map, P. }
  rewrite (work_ext w (load_at w a) (load_at w b) (solution ext w b) (solution ext w b)) in M by (intros; rewrite LD; reflexivity).
  lra.
Qed.
End Run.

(** ** C109: stiffer members *)
Section Two.
Variable ext : externals.
Variables ops ops' : list op.
Hypothesis NR : never_readds_nodes ext (ops ++ [OpAssemble]).
Hypothesis NR' : never_readds_nodes ext (ops' ++ [OpAssemble]).
Let w := final ext init (ops ++ [OpAssemble]).
Let w' := final ext init (ops' ++ [OpAssemble]).

Lemma stiffer_works_less c : equations w' = equations w ->
  (forall q, restrained_for ext w c q <-> restrained_for ext w' c q) ->
  (forall q, load_at w c q = load_at w' c q) ->
  (forall x, energy ext w x x <= energy ext w' x x) ->
  solved ext w c -> solved ext w' c -> symmetric_elements ext w -> symmetric_elements ext w' -> elastic ext w ->
  work_of w' (load_at w' c) (solution ext w' c) <= work_of w (load_at w c) (solution ext w c).
Proof.
  intros EQ RE LD EN S S' SY SY' EL.
  destruct (solved_facts ext ops' NR' c S' SY') as [P' B']. fold w' in P', B'.
  assert (P : permitted ext w c (solution ext w' c)).
  { intros q Hq R. apply P'; [rewrite EQ; exact Hq|apply RE, R]. }
  pose proof (c106_minimum ext ops NR c _ S SY EL P) as M. fold w in M.
  pose proof (potential_solution ext ops NR c S SY) as E0. fold w in E0. rewrite E0 in M. unfold potential in M.
  pose proof (c106_clapeyron ext ops' NR' c S' SY') as E. fold w' in E. pose proof (EN (solution ext w' c)) as N. rewrite <- E in N.
  assert (W : work_of w (load_at w c) (solution ext w' c) = work_of w' (load_at w' c) (solution ext w' c)).
  { unfold work_of. rewrite EQ. apply rsum_ext. intros q _. rewrite LD. reflexivity. }
  rewrite W in M. lra.
Qed.
End Two.

Section Added.
Variable ext : externals.
Variable ops : list op.
Variable o : op.
Hypothesis AB : adds_beam o <> None.
Hypothesis NR : never_readds_nodes ext ops.

Lemma guard_add o0 : adds_node o0 = None -> never_readds_nodes ext (ops ++ [o0]).
Proof.
  intros H. apply guarded_app. split; [exact NR|]. cbn. split; [|exact I]. destruct o0; cbn in *; auto. discriminate.
Qed.
Lemma guard_add2 : never_readds_nodes ext ((ops ++ [o]) ++ [OpAssemble]).
Proof.
  apply guarded_app. split; [apply guard_add; destruct o; cbn in *; auto; congruence|]. cbn. auto.
Qed.
Lemma core_assembled l : w_core (final ext init (l ++ [OpAssemble])) = w_core (final ext init l).
Proof. rewrite final_app, final_cons, final_nil. unfold after. cbn [step]. destruct (mk_asm _ _ _); reflexivity. Qed.
Lemma core_added : w_core (final ext init (ops ++ [o])) = with_fem (w_core (final ext init ops)) (put (k_fem (w_core (final ext init ops))) o).
Proof.
  rewrite final_app, final_cons, final_nil. destruct (step_put ext (final ext init ops) o AB) as [-> _]. reflexivity.
Qed.

Lemma added : let w := final ext init (ops ++ [OpAssemble]) in let w' := final ext init ((ops ++ [o]) ++ [OpAssemble]) in
  exists a a', read_asb w = Some a /\ read_asb w' = Some a' /\ a_model a' = put (a_model a) o
    /\ a_cases a' = a_cases a /\ a_heap a' = a_heap a
    /\ made (a_model a) o = made (k_fem (w_core (final ext init ops))) o
    /\ fem_wf (a_model a) /\ fem_wf (a_model a')
    /\ (forall c q, restrained_for ext w c q <-> restrained_for ext w' c q) /\ applied w' = applied w.
Proof.
  intros w w'.
  destruct (assembled_now ext ops (guard_add OpAssemble eq_refl)) as (_ & a & Ha & Em & Eh & Ec & _ & _ & G & _). fold w in Ha, Em, Eh, Ec, G.
  destruct (assembled_now ext (ops ++ [o]) guard_add2) as (_ & a' & Ha' & Em' & Eh' & Ec' & _ & _ & G' & _). fold w' in Ha', Em', Eh', Ec', G'.
  assert (CW : w_core w = w_core (final ext init ops)) by apply core_assembled.
  assert (CW' : w_core w' = with_fem (w_core (final ext init ops)) (put (k_fem (w_core (final ext init ops))) o)).
  { unfold w'. rewrite core_assembled. apply core_added. }
  exists a, a'. split; [exact Ha|]. split; [exact Ha'|].
  split. { rewrite Em', Em, CW', CW. reflexivity. }
  split. { rewrite Ec', Ec, CW', CW. reflexivity. }
  split. { rewrite Eh', Eh, CW', CW. reflexivity. }
  split. { rewrite Em, CW. reflexivity. }
  split. { rewrite Em. apply G. }
  split. { rewrite Em'. apply G'. }
  split.
  - intros c q. unfold restrained_for, governing, answer. cbn [step snd]. rewrite CW', CW.
    pose proof (put_base (k_fem (w_core (final ext init ops))) o) as SB.
    unfold with_fem, model_node_names, ret. cbn [k_fem k_cases snd]. rewrite (sb_nodes _ _ SB), (sb_rest _ _ SB).
    destruct (dget c _); cbn [bindO snd]; reflexivity.
  - unfold applied. rewrite Ha, Ha', Ec', Ec, Eh', Eh, CW', CW. reflexivity.
Qed.
End Added.

Lemma beam_work_base m m' x y b : same_base m m' -> beam_work m x y b = beam_work m' x y b.
Proof. intros SB. unfold beam_work, beam_ends. rewrite !(num_base m m') by apply SB. reflexivity. Qed.
Lemma shell_work_base ker m m' x y s : same_base m m' -> shell_work ker m x y s = shell_work ker m' x y s.
Proof.
  intros SB. unfold shell_work, shell_values. apply rsum_ext; intros r _. apply rsum_ext; intros c _.
  destruct (nth_error (sh_nodes s) (r / 6)), (nth_error (sh_nodes s) (c / 6)); rewrite ?(num_base m m') by apply SB; reflexivity.
Qed.
Lemma node_power_base m m' p x k : same_base m m' -> node_power m p x k = node_power m' p x k.
Proof. intros SB. unfold node_power. rewrite !(num_base m m') by apply SB. reflexivity. Qed.
Lemma member_power_base m m' p x kb : same_base m m' -> member_power m p x kb = member_power m' p x kb.
Proof. intros SB. unfold member_power, beam_ends. rewrite !(num_base m m') by apply SB. reflexivity. Qed.

Lemma bare_power m p x k b : bare k p -> member_power m p x (k, b) = 0.
Proof.
  intros [H1 H2]. unfold member_power, pat_beam_f. cbn [fst snd]. rewrite H1, H2. unfold work12. apply rsum_0. intros i _.
  unfold vnth. rewrite zeros_nth. ring.
Qed.

Section Stiffer.
Variable ext : externals.

Lemma energy_sum ops w m x : w = final ext init ops -> assembled_model w = Some m -> stiffness ext w <> None ->
  energy ext w x x = lsum (map (beam_work m x x) (dvals (f_beams m))) + lsum (map (shell_work (x_ker ext) m x x) (dvals (f_shells m))).
Proof.
  intros Hw Hm HK. destruct (stiffness ext w) as [K|] eqn:EK; [|congruence].
  rewrite (energy_form ext w m K x x Hm EK). apply (c21_energy ext ops w m K x x Hw Hm EK).
Qed.

End Stiffer.

Lemma member_mono s s' l d : EA s <= EA s' -> GJ s <= GJ s' -> EI2 s <= EI2 s' -> EI3 s <= EI3 s' -> 0 < l ->
  member_work s l d d <= member_work s' l d d.
Proof.
  intros H1 H2 H3 H4 Hl.
  assert (N : 0 <= member_work (Stiff (EA s' - EA s) (GJ s' - GJ s) (EI2 s' - EI2 s) (EI3 s' - EI3 s)) l d d).
  { apply member_nonneg; [|exact Hl]. unfold stiff_nonneg. cbn. lra. }
  assert (E : member_work s' l d d - member_work s l d d = member_work (Stiff (EA s' - EA s) (GJ s' - GJ s) (EI2 s' - EI2 s) (EI3 s' - EI3 s)) l d d).
  { unfold member_work, bend. cbn [EA GJ EI2 EI3]. field. lra. }
  lra.
Qed.

