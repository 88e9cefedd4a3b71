(** Proofs about the order of the load cases of SAP2000 text files. *)
From Coq Require Import List String Ascii Bool Arith Lia Permutation Sorted.
From Verif Require Import Base S2k SpecS2k.
Import ListNotations.
Local Open Scope string_scope.
Local Open Scope list_scope.

(** ** sort_load_case *)
Definition triple (x : lrow) : string * string * string := (lr_case x, lr_type x, lr_init x).
Lemma mem_iff : forall s l, mem s l = true <-> In s l.
Proof.
  intros s l. unfold mem. rewrite existsb_exists. split.
  - intros [x [I E]]. apply String.eqb_eq in E. now subst.
  - intros I. exists s. split; [exact I|apply String.eqb_refl].
Qed.
Lemma ready_iff : forall known x, is_ready known x = true <-> lr_type x <> "NonStatic" \/ In (lr_init x) known.
Proof.
  intros known x. unfold is_ready. rewrite orb_true_iff, mem_iff, negb_true_iff, String.eqb_neq. tauto.
Qed.
Lemma split_perm : forall (A : Type) (f : A -> bool) l, Permutation (filter f l ++ filter (fun x => negb (f x)) l) l.
Proof.
  intros A f l. induction l as [|x l IH]; [constructor|]. cbn. destruct (f x); cbn.
  - now constructor.
  - etransitivity; [symmetry; apply Permutation_middle|]. now constructor.
Qed.
Definition in_order (l : list lrow) : Prop :=
  forall p x q, l = p ++ x :: q -> lr_type x = "NonStatic" -> lr_init x <> "Zero" -> exists y, In y p /\ lr_case y = lr_init x.
Lemma in_order_app : forall a b, in_order a -> (forall x, In x b -> lr_type x = "NonStatic" -> lr_init x <> "Zero" -> In (lr_init x) (map lr_case a)) ->
  in_order (a ++ b).
Proof.
  intros a b Ha Hb p x q E T Z. destruct (le_lt_dec (List.length a) (List.length p)) as [L|L].
  - assert (Ep : p = a ++ skipn (List.length a) p).
    { rewrite <- (firstn_skipn (List.length a) p) at 1. f_equal.
      apply (f_equal (firstn (List.length a))) in E. rewrite firstn_app, firstn_all, Nat.sub_diag, firstn_O, app_nil_r in E.
      rewrite firstn_app in E. replace (List.length a - List.length p)%nat with 0%nat in E by lia. rewrite firstn_O, app_nil_r in E. now symmetry. }
    rewrite Ep, <- app_assoc in E. apply app_inv_head in E.
    assert (I : In x b) by (rewrite E; apply in_or_app; right; now left).
    specialize (Hb x I T Z). apply in_map_iff in Hb. destruct Hb as [y [Ey Iy]]. exists y. split; [|exact Ey]. rewrite Ep. apply in_or_app. now left.
  - assert (Ea : a = p ++ x :: skipn (S (List.length p)) a).
    { rewrite <- (firstn_skipn (S (List.length p)) a) at 1. change (p ++ x :: skipn (S (List.length p)) a) with (p ++ [x] ++ skipn (S (List.length p)) a).
      rewrite app_assoc. f_equal. apply (f_equal (firstn (S (List.length p)))) in E. rewrite firstn_app in E.
      replace (S (List.length p) - List.length a)%nat with 0%nat in E by lia. rewrite firstn_O, app_nil_r in E. rewrite E, firstn_app.
      replace (S (List.length p) - List.length p)%nat with 1%nat by lia. rewrite firstn_all2 by lia. reflexivity. }
    exact (Ha p x _ Ea T Z).
Qed.
Lemma loop_order : forall fuel block a b r, Permutation (a ++ b) block -> in_order a ->
  sort_loop fuel (List.length block) a b = Some r -> Permutation r block /\ in_order r.
Proof.
  induction fuel as [|fuel IH]; intros block a b r P O E; cbn [sort_loop] in E; (destruct (Nat.ltb_spec (List.length a) (List.length block)) as [L|L]).
  - discriminate.
  - injection E as <-. apply Permutation_length in P as PL. rewrite app_length in PL. destruct b; [|cbn in PL; lia]. rewrite app_nil_r in P. now split.
  - unfold split_cases in E. cbn [fst snd] in E. apply IH in E; [exact E| |].
    + rewrite <- app_assoc. etransitivity; [|exact P]. apply Permutation_app_head. apply split_perm.
    + apply in_order_app; [exact O|]. intros x I T Z. apply filter_In in I. destruct I as [_ I]. apply ready_iff in I. tauto.
  - injection E as <-. apply Permutation_length in P as PL. rewrite app_length in PL. destruct b; [|cbn in PL; lia]. rewrite app_nil_r in P. now split.
Qed.
Lemma start_order : forall block, in_order (fst (split_cases block ["Zero"])).
Proof.
  intros block p x q E T Z. exfalso. assert (I : In x (fst (split_cases block ["Zero"]))) by (rewrite E; apply in_or_app; right; now left).
  apply filter_In in I. destruct I as [_ I]. apply ready_iff in I. cbn in I. intuition congruence.
Qed.
Lemma c103_order : forall fuel block r, sort_load_case fuel block = Some r ->
  Permutation r block /\ forall p x q, r = p ++ x :: q -> lr_type x = "NonStatic" -> lr_init x <> "Zero" -> exists y, In y p /\ lr_case y = lr_init x.
Proof.
  intros fuel block r E. unfold sort_load_case in E. apply loop_order in E; [exact E|apply split_perm|apply start_order].
Qed.

Lemma loop_placeable : forall fuel block a b r, Permutation (a ++ b) block -> Forall (fun x => placeable (map triple block) (triple x)) a ->
  sort_loop fuel (List.length block) a b = Some r -> Forall (fun x => placeable (map triple block) (triple x)) block.
Proof.
  induction fuel as [|fuel IH]; intros block a b r P O E; cbn [sort_loop] in E; (destruct (Nat.ltb_spec (List.length a) (List.length block)) as [L|L]).
  - discriminate.
  - apply Permutation_length in P as PL. rewrite app_length in PL. destruct b; [|cbn in PL; lia]. rewrite app_nil_r in P. exact (Permutation_Forall P O).
  - unfold split_cases in E. cbn [fst snd] in E. apply IH in E; [exact E| |].
    + rewrite <- app_assoc. etransitivity; [|exact P]. apply Permutation_app_head. apply split_perm.
    + apply Forall_app. split; [exact O|]. rewrite Forall_forall in *. intros x I. apply filter_In in I. destruct I as [Ib I].
      assert (IB : In x block) by (apply (Permutation_in _ P); apply in_or_app; now right).
      apply ready_iff in I. destruct I as [I|I]; [apply PlaceFree; [now apply (in_map triple)|now left]|].
      apply in_map_iff in I. destruct I as [y [Ey Iy]]. specialize (O y Iy). unfold triple in O at 2. rewrite Ey in O.
      apply (PlaceAfter _ _ _ _ (lr_type y) (lr_init y)); [now apply (in_map triple)|exact O].
  - apply Permutation_length in P as PL. rewrite app_length in PL. destruct b; [|cbn in PL; lia]. rewrite app_nil_r in P. exact (Permutation_Forall P O).
Qed.
Lemma start_placeable : forall block, Forall (fun x => placeable (map triple block) (triple x)) (fst (split_cases block ["Zero"])).
Proof.
  intros block. apply Forall_forall. intros x I. apply filter_In in I. destruct I as [I R]. apply ready_iff in R.
  apply PlaceFree; [now apply (in_map triple)|]. cbn in R. intuition.
Qed.
(** a pass over the cases that are left places one of them *)
Lemma pass_progress : forall block a b, Permutation (a ++ b) block -> Forall (fun x => placeable (map triple block) (triple x)) block ->
  (forall x, In x b -> lr_init x <> "Zero") -> b <> [] -> filter (is_ready (map lr_case a)) b <> [].
Proof.
  intros block a b P H Z N F.
  assert (NR : forall x, In x b -> is_ready (map lr_case a) x = false).
  { intros x I. destruct (is_ready (map lr_case a) x) eqn:R; [|reflexivity]. assert (K : In x (filter (is_ready (map lr_case a)) b)) by now apply filter_In.
    rewrite F in K. destruct K. }
  assert (K : forall t, placeable (map triple block) t -> forall x, triple x = t -> ~ In x b).
  { induction 1 as [n t i I C|n t i u j I Hp IH]; intros x E J; specialize (NR x J); unfold triple in E; injection E as E1 E2 E3.
    - destruct C as [C|C]; [|apply (Z x J); now rewrite E3].
      assert (R : is_ready (map lr_case a) x = true) by (apply ready_iff; left; now rewrite E2). congruence.
    - assert (IM : In (i, u, j) (map triple block)) by (inversion Hp; assumption). apply in_map_iff in IM. destruct IM as [y [Ey Iy]].
      specialize (IH y Ey). apply (Permutation_in _ (Permutation_sym P)) in Iy. apply in_app_or in Iy. destruct Iy as [Iy|Iy]; [|contradiction].
      assert (R : is_ready (map lr_case a) x = true).
      { apply ready_iff. right. rewrite E3. injection Ey as Ey _ _. rewrite <- Ey. now apply in_map. }
      congruence. }
  destruct b as [|x b]; [contradiction|]. rewrite Forall_forall in H.
  apply (K (triple x)) with (x := x); [|reflexivity|now left]. apply H. apply (Permutation_in _ P). apply in_or_app. right. now left.
Qed.
Lemma filter_split_length : forall (A : Type) (f : A -> bool) l, (List.length (filter f l) + List.length (filter (fun x => negb (f x)) l) = List.length l)%nat.
Proof. intros A f l. rewrite <- app_length. apply Permutation_length. apply split_perm. Qed.
Lemma loop_ends : forall fuel block a b, Permutation (a ++ b) block -> Forall (fun x => placeable (map triple block) (triple x)) block ->
  (forall x, In x b -> lr_init x <> "Zero") -> (List.length b <= fuel)%nat -> exists r, sort_loop fuel (List.length block) a b = Some r.
Proof.
  induction fuel as [|fuel IH]; intros block a b P H Z L; cbn [sort_loop]; (destruct (Nat.ltb_spec (List.length a) (List.length block)) as [M|M];
    [|now eexists]); apply Permutation_length in P as PL; rewrite app_length in PL.
  - lia.
  - unfold split_cases. cbn [fst snd]. apply IH.
    + rewrite <- app_assoc. etransitivity; [|exact P]. apply Permutation_app_head. apply split_perm.
    + exact H.
    + intros x I. apply filter_In in I. now apply Z.
    + assert (Q := pass_progress block a b P H Z ltac:(intros ->; cbn in PL; lia)).
      pose proof (filter_split_length _ (is_ready (map lr_case a)) b) as F. destruct (filter (is_ready (map lr_case a)) b); [contradiction|]. cbn [List.length] in F. lia.
Qed.
Lemma c103_ends : forall block, (exists fuel r, sort_load_case fuel block = Some r) <-> (forall x, In x block -> placeable (map triple block) (triple x)).
Proof.
  intros block. rewrite <- Forall_forall. split.
  - intros [fuel [r E]]. unfold sort_load_case in E. apply loop_placeable in E; [exact E|apply split_perm|apply start_placeable].
  - intros H. exists (List.length block). unfold sort_load_case. apply loop_ends; [apply split_perm|exact H| |].
    + intros x I Z. apply filter_In in I. destruct I as [_ I]. rewrite negb_true_iff in I.
      assert (R : is_ready ["Zero"] x = true) by (apply ready_iff; right; rewrite Z; now left). congruence.
    + unfold split_cases. cbn [snd]. pose proof (filter_split_length _ (is_ready ["Zero"]) block). lia.
Qed.
Lemma c103_passes : forall block, (forall x, In x block -> placeable (map triple block) (triple x)) -> exists r, sort_load_case (List.length block) block = Some r.
Proof.
  intros block H. rewrite <- Forall_forall in H. unfold sort_load_case. apply loop_ends; [apply split_perm|exact H| |].
  - intros x I Z. apply filter_In in I. destruct I as [_ I]. rewrite negb_true_iff in I.
    assert (R : is_ready ["Zero"] x = true) by (apply ready_iff; right; rewrite Z; now left). congruence.
  - unfold split_cases. cbn [snd]. pose proof (filter_split_length _ (is_ready ["Zero"]) block). lia.
Qed.

(** ** giveDepth *)
Lemma stands_unique : forall d n k, stands_at d n k -> forall k', stands_at d n k' -> k = k'.
Proof.
  induction 1 as [n E|n f k E Z H IH]; intros k' H'; inversion H' as [? E'|? f' j E' Z' H2]; subst; try congruence.
  f_equal. apply IH. congruence.
Qed.
Definition sound (d : dict string) (cache : dict nat) : Prop := forall n k, dget n cache = Some k -> stands_at d n k.
Lemma dget_dset : forall (A : Type) k (v : A) d j, dget j (dset k v d) = if String.eqb j k then Some v else dget j d.
Proof.
  intros A k v d j. induction d as [|[k' v'] d IH]; cbn.
  - reflexivity.
  - destruct (String.eqb_spec k k') as [E|N]; cbn.
    + subst k'. destruct (String.eqb j k); reflexivity.
    + destruct (String.eqb_spec j k') as [E|M]; [|exact IH]. subst k'. destruct (String.eqb_spec j k); [congruence|reflexivity].
Qed.
Lemma sound_dset : forall d n k cache, stands_at d n k -> sound d cache -> sound d (dset n k cache).
Proof.
  intros d n k cache H S m j E. rewrite dget_dset in E. destruct (String.eqb_spec m n) as [->|N]; [now injection E as <-|now apply S].
Qed.
Lemma depth_sound : forall limit d n f cache r cache', dget n d = Some f -> sound d cache -> depth_of limit d n f cache = Some (r, cache') ->
  stands_at d n r /\ sound d cache'.
Proof.
  induction limit as [|limit IH]; intros d n f cache r cache' E Sc H; cbn [depth_of] in H; [discriminate|].
  destruct (dget n cache) as [k|] eqn:C; [injection H as <- <-; split; [now apply Sc|exact Sc]|].
  destruct (String.eqb_spec f "Zero") as [->|Z].
  - injection H as <- <-. split; [now constructor|]. apply sound_dset; [now constructor|exact Sc].
  - destruct (dget f d) as [ff|] eqn:F; [|discriminate]. cbn [bindO] in H. destruct (depth_of limit d f ff cache) as [[k c]|] eqn:D; [|discriminate].
    cbn [bindO fst snd] in H. injection H as <- <-. destruct (IH _ _ _ _ _ _ F Sc D) as [H1 H2].
    assert (K : stands_at d n (S k)) by (apply (Continues d n f k); assumption). split; [exact K|now apply sound_dset].
Qed.
Lemma depth_runs : forall limit d n f cache k, dget n d = Some f -> stands_at d n k -> (k <= limit)%nat -> exists rc, depth_of limit d n f cache = Some rc.
Proof.
  induction limit as [|limit IH]; intros d n f cache k E H L; [inversion H; lia|]. cbn [depth_of].
  destruct (dget n cache) as [j|]; [now eexists|]. inversion H as [? E'|? f' j E' Z H']; subst.
  - assert (f = "Zero") by congruence. subst. rewrite String.eqb_refl. now eexists.
  - assert (f' = f) by congruence. subst f'. destruct (String.eqb_spec f "Zero"); [contradiction|].
    assert (F : exists ff, dget f d = Some ff) by (inversion H'; subst; eexists; eassumption). destruct F as [ff F]. rewrite F. cbn [bindO].
    destruct (IH d f ff cache j F H' ltac:(lia)) as [rc R]. rewrite R. cbn [bindO]. now eexists.
Qed.
Lemma depths_sound : forall limit d l cache r, (forall n f, In (n, f) l -> dget n d = Some f) -> sound d cache -> depths_from limit d l cache = Some r ->
  map fst r = l /\ forall n f k, In (n, f, k) r -> stands_at d n k.
Proof.
  intros limit d l. induction l as [|[n f] l IH]; intros cache r G Sc H; cbn [depths_from] in H; [injection H as <-; split; [reflexivity|intros ? ? ? []]|].
  destruct (depth_of limit d n f cache) as [[k c]|] eqn:D; [|discriminate]. cbn [bindO fst snd] in H.
  destruct (depth_sound _ _ _ _ _ _ _ (G n f (or_introl eq_refl)) Sc D) as [K C].
  destruct (depths_from limit d l c) as [t|] eqn:T; [|discriminate]. cbn [bindO] in H. injection H as <-.
  destruct (IH c t (fun a b I => G a b (or_intror I)) C T) as [H1 H2]. split; [cbn; now rewrite H1|].
  intros m g j [I|I]; [injection I as <- <- <-; exact K|now apply (H2 m g)].
Qed.
Lemma depths_runs : forall limit d l cache, (forall n f, In (n, f) l -> dget n d = Some f) -> (forall n f, In (n, f) l -> exists k, stands_at d n k /\ (k <= limit)%nat) ->
  exists r, depths_from limit d l cache = Some r.
Proof.
  intros limit d l. induction l as [|[n f] l IH]; intros cache G H; cbn [depths_from]; [now eexists|].
  destruct (H n f (or_introl eq_refl)) as [k [K L]]. destruct (depth_runs limit d n f cache k (G n f (or_introl eq_refl)) K L) as [rc R].
  rewrite R. cbn [bindO]. destruct (IH (snd rc) (fun a b I => G a b (or_intror I)) (fun a b I => H a b (or_intror I))) as [t T]. rewrite T. now eexists.
Qed.
Lemma dget_in : forall (A : Type) (d : dict A) n f, NoDup (map fst d) -> In (n, f) d -> dget n d = Some f.
Proof.
  intros A d n f. induction d as [|[k v] d IH]; intros N I; [destruct I|]. cbn in N. inversion N as [|? ? N1 N2]; subst. cbn.
  destruct I as [I|I]; [injection I as -> ->; now rewrite String.eqb_refl|]. destruct (String.eqb_spec n k) as [->|M]; [|now apply IH].
  exfalso. apply N1. now apply (in_map fst) in I.
Qed.
Lemma in_dget : forall (A : Type) (d : dict A) n f, dget n d = Some f -> In (n, f) d.
Proof.
  intros A d n f. induction d as [|[k v] d IH]; intros E; [discriminate|]. cbn in E. destruct (String.eqb_spec n k) as [->|M]; [left; congruence|right; now apply IH].
Qed.
Lemma dset_keys : forall (A : Type) k (v : A) d, NoDup (map fst d) -> NoDup (map fst (dset k v d)).
Proof.
  intros A k v d. assert (K : forall e j, In j (map fst (dset k v e)) -> j = k \/ In j (map fst e)).
  { induction e as [|[k' v'] e IH]; intros j I; cbn in I; [intuition|]. destruct (String.eqb_spec k k') as [->|M]; cbn in *; [tauto|].
    destruct I as [I|I]; [tauto|]. specialize (IH j I). tauto. }
  induction d as [|[k' v'] d IH]; intros N; cbn; [repeat constructor; intros []|]. cbn in N. inversion N as [|? ? N1 N2]; subst.
  destruct (String.eqb_spec k k') as [->|M]; cbn; constructor; auto. intros I. apply K in I. destruct I; [congruence|contradiction].
Qed.
Lemma case_dict_keys : forall block d, NoDup (map fst d) -> NoDup (map fst (case_dict block d)).
Proof.
  induction block as [|x block IH]; intros d N; cbn; [exact N|]. destruct (String.eqb (lr_type x) "LinRespSpec"); apply IH; [exact N|now apply dset_keys].
Qed.
(** what the dictionary of cases holds *)
Lemma case_dict_holds : forall block, NoDup (map lr_case block) -> forall n i,
  dget n (case_dict block []) = Some i <-> exists t, t <> "LinRespSpec" /\ In (LRow n t i) block.
Proof.
  assert (G : forall block d, NoDup (map fst d ++ map lr_case block) -> forall n i,
    dget n (case_dict block d) = Some i <-> dget n d = Some i \/ exists t, t <> "LinRespSpec" /\ In (LRow n t i) block).
  { induction block as [|[n0 t0 i0] block IH]; intros d N n i; cbn [case_dict lr_type lr_case lr_init map] in *.
    - split; [tauto|]. intros [H|[t [_ []]]]. exact H.
    - destruct (String.eqb_spec t0 "LinRespSpec") as [->|T].
      + rewrite IH by (apply NoDup_remove_1 in N; exact N). split; (intros [H|[t [Ht I]]]; [now left|right; exists t; split; [exact Ht|]]).
        * now right.
        * destruct I as [I|I]; [injection I as _ <- _; contradiction|exact I].
      + assert (F : ~ In n0 (map fst d)). { apply NoDup_remove_2 in N. intros I. apply N. apply in_or_app. now left. }
        assert (E : map fst (dset n0 i0 d) = map fst d ++ [n0]).
        { clear IH N. induction d as [|[k v] d ID]; [reflexivity|]. cbn in F. cbn. destruct (String.eqb_spec n0 k); [subst; tauto|]. cbn. f_equal. apply ID. tauto. }
        rewrite IH by (rewrite E, <- app_assoc; exact N). rewrite dget_dset. split.
        * intros [H|[t [Ht I]]]; [|right; exists t; split; [exact Ht|now right]].
          destruct (String.eqb_spec n n0) as [->|M]; [injection H as <-; right; exists t0; split; [exact T|now left]|now left].
        * intros [H|[t [Ht [I|I]]]].
          -- left. destruct (String.eqb_spec n n0) as [->|M]; [|exact H]. exfalso. apply F. apply in_dget in H. now apply (in_map fst) in H.
          -- injection I as -> -> ->. left. now rewrite String.eqb_refl.
          -- right. now exists t. }
  intros block N n i. rewrite (G block [] N). cbn. intuition discriminate.
Qed.
Lemma c103_depths : forall limit block l, give_depth limit (case_dict block []) = Some l ->
  map fst l = case_dict block [] /\ forall n f k, In (n, f, k) l -> stands_at (case_dict block []) n k.
Proof.
  intros limit block l H. apply (depths_sound limit _ _ [] l); [|intros ? ? E; discriminate E|exact H].
  intros n f I. apply dget_in; [apply case_dict_keys; constructor|exact I].
Qed.
Lemma c103_returns : forall limit block, let d := case_dict block [] in
  (forall n f, dget n d = Some f -> exists k, stands_at d n k /\ (k <= limit)%nat) -> exists l, give_depth limit d = Some l.
Proof.
  intros limit block d H. assert (N : NoDup (map fst d)) by (apply case_dict_keys; constructor).
  apply depths_runs; intros n f I; apply (dget_in _ d n f N) in I; [exact I|now apply (H n f)].
Qed.
Lemma c103_fails : forall limit block, let d := case_dict block [] in
  (exists n f, dget n d = Some f /\ forall k, ~ stands_at d n k) -> give_depth limit d = None.
Proof.
  intros limit block d [n [f [E H]]]. destruct (give_depth limit d) as [l|] eqn:G; [|reflexivity]. exfalso.
  destruct (c103_depths limit block l G) as [M K]. apply in_dget in E. fold d in M. rewrite <- M in E. apply in_map_iff in E. destruct E as [[[a b] k] [E I]].
  cbn in E. injection E as -> ->. exact (H k (K n f k I)).
Qed.

(** ** The sorted list *)
Lemma insert_perm : forall x l, Permutation (insert_case x l) (x :: l).
Proof.
  intros x l. induction l as [|y l IH]; cbn; [constructor; constructor|]. destruct (Nat.leb (snd x) (snd y)); [reflexivity|].
  etransitivity; [apply perm_skip, IH|apply perm_swap].
Qed.
Lemma sorted_perm : forall l, Permutation (sorted_cases l) l.
Proof. induction l as [|x l IH]; cbn; [constructor|]. etransitivity; [apply insert_perm|now apply perm_skip]. Qed.
Definition shallow (a b : string * string * nat) : Prop := (snd a <= snd b)%nat.
Lemma insert_sorted : forall x l, StronglySorted shallow l -> StronglySorted shallow (insert_case x l).
Proof.
  intros x l. induction 1 as [|y l S IH F]; cbn; [repeat constructor|]. destruct (Nat.leb_spec (snd x) (snd y)) as [L|L].
  - constructor; [now constructor|]. constructor; [exact L|]. apply Forall_forall. intros z I. rewrite Forall_forall in F. specialize (F z I). unfold shallow in *. lia.
  - constructor; [exact IH|]. apply Forall_forall. intros z I. apply (Permutation_in _ (insert_perm x l)) in I. destruct I as [<-|I]; [unfold shallow; lia|].
    rewrite Forall_forall in F. now apply F.
Qed.
Lemma sorted_sorted : forall l, StronglySorted shallow (sorted_cases l).
Proof. induction l as [|x l IH]; cbn; [constructor|now apply insert_sorted]. Qed.
Lemma earlier_sorted : forall l a b, StronglySorted shallow l -> In a l -> In b l -> (snd a < snd b)%nat -> earlier a b l.
Proof.
  induction 1 as [|y l S IH F]; intros A B L; [destruct A|]. destruct A as [->|A].
  - destruct B as [->|B]; [lia|]. apply in_split in B. destruct B as [q [r ->]]. now exists [], q, r.
  - destruct B as [->|B]; [rewrite Forall_forall in F; specialize (F a A); unfold shallow in F; lia|].
    destruct (IH A B L) as [p [q [r ->]]]. now exists (y :: p), q, r.
Qed.
Lemma c103_sorted : forall limit block l, give_depth limit (case_dict block []) = Some l ->
  Permutation (map fst (sorted_cases l)) (case_dict block [])
  /\ forall n f, dget n (case_dict block []) = Some f -> f <> "Zero" ->
     exists g, dget f (case_dict block []) = Some g /\ earlier (f, g) (n, f) (map fst (sorted_cases l)).
Proof.
  intros limit block l H. set (d := case_dict block []) in *. destruct (c103_depths limit block l H) as [M K]. fold d in M, K. split.
  - rewrite <- M. apply Permutation_map. apply sorted_perm.
  - intros n f E Z. assert (I := in_dget _ _ _ _ E). rewrite <- M in I. apply in_map_iff in I. destruct I as [[[a b] k] [X I]]. cbn in X. injection X as -> ->.
    assert (S1 := K n f k I). inversion S1 as [? E'|? f' j E' Z' S2]; subst; [congruence|]. assert (f' = f) by congruence. subst f'.
    assert (G : exists g, dget f d = Some g) by (inversion S2; subst; eexists; eassumption). destruct G as [g G]. exists g. split; [exact G|].
    assert (J := in_dget _ _ _ _ G). rewrite <- M in J. apply in_map_iff in J. destruct J as [[[a b] k'] [X J]]. cbn in X. injection X as -> ->.
    assert (S3 := K f g k' J). rewrite (stands_unique d f k' S3 j S2) in J.
    destruct (earlier_sorted (sorted_cases l) (f, g, j) (n, f, S j) (sorted_sorted l)
      (Permutation_in _ (Permutation_sym (sorted_perm l)) J) (Permutation_in _ (Permutation_sym (sorted_perm l)) I) ltac:(cbn; lia)) as [p [q [r Q]]].
    exists (map fst p), (map fst q), (map fst r). rewrite Q. rewrite map_app. cbn [map fst]. rewrite map_app. reflexivity.
Qed.

(** ** The chain *)
Lemma dget_depths : forall d l, map fst l = d -> NoDup (map fst d) -> forall n f k, In (n, f, k) l -> dget n (depth_dict l) = Some k.
Proof.
  intros d l E N n f k I. unfold depth_dict. apply dget_in.
  - rewrite map_map. cbn. rewrite <- E, map_map in N. exact N.
  - apply in_map_iff. now exists (n, f, k).
Qed.
Lemma continues_snoc : forall d l from n f, continues d from l -> dget n d = Some f -> last l from = f -> continues d from (l ++ [n]).
Proof.
  intros d l. induction l as [|m l IH]; intros from n f C E L; cbn in *; [subst; tauto|]. destruct C as [C1 C2]. split; [exact C1|].
  apply (IH m n f C2 E). destruct l; [exact L|]. rewrite <- L. clear. revert m from s. induction l as [|a l IHl]; intros m from s; [reflexivity|]. apply (IHl m from a).
Qed.
Lemma c103_chain : forall limit fuel block l n k, give_depth limit (case_dict block []) = Some l -> stands_at (case_dict block []) n k -> (k <= fuel)%nat ->
  exists c, case_chain fuel (case_dict block []) (depth_dict l) n = Some c
  /\ List.length c = k /\ last c "" = n /\ continues (case_dict block []) "Zero" c.
Proof.
  intros limit fuel block l n k H. set (d := case_dict block []) in *. destruct (c103_depths limit block l H) as [M K]. fold d in M, K.
  assert (N : NoDup (map fst d)) by (apply case_dict_keys; constructor).
  assert (G : forall k n, stands_at d n k -> forall fuel, (k <= fuel)%nat -> exists c, chain_from fuel d (depth_dict l) n = Some c
    /\ List.length (rev c) = k /\ (rev c <> [] /\ forall x, last (rev c) x = n) /\ continues d "Zero" (rev c)).
  { assert (DD : forall m j, stands_at d m j -> exists f, dget m d = Some f /\ dget m (depth_dict l) = Some j).
    { intros m j Hm. assert (F : exists f, dget m d = Some f) by (inversion Hm; subst; eexists; eassumption). destruct F as [f F]. exists f. split; [exact F|].
      assert (I := in_dget _ _ _ _ F). rewrite <- M in I. apply in_map_iff in I. destruct I as [[[a b] i] [X I]]. cbn in X. injection X as -> ->.
      rewrite (stands_unique d m j Hm i (K m f i I)). now apply (dget_depths d l M N m f). }
    clear H n k fuel. intros k n Hn. induction Hn as [n E|n f k E Z Hn IH]; intros fuel L; (destruct fuel as [|fuel]; [lia|]); cbn [chain_from].
    - destruct (DD n 1%nat (StartsZero d n E)) as [f [F1 F2]]. rewrite F1, F2. cbn [bindO Nat.eqb]. exists [n]. cbn. repeat split; try reflexivity; try exact E. discriminate.
    - destruct (DD n (S k) (Continues d n f k E Z Hn)) as [f' [F1 F2]]. assert (f' = f) by congruence. subst f'. rewrite F1, F2. cbn [bindO].
      destruct (Nat.eqb_spec (S k) 1) as [K1|K1]; [inversion Hn; lia|].
      destruct (IH fuel ltac:(lia)) as [c [C1 [C2 [[C3 C4] C5]]]]. rewrite C1. cbn [bindO]. exists (n :: c). split; [reflexivity|]. cbn [rev].
      split; [rewrite app_length; cbn; lia|]. split; [split; [destruct (rev c); discriminate|intros x; apply last_last]|].
      apply (continues_snoc d (rev c) "Zero" n f C5 E). apply C4. }
  intros Hn L. destruct (G k n Hn fuel L) as [c [C1 [C2 [[_ C4] C5]]]]. exists (rev c). unfold case_chain. rewrite C1. now repeat split.
Qed.
