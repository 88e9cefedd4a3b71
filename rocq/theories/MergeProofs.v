(** Adding nodes with the duplicate check. *)
From Coq Require Import Reals Lra Lia List String Arith Bool.
From Verif Require Import Base BaseFacts Csys Sections Element Load FeModel Assembly Solver Post Api SpecApi ApiFacts
  WfFacts SpecGeom SpecBeam SpecAsm AsmFacts AsmProofs SpecPost.
Import ListNotations.
Local Open Scope R_scope.

Record merged (m : fem) : Prop := {
  mg_nodup : NoDup (dkeys (f_nodes m));
  mg_name : forall k n, dget k (f_nodes m) = Some n -> n_name n = k /\ exists i, dget k (f_hnode m) = Some i;
  mg_apart : forall k1 k2 n1 n2, k1 <> k2 -> dget k1 (f_nodes m) = Some n1 -> dget k2 (f_nodes m) = Some n2 ->
     1 / 1000000000 <= distance (n_loc n1) (n_loc n2) }.

Lemma distance_sym p q : distance p q = distance q p.
Proof. unfold distance. f_equal. ring. Qed.

Lemma merge_step k x y z m : merged m -> exists hid m', model_add_node k x y z true m = Some (hid, m') /\ merged m'
  /\ exists k' n, dget k' (f_hnode m') = Some hid /\ dget k' (f_nodes m') = Some n
       /\ distance (n_loc n) (V3 x y z) < 1 / 1000000000
       /\ ((k' = k /\ n_loc n = V3 x y z) \/ m' = m).
Proof.
  intros [ND NM AP]. unfold model_add_node. rewrite mk_node_total.
  set (near := fun a => Rltb (norm (vsub (n_loc a) (V3 x y z))) abs_tol).
  set (nd := Node k _ _).
  destruct (filter near (dvals (f_nodes m))) as [|dup r] eqn:E.
  - do 2 eexists. split; [reflexivity|]. split.
    + constructor; cbn [f_nodes f_hnode].
      * apply nodup_dset, ND.
      * intros k0 n H. rewrite dget_dset in H. rewrite dget_dset. destruct (String.eqb_spec k0 k) as [->|NE].
        -- injection H as <-. split; [reflexivity|eauto].
        -- apply NM, H.
      * assert (FAR : forall k0 n0, dget k0 (f_nodes m) = Some n0 -> 1 / 1000000000 <= distance (n_loc n0) (V3 x y z)).
        { intros k0 n0 H. destruct (Rltb (norm (vsub (n_loc n0) (V3 x y z))) abs_tol) eqn:T.
          - exfalso. assert (I : In n0 (filter near (dvals (f_nodes m)))).
            { apply filter_In. split; [|exact T]. apply dget_some_in in H. apply (in_map snd) in H. exact H. }
            rewrite E in I. exact I.
          - apply Rltb_false in T. rewrite norm_distance in T. unfold abs_tol in T. lra. }
        intros k1 k2 n1 n2 NE H1 H2. rewrite dget_dset in H1, H2.
        destruct (String.eqb_spec k1 k) as [->|N1]; destruct (String.eqb_spec k2 k) as [->|N2]; try easy.
        -- injection H1 as <-. rewrite distance_sym. apply (FAR k2 n2 H2).
        -- injection H2 as <-. apply (FAR k1 n1 H1).
        -- apply (AP k1 k2); auto.
    + exists k, nd. cbn [f_nodes f_hnode]. rewrite !dget_dset_eq. split; [reflexivity|]. split; [reflexivity|].
      split; [|left; split; reflexivity].
      unfold nd, n_loc, distance. cbn [n_csys cs_O vx vy vz]. replace ((x - x)^2 + (y - y)^2 + (z - z)^2) with 0 by ring. rewrite sqrt_0. lra.
  - assert (I : In dup (filter near (dvals (f_nodes m)))) by (rewrite E; now left).
    apply filter_In in I as (I1 & I2). unfold near in I2. apply Rltb_true in I2. rewrite norm_distance in I2.
    apply in_dvals_ex in I1 as [k0 I1]. pose proof (in_dget_nodup _ _ _ ND I1) as D. destruct (NM _ _ D) as (-> & i & Hi). rewrite Hi.
    exists i, m. split; [reflexivity|]. split; [constructor; assumption|].
    exists k0, dup. split; [exact Hi|]. split; [exact D|]. split; [exact I2|]. right; reflexivity.
Qed.
Lemma merged_new : merged new_fem.
Proof. constructor; cbn; [constructor|easy|easy]. Qed.

Lemma merge_all l : forall m, merged m -> exists m', add_merged l m = Some m' /\ merged m'.
Proof.
  induction l as [|[k [[x y] z]] l IH]; intros m M; [exists m; split; auto; reflexivity|].
  destruct (merge_step k x y z m M) as (hid & m1 & E & M1 & _). cbn [add_merged]. rewrite E. apply IH, M1.
Qed.
Lemma c61_apart l : exists m, add_merged l new_fem = Some m
  /\ forall k1 k2 n1 n2, k1 <> k2 -> dget k1 (f_nodes m) = Some n1 -> dget k2 (f_nodes m) = Some n2 ->
     1 / 1000000000 <= distance (n_loc n1) (n_loc n2).
Proof.
  destruct (merge_all l new_fem merged_new) as (m & E & M). exists m. split; [exact E|]. apply M.
Qed.
Lemma c61_answer l k x y z m : add_merged l new_fem = Some m ->
  exists hid m' k' n, model_add_node k x y z true m = Some (hid, m')
  /\ dget k' (f_hnode m') = Some hid /\ dget k' (f_nodes m') = Some n
  /\ distance (n_loc n) (V3 x y z) < 1 / 1000000000
  /\ ((k' = k /\ n_loc n = V3 x y z) \/ m' = m).
Proof.
  intros H. destruct (merge_all l new_fem merged_new) as (m0 & E & M). assert (m0 = m) by congruence. subst m0.
  destruct (merge_step k x y z m M) as (hid & m' & A1 & _ & k' & n & A2 & A3 & A4 & A5). exists hid, m', k', n. auto.
Qed.
(** In the corner of the cube of side 1e-9 two nodes stay apart. *)
Lemma c61_cube_refuted : exists l m k1 k2 n1 n2, add_merged l new_fem = Some m /\ k1 <> k2
  /\ dget k1 (f_nodes m) = Some n1 /\ dget k2 (f_nodes m) = Some n2
  /\ Rabs (vx (n_loc n1) - vx (n_loc n2)) < 1 / 1000000000 /\ Rabs (vy (n_loc n1) - vy (n_loc n2)) < 1 / 1000000000
  /\ Rabs (vz (n_loc n1) - vz (n_loc n2)) < 1 / 1000000000.
Proof.
  set (e := 9 / 10000000000).
  exists [("A"%string, (0, 0, 0)); ("B"%string, (e, e, e))].
  set (nA := Node "A" (CS (V3 0 0 0) (V3 1 0 0) (V3 0 1 0) (V3 0 0 1)) [0;0;0;0;0;0]).
  assert (E1 : model_add_node "A" 0 0 0 true new_fem = Some (O, Fem [("A"%string, nA)] [] [] [] [] [] [] [("A"%string, O)] [] []))
    by (unfold model_add_node; rewrite mk_node_total; reflexivity).
  cbn [add_merged]. rewrite E1. cbn [bindO snd]. unfold model_add_node. rewrite mk_node_total. cbn [f_nodes dvals map snd filter].
  assert (Rltb (norm (vsub (n_loc nA) (V3 e e e))) abs_tol = false) as ->.
  { apply Rltb_false. rewrite norm_distance. unfold distance, n_loc, nA. cbn [n_csys cs_O vx vy vz].
    replace ((0 - e)^2 + (0 - e)^2 + (0 - e)^2) with (3 * e^2) by ring.
    rewrite <- (sqrt_Rsqr abs_tol) by (unfold abs_tol; lra). apply sqrt_le_1_alt. unfold Rsqr, abs_tol, e. nra. }
  eexists. exists "A"%string, "B"%string. do 2 eexists. split; [reflexivity|]. split; [discriminate|]. split; [reflexivity|]. split; [reflexivity|].
  cbn. unfold e. split; [|split]; rewrite Rabs_left; lra.
Qed.
