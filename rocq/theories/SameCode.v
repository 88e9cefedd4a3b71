(** The kernels of the code do not depend on where the element lies: a structure shifted has
    the same answers, shells and all. *)
From Coq Require Import Reals Lra Lia List String Arith Bool ZArith.
From Verif Require Import Base BaseFacts Csys Sections Element Load FeModel Assembly Kernels Solver Post Api
  SpecApi SpecGeom SpecAsm SpecLoad SpecSolve SpecKernel SpecTold SpecToldLoad SpecStatics SpecSame StaticsMain KernelProofs2 SpecIso IsoProofs.
Import ListNotations.
Local Open Scope R_scope.

Lemma slid_dkt_x a b x1 y1 x2 y2 x3 y3 : dkt_x (slid a b [x1; y1; x2; y2; x3; y3]) = dkt_x [x1; y1; x2; y2; x3; y3].
Proof. apply FunctionalExtensionality.functional_extensionality. intros k. unfold dkt_x, cx, vnth, slid. cbn [nth Nat.mul Nat.add]. destruct k as [|[|[|[|[|[|k]]]]]]; ring. Qed.
Lemma slid_dkt_y a b x1 y1 x2 y2 x3 y3 : dkt_y (slid a b [x1; y1; x2; y2; x3; y3]) = dkt_y [x1; y1; x2; y2; x3; y3].
Proof. apply FunctionalExtensionality.functional_extensionality. intros k. unfold dkt_y, cy, vnth, slid. cbn [nth Nat.mul Nat.add]. destruct k as [|[|[|[|[|[|k]]]]]]; ring. Qed.
Lemma slid_dkt E mu t xi eta a b x1 y1 x2 y2 x3 y3 :
  dkt_BDB E mu t xi eta (slid a b [x1; y1; x2; y2; x3; y3]) = dkt_BDB E mu t xi eta [x1; y1; x2; y2; x3; y3].
Proof.
  unfold dkt_BDB, dkt_B, dkt_Hxxi, dkt_Hxeta, dkt_Hyxi, dkt_Hyeta, dkt_P, dkt_q, dkt_r, dkt_t, dkt_l. rewrite slid_dkt_x, slid_dkt_y. reflexivity.
Qed.
Lemma code_place_blind c2 t2 : place_blind (code_kernels c2 t2).
Proof.
  intros E mu t a b x1 y1 x2 y2 x3 y3 i j xl. subst xl. cbn [code_kernels k_dkt].
  replace (fun xi eta : R => dkt_BDB E mu t xi eta (slid a b [x1; y1; x2; y2; x3; y3])) with (fun xi eta : R => dkt_BDB E mu t xi eta [x1; y1; x2; y2; x3; y3]); [reflexivity|].
  apply FunctionalExtensionality.functional_extensionality. intros xi. apply FunctionalExtensionality.functional_extensionality. intros eta. symmetry. apply slid_dkt.
Qed.
Lemma code_direction_blind c2 t2 : direction_blind (code_kernels c2 t2).
Proof. intros E mu t c s xl x y. apply c114_membrane. Qed.
Lemma m111_shifted_code ext c2 t2 ops ops' t t' l l' case d : x_ker ext = code_kernels c2 t2 -> never_readds_nodes ext ops -> never_readds_nodes ext ops' ->
  let w := final ext init (ops ++ [OpAssemble]) in let w' := final ext init (ops' ++ [OpAssemble]) in
  describes ext ops t l -> describes ext ops' t' l' -> alike 1 0 d t t' -> same_case l l' case ->
  solved ext w case -> solved ext w' case -> stable ext w case ->
  forall k, answer ext w (OpNodeLocation k) <> RNone -> exists v, List.length v = 6%nat
  /\ answer ext (after ext w (OpSolveStatic case)) (OpNodalDisp k case) = RVec v
  /\ answer ext (after ext w' (OpSolveStatic case)) (OpNodalDisp k case) = RVec v.
Proof.
  intros X NR NR' w w' T T' SS SC. apply (m111_shifted ext ops ops' t t' l l' case d NR NR' T T' SS SC).
  - right. rewrite X. apply code_place_blind.
  - intros m _. right. rewrite X. apply code_symmetric.
Qed.
