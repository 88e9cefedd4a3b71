(** Evaluating C expressions: values and divisors. *)
From Coq Require Import Reals List Arith ZArith Bool Lra Lia.
From Verif Require Import Base Csys Sections Element Kernels CText.
Import ListNotations.
Local Open Scope R_scope.

Fixpoint cval (env : cvar -> R) (e : cexp) : R :=
  match e with
  | CInt n => IZR n
  | CDec n d => IZR n / IZR d
  | CVar v => env v
  | CNeg a => - cval env a
  | CAdd a b => cval env a + cval env b
  | CSub a b => cval env a - cval env b
  | CMul a b => cval env a * cval env b
  | CDiv a b => cval env a / cval env b
  | CPow a n => cval env a ^ n
  end.

Fixpoint cdivs (e : cexp) : list cexp :=
  match e with
  | CInt _ | CDec _ _ | CVar _ => []
  | CNeg a => cdivs a
  | CAdd a b | CSub a b | CMul a b => cdivs a ++ cdivs b
  | CDiv a b => b :: cdivs a ++ cdivs b
  | CPow a _ => cdivs a
  end.

Lemma ceval_some : forall env e,
  Forall (fun d => cval env d <> 0) (cdivs e) -> ceval env e = Some (cval env e).
Proof.
  intros env e; induction e; cbn [cdivs ceval cval]; intros H; auto;
    try (apply Forall_app in H; destruct H as [H1 H2]; rewrite IHe1, IHe2 by assumption; reflexivity);
    try (rewrite IHe by assumption; reflexivity).
  inversion H as [|? ? Hd H']; subst.
  apply Forall_app in H'; destruct H' as [H1 H2].
  rewrite IHe1, IHe2 by assumption.
  destruct (Req_EM_T (cval env e2) 0); [contradiction | reflexivity].
Qed.

Lemma ceval_divs : forall env e v, ceval env e = Some v ->
  v = cval env e /\ Forall (fun d => cval env d <> 0) (cdivs e).
Proof.
  intros env e; induction e; cbn [cdivs ceval cval]; intros w H;
    try (inversion H; subst; split; [reflexivity | constructor]);
    try (destruct (ceval env e1) as [x|]; [|discriminate]; destruct (ceval env e2) as [y|]; [|discriminate];
         destruct (IHe1 _ eq_refl) as [-> F1]; destruct (IHe2 _ eq_refl) as [-> F2]).
  - destruct (ceval env e) as [x|]; [|discriminate]; destruct (IHe _ eq_refl) as [-> F].
    inversion H; subst; split; auto.
  - inversion H; subst; split; [reflexivity | apply Forall_app; auto].
  - inversion H; subst; split; [reflexivity | apply Forall_app; auto].
  - inversion H; subst; split; [reflexivity | apply Forall_app; auto].
  - destruct (Req_EM_T (cval env e2) 0) as [|N]; [discriminate|].
    inversion H; subst; split; [reflexivity | constructor; [assumption | apply Forall_app; auto]].
  - destruct (ceval env e) as [x|]; [|discriminate]; destruct (IHe _ eq_refl) as [-> F].
    inversion H; subst; split; auto.
Qed.

Definition cvar_eqb (a b : cvar) : bool :=
  match a, b with
  | VE, VE | Vmu, Vmu | Vt, Vt | Vxi, Vxi | Veta, Veta => true
  | Vx i, Vx j | Vy i, Vy j => Nat.eqb i j
  | _, _ => false
  end.
Fixpoint cexp_eqb (a b : cexp) : bool :=
  match a, b with
  | CInt n, CInt m => Z.eqb n m
  | CDec n d, CDec m e => Z.eqb n m && Z.eqb d e
  | CVar v, CVar w => cvar_eqb v w
  | CNeg a, CNeg b => cexp_eqb a b
  | CAdd a b, CAdd c d | CSub a b, CSub c d | CMul a b, CMul c d | CDiv a b, CDiv c d => cexp_eqb a c && cexp_eqb b d
  | CPow a n, CPow b m => cexp_eqb a b && Nat.eqb n m
  | _, _ => false
  end.
Lemma cexp_eqb_eq : forall a b, cexp_eqb a b = true -> a = b.
Proof.
  induction a; destruct b; cbn; try discriminate; intros H;
    try (apply andb_prop in H; destruct H as [H1 H2]);
    try (apply IHa in H; subst; reflexivity);
    try (apply IHa1 in H1; apply IHa2 in H2; subst; reflexivity).
  - apply Z.eqb_eq in H; subst; reflexivity.
  - apply Z.eqb_eq in H1, H2; subst; reflexivity.
  - destruct v, v0; cbn in H; try discriminate; try reflexivity; apply Nat.eqb_eq in H; subst; reflexivity.
  - apply IHa in H1; apply Nat.eqb_eq in H2; subst; reflexivity.
Qed.

(** Every divisor is one of the list. *)
Definition divs_among (l : list cexp) (p : list cexp) : bool :=
  forallb (fun e => forallb (fun d => existsb (cexp_eqb d) l) (cdivs e)) p.
Lemma divs_among_forall : forall env l p, divs_among l p = true ->
  Forall (fun d => cval env d <> 0) l -> Forall (fun e => Forall (fun d => cval env d <> 0) (cdivs e)) p.
Proof.
  intros env l p H Hl. unfold divs_among in H. rewrite forallb_forall in H.
  apply Forall_forall; intros e He. specialize (H e He). rewrite forallb_forall in H.
  apply Forall_forall; intros d Hd. specialize (H d Hd). apply existsb_exists in H.
  destruct H as [d' [H1 H2]]. apply cexp_eqb_eq in H2; subst d'.
  rewrite Forall_forall in Hl; exact (Hl d H1).
Qed.

Lemma autofunc_some : forall env p, Forall (fun e => Forall (fun d => cval env d <> 0) (cdivs e)) p ->
  autofunc env p = Some (map (cval env) p).
Proof.
  intros env p H; induction H as [|e p He Hp IH]; [reflexivity|].
  cbn [autofunc map]. rewrite (ceval_some _ _ He), IH. reflexivity.
Qed.
Lemma autofunc_divs : forall env p l, autofunc env p = Some l ->
  forall e d, In e p -> In d (cdivs e) -> cval env d <> 0.
Proof.
  intros env p; induction p as [|e0 p IH]; intros l H e d He Hd; [destruct He|].
  cbn [autofunc] in H. destruct (ceval env e0) as [x|] eqn:E0; [|discriminate].
  destruct (autofunc env p) as [l'|] eqn:E1; [|discriminate].
  destruct He as [<-|He]; [|exact (IH _ eq_refl _ _ He Hd)].
  destruct (ceval_divs _ _ _ E0) as [_ F]. rewrite Forall_forall in F; exact (F d Hd).
Qed.

Lemma autofunc_c_some : forall n p env,
  Forall (fun e => Forall (fun d => cval env d <> 0) (cdivs e)) p ->
  autofunc_c n p env = Some (fun i j => vnth (map (cval env) p) (n * i + j)).
Proof. intros n p env H. unfold autofunc_c. rewrite (autofunc_some _ _ H). reflexivity. Qed.

Lemma vnth_cval : forall env p k, (k < length p)%nat -> vnth (map (cval env) p) k = cval env (nth k p (CInt 0)).
Proof.
  intros env p k H. unfold vnth. rewrite (nth_indep _ 0 (cval env (CInt 0))) by (rewrite map_length; exact H).
  apply map_nth.
Qed.

(** The energy form of plane stress. *)
Lemma plane_form : forall E mu (B : mat) i j,
  mmul 3 (mT B) (mmul 3 (planeD E mu) B) i j
  = E / (1 - mu^2) * (B 0%nat i * B 0%nat j + mu * (B 0%nat i * B 1%nat j + B 1%nat i * B 0%nat j)
                      + B 1%nat i * B 1%nat j + (1 - mu) / 2 * (B 2%nat i * B 2%nat j)).
Proof.
  intros E mu B i j. unfold mmul, mT, planeD; cbn [rsum].
  set (k := E / (1 - mu^2)). field.
Qed.
