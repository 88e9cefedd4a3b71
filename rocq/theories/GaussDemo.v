(** A solver that is exact and answers every system with exactly one solution, by elimination.
    (For examples only: it shows that the conditions put on the external solver can be met.) *)
From Coq Require Import Reals Lra Lia List Arith.
From Verif Require Import Base BaseFacts Csys Sections Element Load FeModel Assembly Solver Post Api SpecSolve SpecStatics.
Import ListNotations.
Local Open Scope R_scope.

Fixpoint dotl (r x : list R) : R := match r, x with a :: r', y :: x' => a * y + dotl r' x' | _, _ => 0 end.
(** One equation: coefficients and right-hand side. *)
Notation equation := (list R * R)%type.
Definition holds_eq (x : list R) (e : equation) : Prop := dotl (fst e) x = snd e.
Fixpoint subl (f : R) (r p : list R) : list R := match r, p with a :: r', b :: p' => (a - f * b) :: subl f r' p' | _, _ => [] end.
Definition minus_eq (a : R) (p : equation) (e : R * equation) : equation :=
  (subl (fst e / a) (fst (snd e)) (fst p), snd (snd e) - fst e / a * snd p).
(** Heads split off the coefficients; the first equation with a head, taken out. *)
Definition heads (es : list equation) : list (R * equation) := map (fun e => (hd 0 (fst e), (tl (fst e), snd e))) es.
Fixpoint pick (es : list (R * equation)) : option (R * equation * list (R * equation)) :=
  match es with
  | [] => None
  | e :: es' => if Req_EM_T (fst e) 0 then match pick es' with Some (p, rest) => Some (p, e :: rest) | None => None end else Some (e, es')
  end.
Fixpoint gauss (n : nat) (es : list equation) : option (list R) :=
  match n with
  | O => if forallb (fun e => if Req_EM_T (snd e) 0 then true else false) es then Some [] else None
  | S k =>
      match pick (heads es) with
      | None => None
      | Some ((a, p), rest) =>
          match gauss k (map (minus_eq a p) rest) with
          | None => None
          | Some x => Some ((snd p - dotl (fst p) x) / a :: x)
          end
      end
  end.
Lemma subl_length f r p : List.length r = List.length p -> List.length (subl f r p) = List.length r.
Proof. revert p. induction r as [|a r IH]; intros [|b p] H; try discriminate; [reflexivity|]. cbn. f_equal. apply IH. injection H as H. exact H. Qed.
Lemma subl_dot f r : forall p x, List.length r = List.length x -> List.length p = List.length x -> dotl (subl f r p) x = dotl r x - f * dotl p x.
Proof.
  induction r as [|a r IH]; intros [|b p] [|y x] H1 H2; try discriminate; cbn [subl dotl]; [ring|].
  injection H1 as H1. injection H2 as H2. rewrite IH by assumption. ring.
Qed.
Lemma pick_some es q rest : pick es = Some (q, rest) -> fst q <> 0 /\ forall e, In e es <-> e = q \/ In e rest.
Proof.
  revert q rest. induction es as [|e es IH]; intros q rest; cbn [pick]; [discriminate|].
  destruct (Req_EM_T (fst e) 0) as [Z|NZ].
  - destruct (pick es) as [[p r]|]; [|discriminate]. intros H. injection H as <- <-. destruct (IH _ _ eq_refl) as [A B]. split; [exact A|].
    intros e'. cbn [In]. rewrite B. intuition.
  - intros H. injection H as <- <-. split; [exact NZ|]. intros e'. cbn [In]. intuition.
Qed.
Lemma pick_none es : pick es = None -> forall e, In e es -> fst e = 0.
Proof.
  induction es as [|e es IH]; cbn [pick]; intros H e' I; [destruct I|]. destruct (Req_EM_T (fst e) 0) as [Z|NZ]; [|discriminate].
  destruct (pick es) as [[p r]|] eqn:E; [discriminate|]. destruct I as [<-|I]; [exact Z|]. apply IH; auto.
Qed.
Definition sized (n : nat) (es : list equation) : Prop := forall e, In e es -> List.length (fst e) = n.
Lemma sized_heads n es e : sized (S n) es -> In e (heads es) -> List.length (fst (snd e)) = n.
Proof.
  intros H I. apply in_map_iff in I as (q & <- & I). cbn [snd fst]. pose proof (H q I) as L. destruct (fst q); [discriminate|]. cbn in *. lia.
Qed.
Lemma heads_holds n es y x : sized (S n) es ->
  ((forall e, In e es -> holds_eq (y :: x) e) <-> forall e, In e (heads es) -> fst e * y + dotl (fst (snd e)) x = snd (snd e)).
Proof.
  intros SZ. split; intros H.
  - intros e I. apply in_map_iff in I as (q & <- & I). cbn [fst snd]. specialize (H q I). unfold holds_eq in H. pose proof (SZ q I) as L.
    destruct (fst q) as [|c r]; [discriminate|]. exact H.
  - intros q I. specialize (H (hd 0 (fst q), (tl (fst q), snd q)) ltac:(apply in_map_iff; exists q; auto)). cbn [fst snd] in H. unfold holds_eq. pose proof (SZ q I) as L.
    destruct (fst q) as [|c r]; [discriminate|]. exact H.
Qed.
Lemma eliminated n a p rest x : a <> 0 -> List.length (fst p) = n -> (forall e, In e rest -> List.length (fst (snd e)) = n) -> List.length x = n ->
  ((forall e, In e (map (minus_eq a p) rest) -> holds_eq x e) <->
   forall e, In e rest -> fst e * ((snd p - dotl (fst p) x) / a) + dotl (fst (snd e)) x = snd (snd e)).
Proof.
  intros NA LP LR LX. split; intros H.
  - intros e I. specialize (H (minus_eq a p e) (in_map _ _ _ I)). unfold holds_eq, minus_eq in H. cbn [fst snd] in H.
    rewrite subl_dot in H by (rewrite ?LR, ?LP by exact I; congruence).
    replace (fst e * ((snd p - dotl (fst p) x) / a)) with (fst e / a * (snd p - dotl (fst p) x)) by (field; exact NA).
    revert H. generalize (fst e / a) (dotl (fst (snd e)) x) (dotl (fst p) x) (snd p) (snd (snd e)). intros k t u v s H.
    lra.
  - intros e' I. apply in_map_iff in I as (e & <- & I). specialize (H e I). unfold holds_eq, minus_eq. cbn [fst snd].
    rewrite subl_dot by (rewrite ?LR, ?LP by exact I; congruence). rewrite <- H. field. exact NA.
Qed.
Lemma gauss_exact n : forall es x, sized n es -> gauss n es = Some x -> List.length x = n /\ forall e, In e es -> holds_eq x e.
Proof.
  induction n as [|n IH]; intros es x SZ; cbn [gauss].
  - destruct (forallb _ es) eqn:F; [|discriminate]. intros H. injection H as <-. split; [reflexivity|].
    intros e I. rewrite forallb_forall in F. specialize (F e I). unfold holds_eq. pose proof (SZ e I) as L. destruct (fst e); [|discriminate].
    destruct (Req_EM_T (snd e) 0) as [Z|]; [rewrite Z; reflexivity|discriminate].
  - destruct (pick (heads es)) as [[[a p] rest]|] eqn:P; [|discriminate]. apply pick_some in P as [NA IN]. cbn [fst] in NA.
    destruct (gauss n (map (minus_eq a p) rest)) as [z|] eqn:G; [|discriminate]. intros H. injection H as <-.
    assert (LP : List.length (fst p) = n) by (apply (sized_heads n es (a, p) SZ), IN; left; reflexivity).
    assert (LR : forall e, In e rest -> List.length (fst (snd e)) = n) by (intros e I; apply (sized_heads n es e SZ), IN; right; exact I).
    destruct (fun H => IH (map (minus_eq a p) rest) z H G) as [LX HX].
    { intros e' I. apply in_map_iff in I as (e & <- & I). cbn [minus_eq fst]. rewrite subl_length; rewrite (LR e I); congruence. }
    split; [cbn; congruence|]. apply (proj2 (heads_holds n es _ z SZ)). intros e I. apply IN in I as [->|I].
    + cbn [fst snd]. field. exact NA.
    + apply (proj1 (eliminated n a p rest z NA LP LR LX) HX e I).
Qed.
Lemma gauss_able n : forall es, sized n es ->
  (exists x, List.length x = n /\ (forall e, In e es -> holds_eq x e) /\ forall y, List.length y = n -> (forall e, In e es -> holds_eq y e) -> y = x) ->
  exists x, gauss n es = Some x.
Proof.
  induction n as [|n IH]; intros es SZ (x & LX & HX & UX); cbn [gauss].
  - assert (forallb (fun e => if Req_EM_T (snd e) 0 then true else false) es = true) as ->; [|eauto].
    apply forallb_forall. intros e I. specialize (HX e I). unfold holds_eq in HX. pose proof (SZ e I) as L. destruct (fst e); [|discriminate].
    cbn in HX. destruct (Req_EM_T (snd e) 0); congruence.
  - destruct x as [|y x]; [discriminate|]. injection LX as LX. pose proof (proj1 (heads_holds n es y x SZ) HX) as HH.
    destruct (pick (heads es)) as [[[a p] rest]|] eqn:P.
    + apply pick_some in P as [NA IN]. cbn [fst] in NA.
      assert (LP : List.length (fst p) = n) by (apply (sized_heads n es (a, p) SZ), IN; left; reflexivity).
      assert (LR : forall e, In e rest -> List.length (fst (snd e)) = n) by (intros e I; apply (sized_heads n es e SZ), IN; right; exact I).
      assert (YV : y = (snd p - dotl (fst p) x) / a).
      { pose proof (HH (a, p) (proj2 (IN _) (or_introl eq_refl))) as E. cbn [fst snd] in E. rewrite <- E. field. exact NA. }
      destruct (IH (map (minus_eq a p) rest)) as (z & Hz); [| |rewrite Hz; eauto].
      { intros e' I. apply in_map_iff in I as (e & <- & I). cbn [minus_eq fst]. rewrite subl_length; rewrite (LR e I); congruence. }
      exists x. split; [exact LX|]. split.
      * apply (eliminated n a p rest x NA LP LR LX). intros e I. rewrite <- YV. apply HH, IN. right. exact I.
      * intros z LZ HZ. assert (E : (snd p - dotl (fst p) z) / a :: z = y :: x); [|injection E; auto].
        apply UX; [cbn; congruence|]. apply (proj2 (heads_holds n es _ z SZ)). intros e I. apply IN in I as [->|I].
        -- cbn [fst snd]. field. exact NA.
        -- apply (proj1 (eliminated n a p rest z NA LP LR LZ) HZ e I).
    + exfalso. assert (E : (y + 1) :: x = y :: x); [|injection E; lra].
      apply UX; [cbn; congruence|]. apply (proj2 (heads_holds n es _ x SZ)). intros e I. pose proof (pick_none _ P e I) as Z. pose proof (HH e I) as E.
      rewrite Z in *. lra.
Qed.

Definition rows_of (N : nat) (A : coo) (b : list R) : list equation :=
  map (fun i => (map (coo_get A i) (seq 0 N), nth i b 0)) (seq 0 N).
Definition eliminate_ext (ker : kernels) : externals :=
  Ext ker (fun N A b => gauss N (rows_of N A b)) (fun N A b => gauss N (rows_of N A b)).
Lemma dot_row f x N k : List.length x = N -> dotl (map f (seq k N)) x = rsum N (fun j => f (k + j)%nat * nth j x 0).
Proof.
  revert k x. induction N as [|N IH]; intros k [|y x] H; try discriminate; [reflexivity|]. injection H as H.
  change (S N) with (1 + N)%nat at 2. rewrite rsum_split. cbn [seq map dotl rsum nth]. rewrite (IH (S k) x H), Nat.add_0_r, Rplus_0_l.
  f_equal. apply rsum_ext. intros j Hj. cbn [Nat.add nth]. f_equal. f_equal. lia.
Qed.
Lemma rows_hold N A b x : List.length x = N ->
  ((forall e, In e (rows_of N A b) -> holds_eq x e) <-> forall i, (i < N)%nat -> rsum N (fun j => coo_get A i j * nth j x 0) = nth i b 0).
Proof.
  intros L. split; intros H.
  - intros i Hi. specialize (H (map (coo_get A i) (seq 0 N), nth i b 0)). unfold holds_eq in H. cbn [fst snd] in H. rewrite (dot_row _ _ _ _ L) in H. apply H.
    apply in_map_iff. exists i. split; [reflexivity|]. apply in_seq. lia.
  - intros e I. apply in_map_iff in I as (i & <- & I). apply in_seq in I. unfold holds_eq. cbn [fst snd]. rewrite (dot_row _ _ _ _ L). apply H. lia.
Qed.
Lemma rows_sized N A b : sized N (rows_of N A b).
Proof. intros e I. apply in_map_iff in I as (i & <- & I). cbn [fst]. rewrite map_length, seq_length. reflexivity. Qed.
Lemma eliminate_exact ker : exact_solver (eliminate_ext ker).
Proof.
  intros N A b x H. cbn [eliminate_ext x_spsolve] in H. destruct (gauss_exact N _ x (rows_sized N A b) H) as [L E]. split; [exact L|].
  apply rows_hold; assumption.
Qed.
Lemma eliminate_able ker : able_solver (eliminate_ext ker).
Proof.
  intros N A b (x & L & E & U). cbn [eliminate_ext x_spsolve]. apply gauss_able; [apply rows_sized|]. exists x. split; [exact L|]. split; [apply rows_hold; assumption|].
  intros y Ly Hy. apply U; [exact Ly|]. apply rows_hold; assumption.
Qed.
