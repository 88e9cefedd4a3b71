(** Proofs about the readers of results and load combinations. *)
From Coq Require Import Reals List String Arith Bool ZArith Lra Lia.
From Verif Require Import Base BaseFacts General SpecGeneral GeneralResult SpecResult.
Import ListNotations.
Local Open Scope R_scope.

Lemma rows_filter n c t : rows_of n c t (filter (fun f => (String.eqb (ff_frame f) n && String.eqb (ff_case f) c)%bool) t).
Proof.
  induction t as [|f t IH]; [constructor|]. cbn [filter].
  destruct (String.eqb_spec (ff_frame f) n) as [E|E]; destruct (String.eqb_spec (ff_case f) c) as [E'|E']; cbn [andb];
    constructor; auto.
Qed.
Lemma rows_fun n c t l l' : rows_of n c t l -> rows_of n c t l' -> l = l'.
Proof.
  intro H. revert l'. induction H; intros l' H'; inversion H'; subst; auto; try (f_equal; auto); try tauto.
Qed.
Lemma periods_filter c t : periods_of c t (map mp_period (filter (fun r => String.eqb (mp_case r) c) t)).
Proof.
  induction t as [|f t IH]; [constructor|]. cbn [filter].
  destruct (String.eqb_spec (mp_case f) c) as [E|E]; cbn [map]; constructor; auto.
Qed.
Lemma periods_fun c t l l' : periods_of c t l -> periods_of c t l' -> l = l'.
Proof.
  intro H. revert l'. induction H; intros l' H'; inversion H'; subst; auto; try (f_equal; auto); try tauto.
Qed.

Lemma scale_meaning u : In u units -> scale u = Some (newtons u, (if (String.eqb u "N_mm_C" || String.eqb u "kN_mm_C")%bool then 1/1000 else 1)).
Proof. intros [<-|[<-|[<-|[<-|[]]]]]; reflexivity. Qed.
Lemma metres_meaning u : (if (String.eqb u "N_mm_C" || String.eqb u "kN_mm_C")%bool then 1/1000 else 1) = metres u.
Proof. unfold metres. destruct (_ || _)%bool; lra. Qed.
Lemma newtons_pos u : 0 < newtons u. Proof. unfold newtons. destruct (_ || _)%bool; lra. Qed.
Lemma metres_pos u : 0 < metres u. Proof. unfold metres. destruct (_ || _)%bool; lra. Qed.

Lemma row_tells u f : tells u (force_row (newtons u) (metres u) f) f.
Proof.
  pose proof (newtons_pos u) as PN. pose proof (metres_pos u) as PM.
  split; [reflexivity|]. unfold in_si, end_units, force_row, end_forces. cbn [combine map fst snd].
  repeat (apply f_equal2; [field; lra|]). reflexivity.
Qed.

Lemma c132_forces : forall u n c t rows, In u units -> rows_of n c t rows ->
  match get_result_frame_force u n c t with
  | ReadNone => rows = []
  | ReadRows l => rows <> [] /\ Forall2 (tells u) l rows
  | _ => False
  end.
Proof.
  intros u n c t rows U H. rewrite (rows_fun n c t rows _ H (rows_filter n c t)). unfold get_result_frame_force.
  destruct (filter _ t) as [|f l0]; [reflexivity|]. cbn [List.length Nat.eqb].
  rewrite (scale_meaning u U), metres_meaning. split; [discriminate|].
  generalize (f :: l0). intro l. induction l as [|a l IH]; cbn [map]; constructor; [apply row_tells|exact IH].
Qed.

Lemma c133_all : forall c t l, periods_of c t l -> get_result_period c (OText "all") t = ReadList l.
Proof. intros c t l H. rewrite (periods_fun c t l _ H (periods_filter c t)). reflexivity. Qed.
Lemma c133_refuted : exists c k t m, In m t /\ mp_case m = c /\ mp_order m = k /\ forall l, get_result_period c (OInt k) t <> ReadList l.
Proof.
  exists "modal"%string, 1%Z, [MPeriod "modal" 1 2], (MPeriod "modal" 1 2).
  split; [left; reflexivity|]. split; [reflexivity|]. split; [reflexivity|]. intros l H. discriminate H.
Qed.

Lemma dget_dset_case (k k' : string) (v : R) d : dget k (dset k' v d) = if String.eqb k k' then Some v else dget k d.
Proof.
  induction d as [|(a, x) d IH]; cbn [dset dget].
  - destruct (String.eqb k k'); reflexivity.
  - destruct (String.eqb_spec k' a) as [E|E]; cbn [dget].
    + subst. destruct (String.eqb_spec k a); reflexivity.
    + destruct (String.eqb_spec k a) as [Q|Q].
      * subst. destruct (String.eqb_spec a k'); [congruence|reflexivity].
      * exact IH.
Qed.
Lemma c134_given : forall name given method ops lc v, last_given lc ops v ->
  dget lc (cb_cases (fold_left cstep ops (new_combination name given method))) = v.
Proof.
  intros name given method ops lc v H. induction H; [reflexivity|..]; rewrite fold_left_app; cbn [fold_left cstep add_load rename_combination cb_cases].
  - rewrite dget_dset_case, String.eqb_refl. reflexivity.
  - rewrite dget_dset_case. destruct (String.eqb_spec lc lc'); [congruence|assumption].
  - assumption.
Qed.
Lemma c134_refuted : exists name given method lc f, dget lc given = Some f
  /\ dget lc (cb_cases (new_combination name given method)) <> Some f.
Proof. exists "c"%string, [("dead"%string, 2)], "linear_add"%string, "dead"%string, 2. split; [reflexivity|discriminate]. Qed.
