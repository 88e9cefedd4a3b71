(** The theory of the bar: virtual work of a loaded bar, and existence of its states (for C119). *)
From Coq Require Import Reals Lra Lia List String Arith Bool Sorting.Permutation Sorting.Sorted.
From Verif Require Import Base BaseFacts Csys Sections Element Load FeModel Assembly Solver Post Api SpecApi SpecGeom CsysFacts SpecBeam BeamFacts
  MemberLoads CutFacts SpecAsm SpecElim SpecLoad SpecSolve SpecStatics SpecTheory.
Import ListNotations.
Local Open Scope R_scope.

(** ** Derivatives *)
Lemma same_value (f f' : R -> R) a b : a <= b -> (forall x, a <= x <= b -> derivable_pt_lim f x (f' x)) -> (forall x, a <= x <= b -> f' x = 0) -> f b = f a.
Proof.
  intros L D Z. destruct (Rle_lt_or_eq_dec a b L) as [LT|E]; [|rewrite E; reflexivity].
  destruct (MVT_cor2 f f' a b LT) as (c & E & Hc); [exact D|]. rewrite (Z c) in E by lra. lra.
Qed.
Lemma d_plus f g x a b : derivable_pt_lim f x a -> derivable_pt_lim g x b -> derivable_pt_lim (fun y => f y + g y) x (a + b).
Proof. exact (derivable_pt_lim_plus f g x a b). Qed.
Lemma d_minus f g x a b : derivable_pt_lim f x a -> derivable_pt_lim g x b -> derivable_pt_lim (fun y => f y - g y) x (a - b).
Proof. exact (derivable_pt_lim_minus f g x a b). Qed.
Lemma d_mult f g x a b : derivable_pt_lim f x a -> derivable_pt_lim g x b -> derivable_pt_lim (fun y => f y * g y) x (a * g x + f x * b).
Proof. exact (derivable_pt_lim_mult f g x a b). Qed.
Lemma d_scal k f x a : derivable_pt_lim f x a -> derivable_pt_lim (fun y => k * f y) x (k * a).
Proof. exact (derivable_pt_lim_scal f k x a). Qed.
Lemma d_opp f x a : derivable_pt_lim f x a -> derivable_pt_lim (fun y => - f y) x (- a).
Proof. exact (derivable_pt_lim_opp f x a). Qed.
Lemma d_peval p x : derivable_pt_lim (peval p) x (peval (pder p) x).
Proof.
  assert (D : derivable_pt_lim (fun y => c0 p + (c1 p * y + c2 p * y^2 + c3 p * y^3 + 0 * y^4 + 0 * y^5)) x (0 + (c1 p + 2 * c2 p * x + 3 * c3 p * x^2 + 4 * 0 * x^3 + 5 * 0 * x^4))).
  { apply (d_plus (fun _ => c0 p)); [apply (derivable_pt_lim_const (c0 p))|apply derivable_quintic]. }
  replace (peval (pder p) x) with (0 + (c1 p + 2 * c2 p * x + 3 * c3 p * x^2 + 4 * 0 * x^3 + 5 * 0 * x^4)) by (unfold peval, pder; cbn [c0 c1 c2 c3]; ring).
  eapply derivable_lim_ext; [|exact D]. intros y. unfold peval. ring.
Qed.
Lemma d_val f x a b : a = b -> derivable_pt_lim f x a -> derivable_pt_lim f x b.
Proof. intros ->. auto. Qed.

(** ** Virtual work along a bar *)
Section Work.
Variables (s : stiff) (q : line_load) (l : R) (g : field).
Hypothesis BG : beam_field g.
(** Work of the inner forces at x on the deflection g, less the work of the strains up to there. *)
Definition boundary (f : shape) (x : R) : R := dot3 (inner_force s f x) (disp_x g x) + dot3 (inner_moment s f x) (rot_x g x).
Definition strained (f : shape) (x : R) : R :=
  EA s * (su0 f x * peval (pder (f_u g)) x) + GJ s * (st0 f x * peval (pder (f_t g)) x)
  + EI3 s * (sv1 f x * peval (pder (pder (f_v g))) x - sv0 f x * peval (pder (pder (pder (f_v g)))) x)
  + EI2 s * (sw1 f x * peval (pder (pder (f_w g))) x - sw0 f x * peval (pder (pder (pder (f_w g)))) x).
Definition power (x : R) : R :=
  lp q x * peval (f_u g) x + lq2 q x * peval (f_v g) x + lq3 q x * peval (f_w g) x + lt q x * peval (f_t g) x.

Lemma pder4 p x : peval (pder (pder (pder (pder p)))) x = 0.
Proof. unfold peval, pder; cbn [c0 c1 c2 c3]; ring. Qed.
Lemma linear2 p x : linear_poly p -> peval (pder (pder p)) x = 0.
Proof. intros [A B]. unfold peval, pder; cbn [c0 c1 c2 c3]. rewrite A, B. ring. Qed.

Lemma work_rate f x : obeys s q f x -> derivable_pt_lim (fun y => boundary f y - strained f y) x (- power x).
Proof.
  intros ((U0 & U1) & (V0 & V1 & V2 & V3') & (W0 & W1 & W2 & W3) & (T0 & T1)). destruct BG as [LU LT].
  pose proof (d_mult _ _ x _ _ U1 (d_peval (f_u g) x)) as A1.
  pose proof (d_mult _ _ x _ _ V3' (d_peval (f_v g) x)) as A2. pose proof (d_mult _ _ x _ _ W3 (d_peval (f_w g) x)) as A3.
  pose proof (d_mult _ _ x _ _ T1 (d_peval (f_t g) x)) as A4.
  pose proof (d_mult _ _ x _ _ (d_scal (EI3 s) _ x _ V2) (d_peval (pder (f_v g)) x)) as A5.
  pose proof (d_mult _ _ x _ _ (d_scal (EI2 s) _ x _ W2) (d_peval (pder (f_w g)) x)) as A6.
  pose proof (d_scal (EA s) _ x _ (d_mult _ _ x _ _ U0 (d_peval (pder (f_u g)) x))) as B1.
  pose proof (d_scal (GJ s) _ x _ (d_mult _ _ x _ _ T0 (d_peval (pder (f_t g)) x))) as B4.
  pose proof (d_scal (EI3 s) _ x _ (d_minus _ _ x _ _ (d_mult _ _ x _ _ V1 (d_peval (pder (pder (f_v g))) x)) (d_mult _ _ x _ _ V0 (d_peval (pder (pder (pder (f_v g)))) x)))) as B2.
  pose proof (d_scal (EI2 s) _ x _ (d_minus _ _ x _ _ (d_mult _ _ x _ _ W1 (d_peval (pder (pder (f_w g))) x)) (d_mult _ _ x _ _ W0 (d_peval (pder (pder (pder (f_w g)))) x)))) as B3.
  pose proof (d_plus _ _ x _ _ (d_minus _ _ x _ _ (d_minus _ _ x _ _ A1 A2) A3) A4) as C1.
  pose proof (d_plus _ _ x _ _ (d_plus _ _ x _ _ C1 A5) A6) as C2.
  pose proof (d_plus _ _ x _ _ (d_plus _ _ x _ _ (d_plus _ _ x _ _ B1 B4) B2) B3) as C3.
  pose proof (d_minus _ _ x _ _ C2 C3) as D. clear A1 A2 A3 A4 A5 A6 B1 B2 B3 B4 C1 C2 C3.
  eapply derivable_lim_ext; [|eapply d_val; [|exact D]].
  - intros y. unfold boundary, strained, dot3, inner_force, inner_moment, disp_x, rot_x; cbn [vx vy vz]. ring.
  - cbv beta. rewrite !pder4, !(linear2 _ x LU), !(linear2 _ x LT). unfold power. ring.
Qed.

Variable W : R -> R.
Hypothesis DW : forall x, derivable_pt_lim W x (power x).
Lemma work_piece f a b : a <= b -> (forall x, a <= x <= b -> obeys s q f x) ->
  boundary f b - strained f b + W b = boundary f a - strained f a + W a.
Proof.
  intros L O. apply (same_value (fun y => boundary f y - strained f y + W y) (fun x => - power x + power x) a b L).
  - intros x Hx. apply d_plus; [apply work_rate, O, Hx|apply DW].
  - intros; ring.
Qed.
Definition points_work (Ps : list point_load) : R := lsum (map (fun P => point_work (pt_F P) (pt_M P) g (pt_x P)) Ps).
Lemma work_reaches Ps : forall a f h, reaches s q l a f Ps h ->
  boundary h l - strained h l + W l = boundary f a - strained f a + W a - points_work Ps.
Proof.
  induction Ps as [|P Ps IH]; intros a f h H; cbn [reaches] in H.
  - destruct H as (-> & L & O). rewrite (work_piece f a l L O). unfold points_work. cbn [map lsum]. ring.
  - destruct H as (L & O & f' & (JD & JR & JF & JM) & H). rewrite (IH _ _ _ H). rewrite <- (work_piece f a _ L O).
    unfold points_work. cbn [map lsum]. fold (points_work Ps). unfold point_work.
    assert (S : strained f' (pt_x P) = strained f (pt_x P)).
    { unfold section_d in JD. unfold section_r in JR. unfold strained.
      pose proof (f_equal vx JD) as E1. pose proof (f_equal vy JD) as E2. pose proof (f_equal vz JD) as E3.
      pose proof (f_equal vx JR) as E4. pose proof (f_equal vy JR) as E5. pose proof (f_equal vz JR) as E6. cbn [vx vy vz] in *.
      rewrite E1, E2, E3, E4, E6. replace (sw1 f' (pt_x P)) with (sw1 f (pt_x P)) by lra. reflexivity. }
    rewrite S. unfold boundary. rewrite <- JF, <- JM. unfold dot3, vadd; cbn [vx vy vz]. ring.
Qed.
End Work.

(** Work of end actions on end displacements. *)
Definition ends_dot (e d : ends) : R := dot3 (d_i e) (d_i d) + dot3 (r_i e) (r_i d) + dot3 (d_j e) (d_j d) + dot3 (r_j e) (r_j d).

Lemma bar_work s l q pts d e W g : 0 < l -> beam_field g -> (forall x, derivable_pt_lim W x (power q g x)) ->
  bar_theory s l q pts d e ->
  ends_dot e (ends_of_field g l) = member_work s l d (ends_of_field g l) - (W l - W 0) - points_work g pts.
Proof.
  intros L BG DW (Ps & f & h & P & H & -> & ->). pose proof (work_reaches s q l g BG W DW Ps 0 f h H) as E.
  assert (PW : points_work g Ps = points_work g pts).
  { unfold points_work. apply lsum_perm. apply Permutation_map. exact P. }
  rewrite PW in E.
  assert (A : ends_dot (Ends (vscale (-1) (inner_force s f 0)) (vscale (-1) (inner_moment s f 0)) (inner_force s h l) (inner_moment s h l)) (ends_of_field g l)
    = boundary s g h l - boundary s g f 0).
  { unfold ends_dot, boundary, ends_of_field, vscale, dot3; cbn [d_i r_i d_j r_j vx vy vz]. ring. }
  rewrite A.
  assert (B : strained s g h l - strained s g f 0 = member_work s l (Ends (section_d f 0) (section_r f 0) (section_d h l) (section_r h l)) (ends_of_field g l)).
  { destruct g as [[u0 u1 u2 u3] [v0 v1 v2 v3] [w0 w1 w2 w3] [t0 t1 t2 t3]]. destruct BG as [[U2 U3] [T2 T3]]. cbn in U2, U3, T2, T3. subst u2 u3 t2 t3.
    unfold strained, member_work, ends_of_field, section_d, section_r, disp_x, rot_x, peval, pder, bend; cbn [d_i r_i d_j r_j vx vy vz f_u f_v f_w f_t c0 c1 c2 c3]. field. lra. }
  lra.
Qed.

(** ** A loaded bar has a state for any displacements of its ends *)
Definition no_line : line_load := LineLoad (fun _ => 0) (fun _ => 0) (fun _ => 0) (fun _ => 0).
Definition shape_add (f h : shape) : shape :=
  Shape (fun x => su0 f x + su0 h x) (fun x => su1 f x + su1 h x)
    (fun x => sv0 f x + sv0 h x) (fun x => sv1 f x + sv1 h x) (fun x => sv2 f x + sv2 h x) (fun x => sv3 f x + sv3 h x)
    (fun x => sw0 f x + sw0 h x) (fun x => sw1 f x + sw1 h x) (fun x => sw2 f x + sw2 h x) (fun x => sw3 f x + sw3 h x)
    (fun x => st0 f x + st0 h x) (fun x => st1 f x + st1 h x).
Lemma d_plus_scal k f g x a b c : derivable_pt_lim (fun y => k * f y) x a -> derivable_pt_lim (fun y => k * g y) x b -> a + b = c ->
  derivable_pt_lim (fun y => k * (f y + g y)) x c.
Proof.
  intros A B <-. eapply derivable_lim_ext; [|exact (d_plus _ _ x _ _ A B)]. intros y. cbv beta. ring.
Qed.
Lemma obeys_add s q f h x : obeys s q f x -> obeys s no_line h x -> obeys s q (shape_add f h) x.
Proof.
  intros ((U0 & U1) & (V0 & V1 & V2 & V3') & (W0 & W1 & W2 & W3) & (T0 & T1)) ((U0' & U1') & (V0' & V1' & V2' & V3'') & (W0' & W1' & W2' & W3') & (T0' & T1')).
  cbn [lp lq2 lq3 lt no_line] in *.
  unfold obeys, shape_add; cbn [su0 su1 sv0 sv1 sv2 sv3 sw0 sw1 sw2 sw3 st0 st1].
  repeat split; try (apply d_plus; assumption); (eapply d_plus_scal; [eassumption|eassumption|ring]).
Qed.
Lemma jumps_add s P f g h : jumps s P f g -> jumps s P (shape_add f h) (shape_add g h).
Proof.
  intros (D & Rr & F & M). unfold jumps in *.
  unfold section_d, section_r, inner_force, inner_moment, vadd in *; cbn [su0 su1 sv0 sv1 sv2 sv3 sw0 sw1 sw2 sw3 st0 st1 shape_add vx vy vz] in *.
  injection D as D1 D2 D3. injection Rr as R1 R2 R3. injection F as F1 F2 F3. injection M as M1 M2 M3.
  repeat split; f_equal; lra.
Qed.
Lemma reaches_add s q l h Ps : (forall x, obeys s no_line h x) -> forall a f g,
  reaches s q l a f Ps g -> reaches s q l a (shape_add f h) Ps (shape_add g h).
Proof.
  intros O. induction Ps as [|P Ps IH]; intros a f g H; cbn [reaches] in *.
  - destruct H as (-> & L & B). split; [reflexivity|]. split; [exact L|]. intros x Hx. apply obeys_add; [apply B, Hx|apply O].
  - destruct H as (L & B & f' & J & H). split; [exact L|]. split; [intros x Hx; apply obeys_add; [apply B, Hx|apply O]|].
    exists (shape_add f' h). split; [apply jumps_add, J|apply IH, H].
Qed.


(** Cubic deflections carry no line load. *)
Definition of_field (g : field) : shape :=
  Shape (peval (f_u g)) (peval (pder (f_u g)))
    (peval (f_v g)) (peval (pder (f_v g))) (peval (pder (pder (f_v g)))) (peval (pder (pder (pder (f_v g)))))
    (peval (f_w g)) (peval (pder (f_w g))) (peval (pder (pder (f_w g)))) (peval (pder (pder (pder (f_w g)))))
    (peval (f_t g)) (peval (pder (f_t g))).
Lemma of_field_obeys s g : beam_field g -> forall x, obeys s no_line (of_field g) x.
Proof.
  intros [LU LT] x. unfold obeys, of_field; cbn [su0 su1 sv0 sv1 sv2 sv3 sw0 sw1 sw2 sw3 st0 st1 no_line lp lq2 lq3 lt].
  repeat split; try apply d_peval; (eapply d_val; [|apply d_scal, d_peval]); rewrite ?pder4, ?(linear2 _ x LU), ?(linear2 _ x LT); ring.
Qed.
Lemma of_field_sections g x : section_d (of_field g) x = disp_x g x /\ section_r (of_field g) x = rot_x g x.
Proof. split; reflexivity. Qed.

(** The kink that a concentrated load puts into the deflections. *)
Definition kink_poly (a x1 x2 x3 : R) : poly := (* x1 (x-a) + x2 (x-a)^2 + x3 (x-a)^3 *)
  Poly (- x1 * a + x2 * a^2 - x3 * a^3) (x1 - 2 * x2 * a + 3 * x3 * a^2) (x2 - 3 * x3 * a) x3.
Definition kink (s : stiff) (P : point_load) : field :=
  let a := pt_x P in let F := pt_F P in let M := pt_M P in
  Field (Poly (vx F * a / EA s) (- (vx F / EA s)) 0 0)
    (kink_poly a 0 (- (vz M / (2 * EI3 s))) (vy F / (6 * EI3 s)))
    (kink_poly a 0 (vy M / (2 * EI2 s)) (vz F / (6 * EI2 s)))
    (Poly (vx M * a / GJ s) (- (vx M / GJ s)) 0 0).
Lemma kink_beam s P : beam_field (kink s P).
Proof. repeat split. Qed.
Lemma kink_jumps s P f : stiff_pos s -> jumps s P f (shape_add f (of_field (kink s P))).
Proof.
  intros (A & B & C & D). destruct P as [a [F1 F2 F3] [M1 M2 M3]]. unfold jumps.
  unfold section_d, section_r, inner_force, inner_moment, vadd;
    cbn [su0 su1 sv0 sv1 sv2 sv3 sw0 sw1 sw2 sw3 st0 st1 shape_add of_field vx vy vz pt_x pt_F pt_M kink kink_poly f_u f_v f_w f_t].
  unfold kink_poly, peval, pder; cbn [c0 c1 c2 c3].
  repeat split; f_equal; field; lra.
Qed.
Fixpoint sorted_from (a l : R) (Ps : list point_load) : Prop :=
  match Ps with [] => a <= l | P :: Ps => a <= pt_x P /\ sorted_from (pt_x P) l Ps end.
Lemma reaches_exists s q l Ps : stiff_pos s -> forall a f, sorted_from a l Ps -> (forall x, obeys s q f x) ->
  exists g, reaches s q l a f Ps g.
Proof.
  intros POS. induction Ps as [|P Ps IH]; intros a f S O; cbn [reaches sorted_from] in *.
  - exists f. auto.
  - destruct S as [L S]. destruct (IH (pt_x P) (shape_add f (of_field (kink s P))) S) as (g & H).
    { intros x. apply obeys_add; [apply O|apply of_field_obeys, kink_beam]. }
    exists g. split; [exact L|]. split; [auto|]. exists (shape_add f (of_field (kink s P))). split; [apply kink_jumps, POS|exact H].
Qed.
(** Sorting concentrated loads along the bar. *)
Fixpoint insert_point (P : point_load) (Ps : list point_load) : list point_load :=
  match Ps with [] => [P] | Q :: Qs => if Rle_dec (pt_x P) (pt_x Q) then P :: Q :: Qs else Q :: insert_point P Qs end.
Definition sort_points (Ps : list point_load) : list point_load := fold_right insert_point [] Ps.
Lemma insert_perm P Ps : Permutation (insert_point P Ps) (P :: Ps).
Proof.
  induction Ps as [|Q Qs IH]; cbn [insert_point]; [reflexivity|]. destruct (Rle_dec _ _); [reflexivity|].
  rewrite IH. apply perm_swap.
Qed.
Lemma sort_perm Ps : Permutation (sort_points Ps) Ps.
Proof. induction Ps as [|P Ps IH]; cbn [sort_points fold_right]; [reflexivity|]. fold (sort_points Ps). rewrite insert_perm, IH. reflexivity. Qed.
Lemma insert_sorted P Ps l : forall a, sorted_from a l Ps -> a <= pt_x P <= l -> sorted_from a l (insert_point P Ps).
Proof.
  induction Ps as [|Q Qs IH]; intros a S [A B]; cbn [insert_point sorted_from] in *; [auto|].
  destruct S as [L S]. destruct (Rle_dec _ _) as [LE|GT]; cbn [sorted_from]; [auto|]. split; [exact L|]. apply IH; [exact S|]. lra.
Qed.
Lemma sort_sorted Ps l : 0 <= l -> (forall P, In P Ps -> 0 <= pt_x P <= l) -> sorted_from 0 l (sort_points Ps).
Proof.
  intros L. induction Ps as [|P Ps IH]; intros H; cbn [sort_points fold_right]; [exact L|]. fold (sort_points Ps).
  apply insert_sorted; [apply IH; intros; apply H; right; assumption|apply H; left; reflexivity].
Qed.
(** A state under ramps. *)
Definition quint (a b c d e x : R) : R := a * x + b * x^2 + c * x^3 + d * x^4 + e * x^5.
Definition bent (k a b l : R) (i : nat) (x : R) : R :=
  let m := (b - a) / l in
  match i with
  | 0 => quint 0 0 0 (a / (24 * k)) (m / (120 * k)) x
  | 1 => quint 0 0 (a / (6 * k)) (m / (24 * k)) 0 x
  | 2 => quint 0 (a / (2 * k)) (m / (6 * k)) 0 0 x
  | _ => quint (a / k) (m / (2 * k)) 0 0 0 x
  end%nat.
Definition pulled (k a b l : R) (i : nat) (x : R) : R :=
  let m := (b - a) / l in
  match i with
  | 0 => quint 0 (- (a / (2 * k))) (- (m / (6 * k))) 0 0 x
  | _ => quint (- (a / k)) (- (m / (2 * k))) 0 0 0 x
  end%nat.
Definition under_ramps (s : stiff) (l pi pj qi2 qj2 qi3 qj3 ti tj : R) : shape :=
  Shape (pulled (EA s) pi pj l 0) (pulled (EA s) pi pj l 1)
    (bent (EI3 s) qi2 qj2 l 0) (bent (EI3 s) qi2 qj2 l 1) (bent (EI3 s) qi2 qj2 l 2) (bent (EI3 s) qi2 qj2 l 3)
    (bent (EI2 s) qi3 qj3 l 0) (bent (EI2 s) qi3 qj3 l 1) (bent (EI2 s) qi3 qj3 l 2) (bent (EI2 s) qi3 qj3 l 3)
    (pulled (GJ s) ti tj l 0) (pulled (GJ s) ti tj l 1).
Lemma d_quint a b c d e x v : a + 2 * b * x + 3 * c * x^2 + 4 * d * x^3 + 5 * e * x^4 = v -> derivable_pt_lim (quint a b c d e) x v.
Proof. intros <-. apply derivable_quintic. Qed.
Lemma bent_derives k a b l x : 0 < k -> l <> 0 ->
  derivable_pt_lim (bent k a b l 0) x (bent k a b l 1 x) /\ derivable_pt_lim (bent k a b l 1) x (bent k a b l 2 x)
  /\ derivable_pt_lim (bent k a b l 2) x (bent k a b l 3 x) /\ derivable_pt_lim (fun y => k * bent k a b l 3 y) x (ramp a b l x).
Proof.
  intros K L. repeat split.
  1-3: apply d_quint; unfold bent, quint; field; lra.
  eapply d_val; [|apply d_scal; apply d_quint; reflexivity]. unfold ramp. field. lra.
Qed.
Lemma pulled_derives k a b l x : 0 < k -> l <> 0 ->
  derivable_pt_lim (pulled k a b l 0) x (pulled k a b l 1 x) /\ derivable_pt_lim (fun y => k * pulled k a b l 1 y) x (- ramp a b l x).
Proof.
  intros K L. split.
  - apply d_quint; unfold pulled, quint; field; lra.
  - eapply d_val; [|apply d_scal; apply d_quint; reflexivity]. unfold ramp. field. lra.
Qed.
Lemma under_ramps_obeys s l pi pj qi2 qj2 qi3 qj3 ti tj x : stiff_pos s -> l <> 0 ->
  obeys s (LineLoad (ramp pi pj l) (ramp qi2 qj2 l) (ramp qi3 qj3 l) (ramp ti tj l)) (under_ramps s l pi pj qi2 qj2 qi3 qj3 ti tj) x.
Proof.
  intros (A & B & C & D) L. unfold obeys, under_ramps; cbn [su0 su1 sv0 sv1 sv2 sv3 sw0 sw1 sw2 sw3 st0 st1 lp lq2 lq3 lt].
  split; [apply pulled_derives; assumption|]. split; [apply bent_derives; assumption|]. split; [apply bent_derives; assumption|apply pulled_derives; assumption].
Qed.
Definition ends_sub (d e : ends) : ends := Ends (vsub (d_i d) (d_i e)) (vsub (r_i d) (r_i e)) (vsub (d_j d) (d_j e)) (vsub (r_j d) (r_j e)).
Lemma bar_exists s l pi pj qi2 qj2 qi3 qj3 ti tj pts d : stiff_pos s -> 0 < l -> (forall P, In P pts -> 0 <= pt_x P <= l) ->
  exists e, bar_theory s l (LineLoad (ramp pi pj l) (ramp qi2 qj2 l) (ramp qi3 qj3 l) (ramp ti tj l)) pts d e.
Proof.
  intros POS L IN. set (f := under_ramps s l pi pj qi2 qj2 qi3 qj3 ti tj).
  set (q := LineLoad (ramp pi pj l) (ramp qi2 qj2 l) (ramp qi3 qj3 l) (ramp ti tj l)).
  assert (O : forall x, obeys s q f x) by (intros x; apply under_ramps_obeys; [exact POS|lra]).
  destruct (reaches_exists s q l (sort_points pts) POS 0 f (sort_sorted pts l (Rlt_le _ _ L) IN) O) as (g & H).
  set (d0 := Ends (section_d f 0) (section_r f 0) (section_d g l) (section_r g l)).
  set (h := of_field (through l (ends_sub d d0))).
  assert (OH : forall x, obeys s no_line h x) by (apply of_field_obeys, through_beam).
  eexists. exists (sort_points pts), (shape_add f h), (shape_add g h).
  split; [apply sort_perm|]. split; [apply reaches_add; [exact OH|exact H]|]. split; [|reflexivity].
  pose proof (through_ends l (ends_sub d d0)) as E. specialize (E ltac:(lra)).
  assert (ADD : forall a y, section_d (shape_add a h) y = vadd (section_d a y) (section_d h y) /\ section_r (shape_add a h) y = vadd (section_r a y) (section_r h y)).
  { intros a y. unfold section_d, section_r, shape_add, vadd; cbn [su0 su1 sv0 sv1 sv2 sv3 sw0 sw1 sw2 sw3 st0 st1 vx vy vz]. split; f_equal; ring. }
  assert (UNDO : forall a b, vadd b (vsub a b) = a) by (intros [a1 a2 a3] [b1 b2 b3]; unfold vadd, vsub; cbn [vx vy vz]; f_equal; ring).
  rewrite !(proj1 (ADD _ _)), !(proj2 (ADD _ _)). unfold h. rewrite !(proj1 (of_field_sections _ _)), !(proj2 (of_field_sections _ _)).
  unfold ends_of_field in E. pose proof (f_equal d_i E) as E1. pose proof (f_equal r_i E) as E2. pose proof (f_equal d_j E) as E3. pose proof (f_equal r_j E) as E4.
  cbn [d_i r_i d_j r_j ends_sub d0] in E1, E2, E3, E4. rewrite E1, E2, E3, E4, !UNDO. destruct d; reflexivity.
Qed.
