(** A member cut in two: energy, loads and axes of the parts (for C115). *)
From Coq Require Import Reals Lra Lia List String Arith Bool ZArith.
From Verif Require Import Base BaseFacts Csys Sections Element Load SpecGeom CsysFacts SpecBeam BeamFacts MemberLoads FeModel Assembly Solver Post Api SpecAsm
  SpecSame SpecCut.
Import ListNotations.
Local Open Scope R_scope.

(** ** The field through given end values *)
Definition cubic (l v1 t1 v2 t2 : R) : poly :=
  Poly v1 t1 (3 * (v2 - v1) / l ^ 2 - (2 * t1 + t2) / l) (2 * (v1 - v2) / l ^ 3 + (t1 + t2) / l ^ 2).
Definition through (l : R) (d : ends) : field :=
  Field (Poly (vx (d_i d)) ((vx (d_j d) - vx (d_i d)) / l) 0 0)
        (cubic l (vy (d_i d)) (vz (r_i d)) (vy (d_j d)) (vz (r_j d)))
        (cubic l (vz (d_i d)) (- vy (r_i d)) (vz (d_j d)) (- vy (r_j d)))
        (Poly (vx (r_i d)) ((vx (r_j d) - vx (r_i d)) / l) 0 0).
Lemma through_beam l d : beam_field (through l d).
Proof. repeat split. Qed.
Lemma through_ends l d : l <> 0 -> ends_of_field (through l d) l = d.
Proof.
  intros L. destruct d as [[a b c] [e f g] [a' b' c'] [e' f' g']]. unfold ends_of_field, through, disp_x, rot_x, peval, pder, cubic.
  cbn [f_u f_v f_w f_t c0 c1 c2 c3 d_i r_i d_j r_j vx vy vz]. f_equal; f_equal; try (field; exact L); try ring.
Qed.
Lemma cubic_unique l p : l <> 0 -> p = cubic l (peval p 0) (peval (pder p) 0) (peval p l) (peval (pder p) l).
Proof. intros L. destruct p as [a b c d]. unfold cubic, peval, pder. cbn [c0 c1 c2 c3]. f_equal; field; exact L. Qed.
Lemma linear_unique l p : l <> 0 -> linear_poly p -> p = Poly (peval p 0) ((peval p l - peval p 0) / l) 0 0.
Proof. intros L [A B]. destruct p as [a b c d]. cbn in A, B. subst c d. unfold peval. cbn [c0 c1 c2 c3]. f_equal; field; exact L. Qed.
Lemma through_unique l f : l <> 0 -> beam_field f -> f = through l (ends_of_field f l).
Proof.
  intros L [U T]. destruct f as [u v w t]. cbn [f_u f_v f_w f_t] in *. unfold through, ends_of_field, disp_x, rot_x. cbn [d_i r_i d_j r_j vx vy vz f_u f_v f_w f_t].
  rewrite !Ropp_involutive. f_equal; auto using linear_unique, cubic_unique.
Qed.

(** ** Energy *)
Lemma bend_cut EI l r p e1 s1 em sm e2 s2 : l <> 0 -> r <> 0 -> 1 - r <> 0 ->
  bend EI (r * l) (peval p 0) (peval (pder p) 0) (peval p (r * l)) (peval (pder p) (r * l)) e1 s1 em sm
  + bend EI ((1 - r) * l) (peval p (r * l)) (peval (pder p) (r * l)) (peval p l) (peval (pder p) l) em sm e2 s2
  = bend EI l (peval p 0) (peval (pder p) 0) (peval p l) (peval (pder p) l) e1 s1 e2 s2.
Proof. intros L A B. destruct p as [a b c d]. unfold bend, peval, pder. cbn [c0 c1 c2 c3]. field. auto. Qed.
Lemma pull_cut E l r p e1 em e2 : l <> 0 -> r <> 0 -> 1 - r <> 0 -> linear_poly p ->
  E / (r * l) * (peval p 0 - peval p (r * l)) * (e1 - em) + E / ((1 - r) * l) * (peval p (r * l) - peval p l) * (em - e2)
  = E / l * (peval p 0 - peval p l) * (e1 - e2).
Proof. intros L A B [H1 H2]. destruct p as [a b c d]. cbn in H1, H2. subst c d. unfold peval. cbn [c0 c1 c2 c3]. field. auto. Qed.

(** The parts of a member whose nodes follow the field of the whole do on any values at their nodes
    the work that the whole does, whatever the value at the cut. *)
Lemma work_cut s l r f e em sm : l <> 0 -> r <> 0 -> 1 - r <> 0 -> beam_field f ->
  member_work s (r * l) (Ends (disp_x f 0) (rot_x f 0) (disp_x f (r * l)) (rot_x f (r * l))) (Ends (d_i e) (r_i e) em sm)
  + member_work s ((1 - r) * l) (Ends (disp_x f (r * l)) (rot_x f (r * l)) (disp_x f l) (rot_x f l)) (Ends em sm (d_j e) (r_j e))
  = member_work s l (ends_of_field f l) e.
Proof.
  intros L A B [U T]. unfold member_work, ends_of_field, disp_x, rot_x. cbn [d_i r_i d_j r_j vx vy vz]. rewrite !Ropp_involutive.
  rewrite <- (pull_cut (EA s) l r (f_u f) _ (vx em) _ L A B U), <- (pull_cut (GJ s) l r (f_t f) _ (vx sm) _ L A B T).
  rewrite <- (bend_cut (EI3 s) l r (f_v f) _ _ (vy em) (vz sm) _ _ L A B), <- (bend_cut (EI2 s) l r (f_w f) _ _ (vz em) (- vy sm) _ _ L A B). ring.
Qed.
Lemma bend_sym EI l a b c d a' b' c' d' : bend EI l a b c d a' b' c' d' = bend EI l a' b' c' d' a b c d.
Proof. unfold bend. ring. Qed.
Lemma work_sym s l d e : member_work s l d e = member_work s l e d.
Proof. unfold member_work. rewrite (bend_sym (EI3 s)), (bend_sym (EI2 s)). ring. Qed.
Lemma work_cut_r s l r f e em sm : l <> 0 -> r <> 0 -> 1 - r <> 0 -> beam_field f ->
  member_work s (r * l) (Ends (d_i e) (r_i e) em sm) (Ends (disp_x f 0) (rot_x f 0) (disp_x f (r * l)) (rot_x f (r * l)))
  + member_work s ((1 - r) * l) (Ends em sm (d_j e) (r_j e)) (Ends (disp_x f (r * l)) (rot_x f (r * l)) (disp_x f l) (rot_x f l))
  = member_work s l e (ends_of_field f l).
Proof. intros L A B F. rewrite !(work_sym s _ _ (Ends (disp_x f _) _ _ _)), (work_sym s l e). apply work_cut; assumption. Qed.

(** ** Loads *)
Definition shifted_poly (a : R) (p : poly) : poly :=
  Poly (peval p a) (peval (pder p) a) (c2 p + 3 * c3 p * a) (c3 p).
Definition shifted_field (a : R) (f : field) : field :=
  Field (shifted_poly a (f_u f)) (shifted_poly a (f_v f)) (shifted_poly a (f_w f)) (shifted_poly a (f_t f)).
Lemma shifted_eval a p x : peval (shifted_poly a p) x = peval p (a + x) /\ peval (pder (shifted_poly a p)) x = peval (pder p) (a + x).
Proof. destruct p as [c d e g]. unfold shifted_poly, peval, pder. cbn [c0 c1 c2 c3]. split; ring. Qed.
Lemma shifted_disp a f x : disp_x (shifted_field a f) x = disp_x f (a + x) /\ rot_x (shifted_field a f) x = rot_x f (a + x).
Proof. unfold disp_x, rot_x, shifted_field. cbn [f_u f_v f_w f_t]. rewrite !(fun p => proj1 (shifted_eval a p x)), !(fun p => proj2 (shifted_eval a p x)). auto. Qed.
Lemma shifted_beam a f : beam_field f -> beam_field (shifted_field a f).
Proof. intros [[U1 U2] [T1 T2]]. unfold beam_field, linear_poly, shifted_field, shifted_poly. cbn. rewrite U1, U2, T1, T2. repeat split; ring. Qed.
Lemma ramp_int_cut x y l r p : l <> 0 -> r <> 0 -> 1 - r <> 0 ->
  (ramp_int x (between r x y) (r * l) p (r * l) - ramp_int x (between r x y) (r * l) p 0)
  + (ramp_int (between r x y) y ((1 - r) * l) (shifted_poly (r * l) p) ((1 - r) * l) - ramp_int (between r x y) y ((1 - r) * l) (shifted_poly (r * l) p) 0)
  = ramp_int x y l p l - ramp_int x y l p 0.
Proof. intros L A B. destruct p as [a b c d]. unfold ramp_int, between, shifted_poly, peval, pder. cbn [c0 c1 c2 c3]. field. auto. Qed.

Definition cut_left (f : field) (a : R) : ends := Ends (disp_x f 0) (rot_x f 0) (disp_x f a) (rot_x f a).
Definition cut_right (f : field) (a l : R) : ends := Ends (disp_x f a) (rot_x f a) (disp_x f l) (rot_x f l).
Lemma cut_right_ends f a l : cut_right f a l = ends_of_field (shifted_field a f) (l - a).
Proof.
  unfold cut_right, ends_of_field. destruct (shifted_disp a f 0) as [-> ->]. destruct (shifted_disp a f (l - a)) as [-> ->].
  replace (a + 0) with a by ring. replace (a + (l - a)) with l by ring. reflexivity.
Qed.
Lemma dist_cut l r pi pj qi2 qj2 qi3 qj3 ti tj f : l <> 0 -> r <> 0 -> 1 - r <> 0 -> beam_field f ->
  work12 (vnth (dist_f [pi;qi2;qi3;ti;0;0;between r pi pj;between r qi2 qj2;between r qi3 qj3;between r ti tj;0;0] (r * l))) (cut_left f (r * l))
  + work12 (vnth (dist_f [between r pi pj;between r qi2 qj2;between r qi3 qj3;between r ti tj;0;0;pj;qj2;qj3;tj;0;0] ((1 - r) * l))) (cut_right f (r * l) l)
  = work12 (vnth (dist_f [pi;qi2;qi3;ti;0;0;pj;qj2;qj3;tj;0;0] l)) (ends_of_field f l).
Proof.
  intros L A B F. rewrite cut_right_ends. replace (l - r * l) with ((1 - r) * l) by ring.
  change (cut_left f (r * l)) with (ends_of_field f (r * l)).
  rewrite !dist_f_work by (auto using shifted_beam; apply Rmult_integral_contrapositive_currified; assumption).
  unfold dist_work, shifted_field. cbn [f_u f_v f_w f_t].
  pose proof (ramp_int_cut pi pj l r (f_u f) L A B). pose proof (ramp_int_cut qi2 qj2 l r (f_v f) L A B).
  pose proof (ramp_int_cut qi3 qj3 l r (f_w f) L A B). pose proof (ramp_int_cut ti tj l r (f_t f) L A B). lra.
Qed.
Lemma point_work_disp F M f g x y : disp_x f x = disp_x g y -> rot_x f x = rot_x g y -> point_work F M f x = point_work F M g y.
Proof. unfold point_work. intros -> ->. reflexivity. Qed.
Lemma conc_left l r F1 F2 F3 M1 M2 M3 x f : l <> 0 -> r <> 0 -> beam_field f ->
  work12 (vnth (conc_f [F1;F2;F3;M1;M2;M3;x / r] (r * l))) (cut_left f (r * l)) = work12 (vnth (conc_f [F1;F2;F3;M1;M2;M3;x] l)) (ends_of_field f l).
Proof.
  intros L A F. change (cut_left f (r * l)) with (ends_of_field f (r * l)).
  rewrite !conc_work by (auto; apply Rmult_integral_contrapositive_currified; assumption). f_equal. field. exact A.
Qed.
Lemma conc_right l r F1 F2 F3 M1 M2 M3 x f : l <> 0 -> 1 - r <> 0 -> beam_field f ->
  work12 (vnth (conc_f [F1;F2;F3;M1;M2;M3;(x - r) / (1 - r)] ((1 - r) * l))) (cut_right f (r * l) l) = work12 (vnth (conc_f [F1;F2;F3;M1;M2;M3;x] l)) (ends_of_field f l).
Proof.
  intros L B F. rewrite cut_right_ends. replace (l - r * l) with ((1 - r) * l) by ring.
  rewrite !conc_work by (auto using shifted_beam; apply Rmult_integral_contrapositive_currified; assumption).
  destruct (shifted_disp (r * l) f ((x - r) / (1 - r) * ((1 - r) * l))) as [D1 D2].
  replace (r * l + (x - r) / (1 - r) * ((1 - r) * l)) with (x * l) in D1, D2 by (field; exact B).
  apply point_work_disp; assumption.
Qed.

(** ** Axes *)
Lemma part_sub1 r p q : vsub (part_way r p q) p = vscale r (vsub q p).
Proof. apply vec3_eq; unfold part_way; cbn; ring. Qed.
Lemma part_sub2 r p q : vsub q (part_way r p q) = vscale (1 - r) (vsub q p).
Proof. apply vec3_eq; unfold part_way; cbn; ring. Qed.
Lemma dist_scale k v p q p' q' : 0 < k -> vsub q p = vscale k v -> vsub q' p' = v -> distance p q = k * distance p' q'.
Proof.
  intros K E E'. unfold distance.
  assert (H : (vx p - vx q) ^ 2 + (vy p - vy q) ^ 2 + (vz p - vz q) ^ 2 = k ^ 2 * ((vx p' - vx q') ^ 2 + (vy p' - vy q') ^ 2 + (vz p' - vz q') ^ 2)).
  { pose proof (f_equal vx E) as X. pose proof (f_equal vy E) as Y. pose proof (f_equal vz E) as Z. subst v. cbn in X, Y, Z.
    replace (vx p - vx q) with (- (k * (vx q' - vx p'))) by lra. replace (vy p - vy q) with (- (k * (vy q' - vy p'))) by lra.
    replace (vz p - vz q) with (- (k * (vz q' - vz p'))) by lra. ring. }
  rewrite H, sqrt_mult_alt by (apply pow2_ge_0). rewrite sqrt_pow2 by lra. reflexivity.
Qed.
Lemma unit_scale k v : 0 < k -> unit3 (vscale k v) = unit3 v.
Proof.
  intros K. unfold unit3. cbn [vscale vx vy vz]. set (n := vx v ^ 2 + vy v ^ 2 + vz v ^ 2).
  replace ((k * vx v) ^ 2 + (k * vy v) ^ 2 + (k * vz v) ^ 2) with (k ^ 2 * n) by (unfold n; ring).
  rewrite sqrt_mult_alt by apply pow2_ge_0. rewrite sqrt_pow2 by lra.
  destruct (Req_dec (sqrt n) 0) as [Z|Z].
  - assert (N : n = 0) by (apply sqrt_eq_0; [unfold n; nra|exact Z]). unfold n in N.
    assert (vx v = 0 /\ vy v = 0 /\ vz v = 0) as (A & B & C) by (repeat split; nra). apply vec3_eq; cbn; rewrite ?A, ?B, ?C; ring.
  - apply vec3_eq; cbn; field; split; lra.
Qed.
Lemma plan_scale k p q p' q' : 0 < k -> vsub q p = vscale k (vsub q' p') -> plan_offset p q = k * plan_offset p' q'.
Proof.
  intros K E. pose proof (f_equal vx E) as X. pose proof (f_equal vy E) as Y. cbn in X, Y. unfold plan_offset.
  replace (vx p - vx q) with (k * (vx p' - vx q')) by lra. replace (vy p - vy q) with (k * (vy p' - vy q')) by lra.
  rewrite !Rabs_mult, (Rabs_right k) by lra. apply RmaxRmult. lra.
Qed.
Lemma part_axes r p q : 0 < r < 1 -> leans_alike r p q -> let c := part_way r p q in
  (axis_x p c = axis_x p q /\ axis_y p c = axis_y p q /\ axis_z p c = axis_z p q)
  /\ (axis_x c q = axis_x p q /\ axis_y c q = axis_y p q /\ axis_z c q = axis_z p q)
  /\ distance p c = r * distance p q /\ distance c q = (1 - r) * distance p q.
Proof.
  intros [R0 R1] LA c. pose proof (part_sub1 r p q) as E1. pose proof (part_sub2 r p q) as E2. fold c in E1, E2.
  assert (R2 : 0 < 1 - r) by lra.
  pose proof (plan_scale r p c p q R0 E1) as P1. pose proof (plan_scale (1 - r) c q p q R2 E2) as P2.
  assert (X1 : axis_x p c = axis_x p q) by (unfold axis_x; rewrite E1; apply unit_scale, R0).
  assert (X2 : axis_x c q = axis_x p q) by (unfold axis_x; rewrite E2; apply unit_scale, R2).
  assert (P0 : 0 <= plan_offset p q) by (unfold plan_offset; apply (Rle_trans _ (Rabs (vx p - vx q))); [apply Rabs_pos|apply Rmax_l]).
  assert (UP : up_for p c = up_for p q /\ up_for c q = up_for p q).
  { unfold leans_alike, not_steep in LA. fold c in LA. unfold up_for.
    destruct (Rlt_dec (plan_offset p c) _), (Rlt_dec (plan_offset c q) _), (Rlt_dec (plan_offset p q) _); split; try reflexivity; exfalso; destruct LA as [[? ?]|?]; nra. }
  destruct UP as [U1 U2].
  assert (Z1 : axis_z p c = axis_z p q) by (unfold axis_z; rewrite X1, U1; reflexivity).
  assert (Z2 : axis_z c q = axis_z p q) by (unfold axis_z; rewrite X2, U2; reflexivity).
  unfold axis_y. rewrite X1, X2, Z1, Z2. repeat split.
  - apply (dist_scale r (vsub q p)); auto.
  - apply (dist_scale (1 - r) (vsub q p)); auto.
Qed.

(** ** From components along axes back to the vector *)
Definition compose (ex ey ez v : vec3) : vec3 := vadd (vscale (vx v) ex) (vadd (vscale (vy v) ey) (vscale (vz v) ez)).
Lemma along_compose ex ey ez v : orthonormal ex ey ez -> along ex ey ez (compose ex ey ez v) = v.
Proof.
  intros (A & B & C & D & E & F).
  assert (L : forall w, dot3 w (compose ex ey ez v) = vx v * dot3 w ex + vy v * dot3 w ey + vz v * dot3 w ez).
  { intros w. unfold compose, dot3. cbn. ring. }
  assert (S : forall u w, dot3 u w = dot3 w u) by (intros; unfold dot3; ring).
  unfold along. rewrite !L, (S ey ex), (S ex ez), (S ez ey). destruct v as [x y z]. cbn [vx vy vz].
  apply vec3_eq; cbn [vx vy vz]; rewrite ?A, ?B, ?C, ?D, ?E, ?F; ring.
Qed.
