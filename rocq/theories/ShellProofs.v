(** Element matrices of shells: placement of the parts, rigid motions of the triangle. *)
From Coq Require Import Reals Lra Lia List String Arith Bool.
From Verif Require Import Base BaseFacts Csys Sections Element SpecGeom SpecShell SpecAsm ShellFacts CsysFacts ShellGeom Demo.
Import ListNotations.
Local Open Scope string_scope.
Local Open Scope list_scope.
Local Open Scope R_scope.


Lemma mk_quad_some name sec ni nj nk nl s : mk_quad name sec ni nj nk nl = Some s ->
  sh_nodes s = [ni; nj; nk; nl] /\ sh_sec s = sec.
Proof. unfold mk_quad. destruct (quad_csys _ _ _ _); [|discriminate]. intros H. injection H as <-. split; reflexivity. Qed.
Lemma mk_tria_some name sec ni nj nk s : mk_tria name sec ni nj nk = Some s ->
  sh_nodes s = [ni; nj; nk] /\ sh_sec s = sec.
Proof. unfold mk_tria. destruct (tria_csys _ _ _); [|discriminate]. intros H. injection H as <-. split; reflexivity. Qed.

Lemma c47_quad ker name sec ni nj nk nl s : mk_quad name sec ni nj nk nl = Some s ->
  let E := m_E (ss_mat sec) in let mu := m_mu (ss_mat sec) in let t := ss_t sec in
  let x n := plane_x (cs_O (sh_csys s)) (cs_x (sh_csys s)) (n_loc n) in
  let y n := plane_x (cs_O (sh_csys s)) (cs_y (sh_csys s)) (n_loc n) in
  let xl := [x ni; y ni; x nj; y nj; x nk; y nk; x nl; y nl] in
  let K := shell_K ker s in
  forall i j a b, (i < 4)%nat -> (j < 4)%nat -> (a < 3)%nat -> (b < 3)%nat ->
  K (membrane3_dof i a) (membrane3_dof j b)
    = (if membrane_part sec then k_gq12 ker E mu t xl (3 * i + a)%nat (3 * j + b)%nat else 0)
  /\ K (plate_dof i a) (plate_dof j b)
    = (if plate_part sec then k_dkq ker E mu t xl (3 * i + a)%nat (3 * j + b)%nat else 0)
  /\ K (membrane3_dof i a) (plate_dof j b) = 0 /\ K (plate_dof i a) (membrane3_dof j b) = 0.
Proof.
  intros H. destruct (mk_quad_some _ _ _ _ _ _ _ H) as (EN & ES). intros E mu t x y xl K i j a b Hi Hj Ha Hb.
  unfold K, shell_K. rewrite EN. cbn [List.length Nat.eqb]. unfold quad_K. rewrite EN, ES. cbn [flat_map local_xy app].
  fold E mu t. change [_; _; _; _; _; _; _; _] with xl. fold (membrane_part sec) (plate_part sec).
  set (G := k_gq12 ker E mu t xl). set (P := k_dkq ker E mu t xl).
  set (Km := if membrane_part sec then G else zero_mat). set (Kp := if plate_part sec then P else zero_mat).
  assert (EM : forall r c, (if membrane_part sec then G r c else 0) = Km r c) by (intros; unfold Km; destruct (membrane_part sec); reflexivity).
  assert (EP : forall r c, (if plate_part sec then P r c else 0) = Kp r c) by (intros; unfold Kp; destruct (plate_part sec); reflexivity).
  rewrite EM, EP. clearbody Km Kp.
  unfold membrane3_dof, plate_dof.
  do 4 (destruct i as [|i]; [do 4 (destruct j as [|j]; [do 3 (destruct a as [|a]; [do 3 (destruct b as [|b]; [split; [reflexivity|split; [reflexivity|split; reflexivity]]|]); lia|]); lia|]); lia|]). lia.
Qed.

Lemma c47_tria ker name sec ni nj nk s : mk_tria name sec ni nj nk = Some s ->
  let E := m_E (ss_mat sec) in let mu := m_mu (ss_mat sec) in let t := ss_t sec in
  let x n := dot3 (n_loc n) (cs_x (sh_csys s)) in
  let y n := dot3 (n_loc n) (cs_y (sh_csys s)) in
  let xl := [x ni; y ni; x nj; y nj; x nk; y nk] in
  let K := shell_K ker s in
  forall i j a b a' b', (i < 3)%nat -> (j < 3)%nat -> (a < 3)%nat -> (b < 3)%nat -> (a' < 2)%nat -> (b' < 2)%nat ->
  K (membrane2_dof i a') (membrane2_dof j b') = 2 * t * sh_area s * t9_BDB E mu xl (2 * i + a')%nat (2 * j + b')%nat
  /\ K (plate_dof i a) (plate_dof j b) = 2 * sh_area s * k_dkt ker E mu t xl (3 * i + a)%nat (3 * j + b)%nat
  /\ K (membrane2_dof i a') (plate_dof j b) = 0 /\ K (plate_dof i a) (membrane2_dof j b') = 0
  /\ (forall q, (q < 18)%nat -> K (6 * i + 5)%nat q = 0 /\ K q (6 * i + 5)%nat = 0).
Proof.
  intros H. destruct (mk_tria_some _ _ _ _ _ _ H) as (EN & ES). intros E mu t x y xl K i j a b a' b' Hi Hj Ha Hb Ha' Hb'.
  unfold K, shell_K. rewrite EN. cbn [List.length Nat.eqb]. unfold tria_K. rewrite EN, ES. cbn [flat_map local_xy app].
  fold E mu t. change [_; _; _; _; _; _] with xl.
  set (Km := fun i j => 2 * t * sh_area s * _). set (Kp := fun i j => 2 * sh_area s * _).
  change (2 * t * sh_area s * t9_BDB E mu xl (2 * i + a')%nat (2 * j + b')%nat) with (Km (2 * i + a')%nat (2 * j + b')%nat).
  change (2 * sh_area s * k_dkt ker E mu t xl (3 * i + a)%nat (3 * j + b)%nat) with (Kp (3 * i + a)%nat (3 * j + b)%nat).
  clearbody Km Kp. unfold membrane2_dof, plate_dof.
  split; [|split; [|split; [|split]]].
  - do 3 (destruct i as [|i]; [do 3 (destruct j as [|j]; [do 2 (destruct a' as [|a']; [do 2 (destruct b' as [|b']; [reflexivity|]); lia|]); lia|]); lia|]). lia.
  - do 3 (destruct i as [|i]; [do 3 (destruct j as [|j]; [do 3 (destruct a as [|a]; [do 3 (destruct b as [|b]; [reflexivity|]); lia|]); lia|]); lia|]). lia.
  - do 3 (destruct i as [|i]; [do 3 (destruct j as [|j]; [do 2 (destruct a' as [|a']; [do 3 (destruct b as [|b]; [reflexivity|]); lia|]); lia|]); lia|]). lia.
  - do 3 (destruct i as [|i]; [do 3 (destruct j as [|j]; [do 3 (destruct a as [|a]; [do 2 (destruct b' as [|b']; [reflexivity|]); lia|]); lia|]); lia|]). lia.
  - apply below. cbn [seq]. do 3 (destruct i as [|i]; [repeat (constructor; [split; reflexivity|]); constructor|]). lia.
Qed.

Lemma delta_form n (A : mat) p q : (p < n)%nat -> (q < n)%nat ->
  rsum n (fun i => rsum n (fun j => unit_at p i * A i j * unit_at q j)) = A p q.
Proof.
  intros Hp Hq. rewrite (rsum_single n p); [|exact Hp|].
  - rewrite (rsum_single n q); [|exact Hq|].
    + unfold unit_at. rewrite !Nat.eqb_refl. ring.
    + intros j _ NE. unfold unit_at. apply Nat.eqb_neq in NE. rewrite NE. ring.
  - intros i _ NE. apply rsum_0. intros j _. unfold unit_at. apply Nat.eqb_neq in NE. rewrite NE. ring.
Qed.
Lemma c47_symmetric ker s : symmetric_kernels ker -> List.length (sh_nodes s) = 3%nat \/ List.length (sh_nodes s) = 4%nat ->
  symmetric_upto (6 * List.length (sh_nodes s)) (shell_K ker s).
Proof.
  intros S L p q Hp Hq. rewrite <- (delta_form _ (shell_K ker s) p q Hp Hq), <- (delta_form _ (shell_K ker s) q p Hq Hp).
  apply (shell_form_sym ker s (unit_at p) (unit_at q) S L).
Qed.
Lemma c47_psd ker s : psd_kernels ker -> shell_admissible s -> List.length (sh_nodes s) = 3%nat \/ List.length (sh_nodes s) = 4%nat ->
  psd_upto (6 * List.length (sh_nodes s)) (shell_K ker s).
Proof. intros P A L x. apply (shell_form_psd ker s x P A L). Qed.

Lemma classic_below n (P : nat -> Prop) : (forall k, {P k} + {~ P k}) -> (forall k, (k < n)%nat -> P k) \/ exists k, (k < n)%nat /\ ~ P k.
Proof.
  intros D. induction n as [|n [IH|(k & Hk & N)]]; [left; lia| |right; exists k; split; [lia|exact N]].
  destruct (D n) as [H|H]; [left|right; exists n; split; [lia|exact H]].
  intros k Hk. destruct (Nat.eq_dec k n) as [->|]; [exact H|apply IH; lia].
Qed.

(** ** The triangular membrane *)

Definition strain (xl : list R) (x : nat -> R) (a : nat) : R := mvec 6 (t9_B xl) (membrane_t x) a.
Definition tri_xl (s : shell) (ni nj nk : node) : list R :=
  let X := corner_x s ni nj nk in let Y := corner_y s ni nj nk in [X 0%nat; Y 0%nat; X 1%nat; Y 1%nat; X 2%nat; Y 2%nat].
Lemma tri_work ker name sec ni nj nk s x y : mk_tria name sec ni nj nk = Some s ->
  (forall r, plate_x y r = 0) ->
  rsum 18 (fun r => rsum 18 (fun c => x r * shell_K ker s r c * y c))
  = 2 * ss_t sec * sh_area s * rsum 3 (fun a => rsum 3 (fun b => strain (tri_xl s ni nj nk) x a * planeD (m_E (ss_mat sec)) (m_mu (ss_mat sec)) a b * strain (tri_xl s ni nj nk) y b)).
Proof.
  intros H P. destruct (mk_tria_some _ _ _ _ _ _ H) as (EN & ES).
  unfold shell_K. rewrite EN. cbn [List.length Nat.eqb]. unfold tria_K. rewrite EN, ES.
  change 18%nat with (6*3)%nat. rewrite place_tria_form, !form_scale.
  rewrite (rsum_0 (3*3)) by (intros r _; apply rsum_0; intros c _; rewrite P; ring).
  unfold t9_BDB. rewrite BDB_form. unfold strain. change (flat_map _ [ni; nj; nk]) with (tri_xl s ni nj nk). cbn [Nat.mul Nat.add]. ring.
Qed.
Lemma force_work ker s x r : (r < 18)%nat -> elem_force 18 (shell_K ker s) x r
  = rsum 18 (fun p => rsum 18 (fun c => unit_at r p * shell_K ker s p c * x c)).
Proof.
  intros Hr. rewrite (rsum_single 18 r); [|exact Hr|].
  - unfold elem_force. apply rsum_ext; intros c _. unfold unit_at. rewrite Nat.eqb_refl. ring.
  - intros i _ NE. apply rsum_0. intros j _. unfold unit_at. apply Nat.eqb_neq in NE. rewrite NE. ring.
Qed.
Lemma field_no_plate s ni nj nk u v r : plate_x (tri_field s ni nj nk u v) r = 0.
Proof.
  unfold plate_x, tri_field, plane_field. assert (L : (r mod 3 < 3)%nat) by (apply Nat.mod_upper_bound; lia).
  set (a := (r mod 3)%nat) in *. clearbody a. set (i := (r / 3)%nat). clearbody i.
  replace (6 * i + 2 + a)%nat with (6 * i + (2 + a))%nat by lia. rewrite mod6' by lia.
  destruct a as [|[|[|a]]]; [reflexivity..|lia].
Qed.

Definition b_sum (X Y : nat -> R) (w : R -> R -> R) : R :=
  (Y 1%nat - Y 2%nat) * w (X 0%nat) (Y 0%nat) + (Y 2%nat - Y 0%nat) * w (X 1%nat) (Y 1%nat) + (Y 0%nat - Y 1%nat) * w (X 2%nat) (Y 2%nat).
Lemma strain_field X Y u v : let xl := [X 0%nat; Y 0%nat; X 1%nat; Y 1%nat; X 2%nat; Y 2%nat] in
  let x := plane_field X Y u v in
  strain xl x 0%nat = 1/2/t9_area xl * b_sum X Y u
  /\ strain xl x 1%nat = 1/2/t9_area xl * b_sum X Y v
  /\ strain xl x 2%nat = 1/2/t9_area xl * (b_sum X Y u + b_sum X Y v).
Proof.
  intros xl x. unfold strain, mvec, membrane_t, x, plane_field, t9_B, b_sum.
  set (g := 1/2/t9_area xl). clearbody g. cbn [rsum]. cbn. split; [ring|split; ring].
Qed.
Lemma no_strain_no_force ker name sec ni nj nk s u v : mk_tria name sec ni nj nk = Some s ->
  b_sum (corner_x s ni nj nk) (corner_y s ni nj nk) u = 0 -> b_sum (corner_x s ni nj nk) (corner_y s ni nj nk) v = 0 ->
  forall r, (r < 18)%nat -> tri_force ker s ni nj nk u v r = 0.
Proof.
  intros H U V r Hr. unfold tri_force. rewrite force_work by exact Hr.
  rewrite (tri_work ker name sec ni nj nk s _ _ H) by (intros; apply field_no_plate).
  destruct (strain_field (corner_x s ni nj nk) (corner_y s ni nj nk) u v) as (S0 & S1 & S2).
  fold (tri_field s ni nj nk u v) in S0, S1, S2. change [_; _; _; _; _; _] with (tri_xl s ni nj nk) in S0, S1, S2.
  rewrite U in S0, S2. rewrite V in S1, S2.
  rewrite (rsum_0 3); [ring|]. intros a _. apply rsum_0. intros b Hb.
  destruct b as [|[|[|b]]]; [rewrite S0|rewrite S1|rewrite S2|lia]; ring.
Qed.
Lemma c48_translation_partial ker name sec ni nj nk s tx ty : mk_tria name sec ni nj nk = Some s ->
  forall r, (r < 18)%nat -> tri_force ker s ni nj nk (fun _ _ => tx) (fun _ _ => ty) r = 0.
Proof. intros H. apply (no_strain_no_force ker name sec _ _ _ _ _ _ H); unfold b_sum; ring. Qed.
Lemma c48_stretch ker name sec ni nj nk s k : mk_tria name sec ni nj nk = Some s ->
  forall r, (r < 18)%nat -> tri_force ker s ni nj nk (fun _ _ => 0) (fun _ y => k * y) r = 0.
Proof. intros H. apply (no_strain_no_force ker name sec _ _ _ _ _ _ H); unfold b_sum; ring. Qed.

Lemma frame_det ex ey ez p q : frame ex ey ez -> dot3 p ex * dot3 q ey - dot3 q ex * dot3 p ey = dot3 (cross p q) ez.
Proof. intros (_ & E & _). rewrite <- E. unfold dot3, cross; cbn [vx vy vz]; ring. Qed.
Lemma tri_local_area name sec ni nj nk s : mk_tria name sec ni nj nk = Some s -> triangle (n_loc ni) (n_loc nj) (n_loc nk) ->
  t9_area (tri_xl s ni nj nk) = triangle_area (n_loc ni) (n_loc nj) (n_loc nk).
Proof.
  intros H T. set (a := n_loc ni) in *. set (b := n_loc nj) in *. set (c := n_loc nk) in *.
  unfold mk_tria in H. fold a b c in H. destruct (tria_csys a b c) as [cs|] eqn:E; [|discriminate]. injection H as <-.
  destruct (c46_tria_partial a b c T) as (C1 & C2).
  destruct (Rle_lt_dec (1 / 1000000000) (length3 (vadd (vscale (/ length3 (normal3 a b c)) (normal3 a b c)) (V3 0 0 1)))) as [L|L];
    [|rewrite (C2 L) in E; discriminate].
  destruct (C1 L) as (cs' & E' & F & Z & _). assert (cs' = cs) by congruence. subst cs'.
  transitivity (1/2 * (dot3 (vsub b a) (cs_x cs) * dot3 (vsub c a) (cs_y cs) - dot3 (vsub c a) (cs_x cs) * dot3 (vsub b a) (cs_y cs))).
  - unfold t9_area, tri_xl, corner_x, corner_y. cbn [nth sh_csys vnth Nat.mul Nat.add]. unfold vnth. cbn [nth]. fold a b c.
    unfold dot3, vsub; cbn [vx vy vz]. field.
  - rewrite (frame_det _ _ _ _ _ F), Z. unfold triangle_area. f_equal. fold (normal3 a b c). set (n := normal3 a b c) in *.
    assert (P : 0 < length3 n) by (rewrite length3_norm; apply norm_pos; exact T).
    transitivity (/ length3 n * dot3 n n); [unfold dot3, vscale; cbn [vx vy vz]; ring|].
    assert (length3 n * length3 n = dot3 n n) as <-; [|field; lra].
    rewrite length3_norm. apply norm_sq.
Qed.
Lemma c48_rotation ker name sec ni nj nk s th : mk_tria name sec ni nj nk = Some s -> triangle (n_loc ni) (n_loc nj) (n_loc nk) ->
  let E := m_E (ss_mat sec) in let mu := m_mu (ss_mat sec) in
  let u := (fun _ y => - th * y) in let v := (fun x _ => th * x) in
  rsum 18 (fun r => tri_field s ni nj nk u v r * tri_force ker s ni nj nk u v r)
  = 2 * ss_t sec * sh_area s * (E / (1 - mu^2) * (1 + (1 - mu) / 2)) * th^2.
Proof.
  intros H T E mu u v.
  transitivity (rsum 18 (fun r => rsum 18 (fun c => tri_field s ni nj nk u v r * shell_K ker s r c * tri_field s ni nj nk u v c))).
  { apply rsum_ext; intros r _. unfold tri_force, elem_force. rewrite <- rsum_scal. apply rsum_ext; intros; ring. }
  rewrite (tri_work ker name sec ni nj nk s _ _ H) by (intros; apply field_no_plate).
  destruct (strain_field (corner_x s ni nj nk) (corner_y s ni nj nk) u v) as (S0 & S1 & S2).
  fold (tri_field s ni nj nk u v) in S0, S1, S2. change [_; _; _; _; _; _] with (tri_xl s ni nj nk) in S0, S1, S2.
  assert (A : t9_area (tri_xl s ni nj nk) <> 0).
  { rewrite (tri_local_area _ _ _ _ _ _ H T). unfold triangle_area.
    assert (P : 0 < length3 (normal3 (n_loc ni) (n_loc nj) (n_loc nk))) by (rewrite length3_norm; apply norm_pos; exact T). lra. }
  assert (BU : b_sum (corner_x s ni nj nk) (corner_y s ni nj nk) u = 0) by (unfold b_sum, u; ring).
  assert (BV : b_sum (corner_x s ni nj nk) (corner_y s ni nj nk) v = th * (2 * t9_area (tri_xl s ni nj nk))).
  { unfold b_sum, v, t9_area, tri_xl, vnth. cbn [Nat.mul Nat.add nth]. field. }
  rewrite BU in S0, S2. rewrite BV in S1, S2.
  assert (S0' : strain (tri_xl s ni nj nk) (tri_field s ni nj nk u v) 0%nat = 0) by (rewrite S0; ring).
  assert (S1' : strain (tri_xl s ni nj nk) (tri_field s ni nj nk u v) 1%nat = th) by (rewrite S1; field; exact A).
  assert (S2' : strain (tri_xl s ni nj nk) (tri_field s ni nj nk u v) 2%nat = th) by (rewrite S2; field; exact A).
  cbn [rsum planeD]. rewrite S0', S1', S2'. fold E mu. unfold Rdiv. ring.
Qed.
Lemma c48_rotation_force ker name sec ni nj nk s th : mk_tria name sec ni nj nk = Some s -> triangle (n_loc ni) (n_loc nj) (n_loc nk) ->
  ss_t sec <> 0 -> sh_area s <> 0 -> m_E (ss_mat sec) <> 0 -> -1 < m_mu (ss_mat sec) < 1 -> th <> 0 ->
  exists r, (r < 18)%nat /\ tri_force ker s ni nj nk (fun _ y => - th * y) (fun x _ => th * x) r <> 0.
Proof.
  intros H T Ht HA HE HM Hth. pose proof (c48_rotation ker name sec ni nj nk s th H T) as W. cbv zeta in W.
  set (f := tri_force ker s ni nj nk _ _) in *.
  destruct (classic_below 18 (fun r => f r = 0) (fun r => Req_EM_T (f r) 0)) as [Z|(r & Hr & N)]; [|exists r; auto].
  exfalso. rewrite (rsum_0 18) in W by (intros r Hr; rewrite (Z r Hr); ring). symmetry in W. revert W.
  set (mu := m_mu (ss_mat sec)) in *.
  assert (P : 0 < / (1 - mu^2)) by (apply Rinv_0_lt_compat; nra).
  repeat apply Rmult_integral_contrapositive_currified; try lra. 
  all: try (unfold Rdiv; apply Rmult_integral_contrapositive_currified; lra).
Qed.

(** ** Concrete elements *)
Lemma example_quad sec : exists s, mk_quad "q" sec (node_at "A" 0 0 0) (node_at "B" 1 0 0) (node_at "C" 1 1 0) (node_at "D" 0 1 0) = Some s.
Proof.
  assert (T : triangle (V3 0 0 0) (V3 1 0 0) (V3 1 1 0)).
  { unfold triangle, normal3, zero3, cross, vsub; cbn [vx vy vz]. intros H. injection H as _ _ H. lra. }
  destruct (c46_quad (V3 0 0 0) (V3 1 0 0) (V3 1 1 0) (V3 0 1 0) T) as (c & E & _).
  unfold mk_quad. cbn [n_loc node_at n_csys cs_O]. unfold node_at, n_loc. cbn [n_csys cs_O]. rewrite E. eexists; reflexivity.
Qed.
Lemma example_tria sec : exists s, mk_tria "t" sec (node_at "A" 0 0 0) (node_at "B" 1 0 0) (node_at "C" 0 1 0) = Some s /\ sh_area s = 1/2.
Proof.
  assert (T : triangle (V3 0 0 0) (V3 1 0 0) (V3 0 1 0)).
  { unfold triangle, normal3, zero3, cross, vsub; cbn [vx vy vz]. intros H. injection H as _ _ H. lra. }
  destruct (c46_tria_partial (V3 0 0 0) (V3 1 0 0) (V3 0 1 0) T) as (C & _).
  destruct C as (c & E & _).
  { assert (E : normal3 (V3 0 0 0) (V3 1 0 0) (V3 0 1 0) = V3 0 0 1) by (apply vec3_eq; unfold normal3, cross, vsub; cbn [vx vy vz]; ring).
    rewrite E. assert (L : length3 (V3 0 0 1) = 1).
    { unfold length3; cbn [vx vy vz]. replace (0^2 + 0^2 + 1^2) with (1 * 1) by ring. apply sqrt_square. lra. }
    rewrite L. unfold length3, vadd, vscale; cbn [vx vy vz].
    match goal with |- _ <= sqrt ?x => replace x with (2 * 2) by field end. rewrite sqrt_square; lra. }
  unfold mk_tria, node_at, n_loc. cbn [n_csys cs_O]. rewrite E. eexists. split; [reflexivity|]. cbn [sh_area].
  rewrite tria_area_sum. unfold sum3, normal3, cross, vsub; cbn [vx vy vz]. field.
Qed.
Definition unit_sec : ssection := SSec (Mat 7850 2 0 1) 3 "shell".
Lemma unit_triangle : triangle (V3 0 0 0) (V3 1 0 0) (V3 0 1 0).
Proof. unfold triangle, normal3, zero3, cross, vsub; cbn [vx vy vz]. intros H. injection H as _ _ H. lra. Qed.
(** refuted: a right triangle turned in its plane *)
Lemma c48_rotation_refuted ker : exists s ni nj nk th, mk_tria "t" unit_sec ni nj nk = Some s /\ triangle (n_loc ni) (n_loc nj) (n_loc nk)
  /\ exists r, (r < 18)%nat /\ tri_force ker s ni nj nk (fun _ y => - th * y) (fun x _ => th * x) r <> 0.
Proof.
  destruct (example_tria unit_sec) as (s & E & A). exists s, (node_at "A" 0 0 0), (node_at "B" 1 0 0), (node_at "C" 0 1 0), 1.
  split; [exact E|]. split; [exact unit_triangle|].
  apply (c48_rotation_force ker _ _ _ _ _ _ 1 E unit_triangle); cbn [unit_sec ss_t ss_mat m_E m_mu]; lra.
Qed.
(** kernels returning the identity *)
Definition delta : mat := fun i j => if Nat.eqb i j then 1 else 0.
Definition id_ker : kernels := Kernels (fun _ _ _ _ => delta) (fun _ _ _ _ => delta) (fun _ _ _ _ => delta).
Lemma id_ker_symmetric : symmetric_kernels id_ker.
Proof. constructor; intros; intros i j _ _; cbn [id_ker k_gq12 k_dkq k_dkt]; unfold delta; rewrite Nat.eqb_sym; reflexivity. Qed.
Lemma delta_psd n : psd_upto n delta.
Proof.
  intros x. apply rsum_nonneg; intros i Hi. rewrite (rsum_ext n _ (fun j => delta i j * (x i * x j))) by (intros; ring).
  rewrite (rsum_single n i) by (auto; intros j _ Hj; unfold delta; replace (i =? j)%nat with false by (symmetry; apply Nat.eqb_neq; auto); ring).
  unfold delta. rewrite Nat.eqb_refl. nra.
Qed.
Lemma id_ker_psd : psd_kernels id_ker.
Proof. constructor; intros; apply delta_psd. Qed.
