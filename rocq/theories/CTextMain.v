(** The compiled kernels and the elements made with them. *)
From Coq Require Import Reals List Arith ZArith String Bool Lra Lia.
From Verif Require Import Base BaseFacts Csys CsysFacts Sections Element Kernels CText CTextT9 CTextDKT CTextGQ12 CTextDKQ CTextShell
  CTextFacts CTextProofs CTextProofs2 CTextProofs3 CTextProofs4 SpecGeom SpecShell SpecAsm SpecKernel ShellFacts ShellGeom AsmProofs ShellProofs
  KernelProofs KernelProofs2 KernelProofs3 KernelProofs6.
Import ListNotations.
Local Open Scope R_scope.

Lemma t9_area_turn xl : t9_area xl = turn xl 0 1 2 / 2.
Proof. unfold t9_area, turn, at_x, at_y, vnth. cbn [Nat.mul Nat.add]. field. Qed.
Lemma dkt_area2_turn xl : dkt_area2 xl = turn xl 0 1 2.
Proof. unfold dkt_area2, turn, at_x, at_y, dkt_x, dkt_y, cx, cy, vnth. cbn [Nat.mul Nat.add]. ring. Qed.
Lemma no_unit mu : mu^2 <> 1 -> 1 - mu^2 <> 0.
Proof. intros H E. apply H. lra. Qed.

Local Ltac divisors := repeat (apply Forall_cons || apply Forall_nil).

Lemma c120_t9 E mu t xi eta xl : mu^2 <> 1 -> turn xl 0 1 2 <> 0 ->
  exists K, autofunc_c 6 ct9_code (call_with E mu t xi eta xl) = Some K
  /\ forall i j, (i < 6)%nat -> (j < 6)%nat -> K i j = t9_BDB E mu xl i j.
Proof.
  intros Hm HA. apply no_unit in Hm. assert (HA' : t9_area xl <> 0) by (rewrite t9_area_turn; lra).
  eexists. split.
  - apply autofunc_c_some. apply (divs_among_forall _ _ _ ct9_divs). divisors.
    + cbn [cval]. lra.
    + rewrite ct9_div. apply Rmult_integral_contrapositive_currified; [exact Hm|apply pow_nonzero; exact HA'].
  - exact (ct9_entries E mu t xi eta xl Hm HA').
Qed.
Lemma c120_dkt E mu t xi eta xl : mu^2 <> 1 -> turn xl 0 1 2 <> 0 ->
  exists K, autofunc_c 9 cdkt_code (call_with E mu t xi eta xl) = Some K
  /\ forall i j, (i < 9)%nat -> (j < 9)%nat -> K i j = dkt_BDB E mu t xi eta xl i j.
Proof.
  intros Hm HA. apply no_unit in Hm. rewrite <- dkt_area2_turn in HA.
  eexists. split.
  - apply autofunc_c_some. apply (divs_among_forall _ _ _ cdkt_divs).
    pose proof (dkt_l2_nonzero xl HA) as L. divisors; try (cbn [cval]; lra).
    + rewrite cdkt_den_8. apply L.
    + rewrite cdkt_den_15. apply L.
    + rewrite cdkt_den_35. exact HA.
    + rewrite cdkt_den_36. apply Rmult_integral_contrapositive_currified; [exact Hm|apply pow_nonzero; exact HA].
    + rewrite cdkt_den_40. apply Rmult_integral_contrapositive_currified; assumption.
    + rewrite cdkt_den_82. apply L.
  - exact (cdkt_entries E mu t xi eta xl Hm HA).
Qed.
Lemma gq_some E mu t xi eta xl : mu^2 <> 1 -> det2 (gq_J xl xi eta) <> 0 ->
  exists K, autofunc_c 12 cgq_code (call_with E mu t xi eta xl) = Some K
  /\ forall i j, (i < 12)%nat -> (j < 12)%nat -> K i j = gq12_BDB E mu t xi eta xl i j.
Proof.
  intros Hm HJ. apply no_unit in Hm. eexists. split.
  - apply autofunc_c_some. apply (divs_among_forall _ _ _ cgq_divs). divisors; try (cbn [cval]; lra).
    + rewrite cgq_den. exact HJ.
    + rewrite cgq_mu. exact Hm.
  - exact (cgq_entries E mu t xi eta xl Hm HJ).
Qed.
Lemma dkq_some E mu t xi eta xl : mu^2 <> 1 -> dkq_detJ xl xi eta <> 0 -> sides4_ok xl ->
  exists K, autofunc_c 12 cdkq_code (call_with E mu t xi eta xl) = Some K
  /\ forall i j, (i < 12)%nat -> (j < 12)%nat -> K i j = dkq_BDB E mu t xi eta xl i j.
Proof.
  intros Hm HJ HL. apply no_unit in Hm. eexists. split.
  - apply autofunc_c_some. apply (divs_among_forall _ _ _ cdkq_divs). divisors; try (cbn [cval]; lra).
    + rewrite cdkq_den. exact HJ.
    + rewrite cdkq_mu. exact Hm.
    + rewrite cdkq_side_0. apply HL; lia.
    + rewrite cdkq_side_1. apply HL; lia.
    + rewrite cdkq_side_2. apply HL; lia.
    + rewrite cdkq_side_3. apply HL; lia.
  - exact (cdkq_entries E mu t xi eta xl Hm HJ HL).
Qed.
Lemma c120_gq12 E mu t xi eta xl : mu^2 <> 1 -> convex4 xl -> -1 <= xi <= 1 -> -1 <= eta <= 1 ->
  exists K, autofunc_c 12 cgq_code (call_with E mu t xi eta xl) = Some K
  /\ forall i j, (i < 12)%nat -> (j < 12)%nat -> K i j = gq12_BDB E mu t xi eta xl i j.
Proof.
  intros Hm C X Y. destruct (c77_jacobian xl C xi eta X Y) as (J & _ & _).
  apply gq_some; [exact Hm|lra].
Qed.
Lemma c120_dkq E mu t xi eta xl : mu^2 <> 1 -> convex4 xl -> -1 <= xi <= 1 -> -1 <= eta <= 1 ->
  exists K, autofunc_c 12 cdkq_code (call_with E mu t xi eta xl) = Some K
  /\ forall i j, (i < 12)%nat -> (j < 12)%nat -> K i j = dkq_BDB E mu t xi eta xl i j.
Proof.
  intros Hm C X Y. destruct (c77_jacobian xl C xi eta X Y) as (_ & J & D).
  apply dkq_some; [exact Hm|lra|now apply convex_sides].
Qed.

(** Where the code divides by zero. *)
Lemma run_divisor n p env d : In d (flat_map cdivs p) -> cval env d = 0 -> autofunc_c n p env = None.
Proof.
  intros H Z. apply in_flat_map in H. destruct H as (e & He & Hd).
  unfold autofunc_c. destruct (autofunc env p) as [l|] eqn:F; [|reflexivity].
  exfalso. exact (autofunc_divs _ _ _ F e d He Hd Z).
Qed.
Definition divides_by (d : cexp) (p : list cexp) : bool := existsb (cexp_eqb d) (flat_map cdivs p).
Lemma divides_by_in d p : divides_by d p = true -> In d (flat_map cdivs p).
Proof. unfold divides_by. intros H. apply existsb_exists in H. destruct H as (e & H & Q). apply cexp_eqb_eq in Q. now subst. Qed.
Lemma ct9_divides : divides_by ct9_7 ct9_code = true.
Proof. vm_compute. reflexivity. Qed.
Lemma cdkt_divides : divides_by cdkt_36 cdkt_code = true.
Proof. vm_compute. reflexivity. Qed.
Lemma cgq_divides : divides_by cgq_23 cgq_code = true /\ divides_by cgq_20 cgq_code = true.
Proof. split; vm_compute; reflexivity. Qed.
Lemma cdkq_divides : divides_by cdkq_59 cdkq_code = true /\ divides_by cdkq_35 cdkq_code = true.
Proof. split; vm_compute; reflexivity. Qed.
Lemma c120_degenerate_triangle E mu t xi eta xl : mu^2 = 1 \/ turn xl 0 1 2 = 0 ->
  autofunc_c 6 ct9_code (call_with E mu t xi eta xl) = None
  /\ autofunc_c 9 cdkt_code (call_with E mu t xi eta xl) = None.
Proof.
  intros H. split.
  - apply (run_divisor _ _ _ ct9_7); [apply divides_by_in, ct9_divides|]. rewrite ct9_div, t9_area_turn.
    destruct H as [-> | ->]; lra.
  - apply (run_divisor _ _ _ cdkt_36); [apply divides_by_in, cdkt_divides|]. rewrite cdkt_den_36, dkt_area2_turn.
    destruct H as [-> | ->]; lra.
Qed.

(** Integration. *)
Lemma integrate_c_some q f g n : 
  Forall (fun p => exists K, f (fst (fst p)) (snd (fst p)) = Some K
            /\ forall i j, (i < n)%nat -> (j < n)%nat -> K i j = g (fst (fst p)) (snd (fst p)) i j) q ->
  exists K, integrate_c q f = Some K /\ forall i j, (i < n)%nat -> (j < n)%nat -> K i j = integrate q g i j.
Proof.
  intros H. induction H as [|p q (A & E1 & HA) Hq (B & E2 & HB)].
  - exists zero_mat. split; reflexivity.
  - cbn [integrate_c]. rewrite E1, E2. eexists. split; [reflexivity|]. intros i j Hi Hj. cbv beta.
    rewrite HA, HB by assumption. unfold integrate. cbn [map lsum fold_right]. reflexivity.
Qed.
Lemma place_quad_ext A B A' B' r c : (r < 24)%nat -> (c < 24)%nat ->
  (forall i j, (i < 12)%nat -> (j < 12)%nat -> A i j = A' i j) ->
  (forall i j, (i < 12)%nat -> (j < 12)%nat -> B i j = B' i j) -> place_quad A B r c = place_quad A' B' r c.
Proof.
  intros Hr Hc HA HB. rewrite !place_quad_closed by assumption. unfold closed_quad.
  assert (R1 : (r / 6 < 4)%nat) by (apply Nat.div_lt_upper_bound; lia).
  assert (C1 : (c / 6 < 4)%nat) by (apply Nat.div_lt_upper_bound; lia).
  pose proof (Nat.mod_upper_bound r 6 ltac:(lia)). pose proof (Nat.mod_upper_bound c 6 ltac:(lia)).
  destruct (Nat.leb_spec 2 (r mod 6)), (Nat.ltb_spec (r mod 6) 5), (Nat.leb_spec 2 (c mod 6)), (Nat.ltb_spec (c mod 6) 5),
    (Nat.ltb_spec (r mod 6) 2), (Nat.ltb_spec (c mod 6) 2), (Nat.eqb_spec (r mod 6) 5), (Nat.eqb_spec (c mod 6) 5);
    cbn [andb]; try reflexivity; (apply HA || apply HB); lia.
Qed.
Lemma place_tria_ext A B A' B' r c : (r < 18)%nat -> (c < 18)%nat ->
  (forall i j, (i < 6)%nat -> (j < 6)%nat -> A i j = A' i j) ->
  (forall i j, (i < 9)%nat -> (j < 9)%nat -> B i j = B' i j) -> place_tria A B r c = place_tria A' B' r c.
Proof.
  intros Hr Hc HA HB. rewrite !place_tria_closed by assumption. unfold closed_tria.
  assert (R1 : (r / 6 < 3)%nat) by (apply Nat.div_lt_upper_bound; lia).
  assert (C1 : (c / 6 < 3)%nat) by (apply Nat.div_lt_upper_bound; lia).
  pose proof (Nat.mod_upper_bound r 6 ltac:(lia)). pose proof (Nat.mod_upper_bound c 6 ltac:(lia)).
  destruct (Nat.leb_spec 2 (r mod 6)), (Nat.ltb_spec (r mod 6) 5), (Nat.leb_spec 2 (c mod 6)), (Nat.ltb_spec (c mod 6) 5),
    (Nat.ltb_spec (r mod 6) 2), (Nat.ltb_spec (c mod 6) 2);
    cbn [andb]; try reflexivity; (apply HA || apply HB); lia.
Qed.

Lemma c120_quad c2 t2 nm sec a b c d s : inside_square c2 -> m_mu (ss_mat sec) ^ 2 <> 1 ->
  mk_quad nm sec a b c d = Some s -> plane_quad (n_loc a) (n_loc b) (n_loc c) (n_loc d) ->
  exists K, shell_K_c c2 t2 s = Some K
  /\ forall i j, (i < 24)%nat -> (j < 24)%nat -> K i j = shell_K (code_kernels c2 t2) s i j.
Proof.
  intros Q Hm H P. destruct (c77_quad _ _ _ _ _ _ _ H P) as (C & _). pose proof (mk_quad_some _ _ _ _ _ _ _ H) as (N & S).
  unfold shell_K_c, shell_K. rewrite N. cbn [List.length Nat.eqb]. unfold quad_K_c, quad_K. rewrite !quad_K_axes, S.
  set (E := m_E (ss_mat sec)). set (mu := m_mu (ss_mat sec)) in *. set (t := ss_t sec). set (xl := in_axes s) in *.
  assert (M : exists K, (if (String.eqb (ss_type sec) "membrane" || String.eqb (ss_type sec) "shell")%bool
            then integrate_c c2 (fun xi eta => autofunc_c 12 cgq_code (call_with E mu t xi eta xl)) else Some zero_mat) = Some K
     /\ forall i j, (i < 12)%nat -> (j < 12)%nat -> K i j = (if (String.eqb (ss_type sec) "membrane" || String.eqb (ss_type sec) "shell")%bool
            then k_gq12 (code_kernels c2 t2) E mu t xl else zero_mat) i j).
  { destruct (_ || _)%bool; [|exists zero_mat; split; reflexivity]. cbn [k_gq12 code_kernels].
    apply (integrate_c_some c2 _ (fun xi eta => gq12_BDB E mu t xi eta xl)).
    unfold inside_square in Q. apply (Forall_impl _ (P := fun p => -1 <= fst (fst p) <= 1 /\ -1 <= snd (fst p) <= 1 /\ 0 <= snd p)); [|exact Q].
    intros p (X & Y & _). now apply c120_gq12. }
  assert (L : exists K, (if (String.eqb (ss_type sec) "plate" || String.eqb (ss_type sec) "shell")%bool
            then integrate_c c2 (fun xi eta => autofunc_c 12 cdkq_code (call_with E mu t xi eta xl)) else Some zero_mat) = Some K
     /\ forall i j, (i < 12)%nat -> (j < 12)%nat -> K i j = (if (String.eqb (ss_type sec) "plate" || String.eqb (ss_type sec) "shell")%bool
            then k_dkq (code_kernels c2 t2) E mu t xl else zero_mat) i j).
  { clear M. destruct (_ || _)%bool; [|exists zero_mat; split; reflexivity]. cbn [k_dkq code_kernels].
    apply (integrate_c_some c2 _ (fun xi eta => dkq_BDB E mu t xi eta xl)).
    unfold inside_square in Q. apply (Forall_impl _ (P := fun p => -1 <= fst (fst p) <= 1 /\ -1 <= snd (fst p) <= 1 /\ 0 <= snd p)); [|exact Q].
    intros p (X & Y & _). now apply c120_dkq. }
  destruct M as (A & EA & HA). destruct L as (B & EB & HB). rewrite EA, EB.
  eexists. split; [reflexivity|]. intros i j Hi Hj. now apply place_quad_ext.
Qed.
Lemma c120_tria c2 t2 nm sec a b c s : m_mu (ss_mat sec) ^ 2 <> 1 ->
  mk_tria nm sec a b c = Some s -> triangle (n_loc a) (n_loc b) (n_loc c) ->
  exists K, shell_K_c c2 t2 s = Some K
  /\ forall i j, (i < 18)%nat -> (j < 18)%nat -> K i j = shell_K (code_kernels c2 t2) s i j.
Proof.
  intros Hm H P. pose proof (c77_tria _ _ _ _ _ _ H P) as T.
  assert (N : sh_nodes s = [a; b; c] /\ sh_sec s = sec).
  { unfold mk_tria in H. destruct (tria_csys _ _ _); [|discriminate]. apply some_inj in H. subst s. split; reflexivity. }
  destruct N as (N & S).
  unfold shell_K_c, shell_K. rewrite N. cbn [List.length Nat.eqb]. unfold tria_K_c, tria_K. rewrite S.
  set (E := m_E (ss_mat sec)). set (mu := m_mu (ss_mat sec)) in *. set (t := ss_t sec).
  change (flat_map (fun n => local_xy (sh_csys s) (n_loc n)) (sh_nodes s)) with (along_axes s).
  assert (A0 : turn (along_axes s) 0 1 2 <> 0).
  { rewrite T. unfold triangle_area. intros Z. apply P.
    assert (L : length3 (normal3 (n_loc a) (n_loc b) (n_loc c)) = 0) by lra.
    revert L. unfold length3. set (v := normal3 _ _ _). intros L. apply sqrt_eq_0 in L; [|pose proof (pow2_ge_0 (vx v)); pose proof (pow2_ge_0 (vy v)); pose proof (pow2_ge_0 (vz v)); lra].
    destruct v as [v1 v2 v3]; cbn [vx vy vz] in L. unfold zero3. f_equal; nra. }
  set (xl := along_axes s) in *.
  destruct (integrate_c_some t2 (fun xi eta => autofunc_c 9 cdkt_code (call_with E mu t xi eta xl)) (fun xi eta => dkt_BDB E mu t xi eta xl) 9) as (P1 & EP & HP).
  { apply Forall_forall. intros p _. now apply c120_dkt. }
  destruct (c120_t9 E mu t 0 0 xl Hm A0) as (M & EM & HM). rewrite EP, EM.
  eexists. split; [reflexivity|]. intros i j Hi Hj. apply place_tria_ext; [assumption|assumption| |].
  - intros i' j' Hi' Hj'. rewrite HM by assumption. reflexivity.
  - intros i' j' Hi' Hj'. rewrite HP by assumption. reflexivity.
Qed.

Lemma c120_degenerate_quad E mu t xi eta xl :
  (mu^2 = 1 \/ det2 (gq_J xl xi eta) = 0 -> autofunc_c 12 cgq_code (call_with E mu t xi eta xl) = None)
  /\ (mu^2 = 1 \/ dkq_detJ xl xi eta = 0 -> autofunc_c 12 cdkq_code (call_with E mu t xi eta xl) = None).
Proof.
  split; intros [H|H].
  - apply (run_divisor _ _ _ cgq_23); [apply divides_by_in, cgq_divides|]. rewrite cgq_mu, H. lra.
  - apply (run_divisor _ _ _ cgq_20); [apply divides_by_in, cgq_divides|]. now rewrite cgq_den.
  - apply (run_divisor _ _ _ cdkq_59); [apply divides_by_in, cdkq_divides|]. rewrite cdkq_mu, H. lra.
  - apply (run_divisor _ _ _ cdkq_35); [apply divides_by_in, cdkq_divides|]. now rewrite cdkq_den.
Qed.
