(** Properties C43, C44: cross sections and materials.
    Only statements, each closed by a lemma proved elsewhere, with the assumptions it
    rests on and an instance of its hypotheses. *)
From Coq Require Import Reals Lra Lia List String Arith Bool ZArith Sorting.Permutation Sorting.Sorted.
From Verif Require Import Base Sections SpecSection SectionProofs.
Import ListNotations.
Local Open Scope string_scope.
Local Open Scope list_scope.
Local Open Scope R_scope.

(** C44. The reported shear modulus satisfies E = 2 (1 + mu) G. *)
Theorem C44_shear m : 1 + m_mu m <> 0 -> mat_G m * (2 * (1 + m_mu m)) = m_E m.
Proof. exact (c44_shear m). Qed.
Print Assumptions C44_shear.
Example C44_example : let m := Mat 1 206000 (3/10) 0 in 1 + m_mu m <> 0 /\ 1 - 2 * m_mu m <> 0.
Proof. cbn. split; lra. Qed.

(** C44 (partial). The reported Lame constant is the true one divided by mu. *)
Theorem C44_lamda_partial m : 1 + m_mu m <> 0 -> 1 - 2 * m_mu m <> 0 ->
  m_mu m * mat_lamda m = m_E m * m_mu m / ((1 + m_mu m) * (1 - 2 * m_mu m)).
Proof. exact (c44_lamda_partial m). Qed.
Print Assumptions C44_lamda_partial.
Example C44_lamda_example : let m := Mat 1 260 (3/10) 0 in mat_lamda m = 500 /\ m_E m * m_mu m / ((1 + m_mu m) * (1 - 2 * m_mu m)) = 150.
Proof.
  cbv zeta. pose proof (C44_lamda_partial (Mat 1 260 (3/10) 0) ltac:(cbn; lra) ltac:(cbn; lra)) as H. cbn [m_E m_mu] in *.
  replace (260 * (3 / 10) / ((1 + 3 / 10) * (1 - 2 * (3 / 10)))) with 150 in * by field. split; lra.
Qed.

(** C44. Exactly when the reported Lame constant is right: E = 0 or mu = 1. *)
Theorem C44_lamda_iff_partial m : 1 + m_mu m <> 0 -> 1 - 2 * m_mu m <> 0 ->
  (mat_lamda m = m_E m * m_mu m / ((1 + m_mu m) * (1 - 2 * m_mu m)) <-> m_E m = 0 \/ m_mu m = 1).
Proof. exact (c44_lamda_iff m). Qed.
Print Assumptions C44_lamda_iff_partial.
Example C44_lamda_iff_example : let m := Mat 1 260 1 0 in mat_lamda m = m_E m * m_mu m / ((1 + m_mu m) * (1 - 2 * m_mu m)).
Proof. cbv zeta. apply C44_lamda_iff_partial; cbn; lra. Qed.

(** C44 refuted for the Lame constant. *)
Theorem C44_lamda_refuted : exists m, 0 < m_E m /\ 0 < m_mu m < 1/2 /\
  mat_lamda m <> m_E m * m_mu m / ((1 + m_mu m) * (1 - 2 * m_mu m)).
Proof. exact c44_lamda_refuted. Qed.
Print Assumptions C44_lamda_refuted.


(** C43 (box). Area and inertias are those of the four walls with the parallel-axis rule,
    Bredt's torsion constant, moduli = inertia / half depth, all positive. *)
Theorem C43_box m h b tw tf : 0 < tw -> 2 * tw < b -> 0 < tf -> 2 * tf < h ->
  exists s, mk_box m h b tw tf = Some s
  /\ s_A s = area (box_parts h b tw tf) /\ s_I22 s = inertia_width (box_parts h b tw tf)
  /\ s_I33 s = inertia_height (box_parts h b tw tf)
  /\ s_J s = 4 * ((h - tf) * (b - tw)) ^ 2 / (2 * (b - tw) / tf + 2 * (h - tf) / tw)
  /\ s_W22 s = s_I22 s / (b / 2) /\ s_W33 s = s_I33 s / (h / 2)
  /\ 0 < s_A s /\ 0 < s_I22 s /\ 0 < s_I33 s /\ 0 < s_J s /\ 0 < s_W22 s /\ 0 < s_W33 s.
Proof. exact (c43_box m h b tw tf). Qed.
Print Assumptions C43_box.
Example C43_box_example m : exists s, mk_box m 20 10 1 2 = Some s /\ s_A s = 72.
Proof.
  destruct (C43_box m 20 10 1 2) as (s & H & A & _); try lra. exists s. split; [exact H|]. rewrite A. unfold area, box_parts, total; cbn [p_w p_h]. lra.
Qed.

(** C43 (I shape, partial). Area, strong inertia, moduli and signs are right; the weak
    inertia exceeds that of the parts by tf tw^3 / 6. *)
Theorem C43_I_partial m h b tw tf : 0 < tw -> tw <= b -> 0 < tf -> 2 * tf < h ->
  exists s, mk_I m h b tw tf = Some s
  /\ s_A s = area (I_parts h b tw tf)
  /\ s_I33 s = inertia_height (I_parts h b tw tf)
  /\ s_I22 s = inertia_width (I_parts h b tw tf) + tf * tw ^ 3 / 6
  /\ s_W22 s = s_I22 s / (b / 2) /\ s_W33 s = s_I33 s / (h / 2)
  /\ 0 < s_A s /\ 0 < s_I22 s /\ 0 < s_I33 s /\ 0 < s_J s /\ 0 < s_W22 s /\ 0 < s_W33 s.
Proof. exact (c43_I_partial m h b tw tf). Qed.
Print Assumptions C43_I_partial.
Example C43_I_example m : exists s, mk_I m 20 10 1 2 = Some s /\ s_A s = 56.
Proof.
  destruct (C43_I_partial m 20 10 1 2) as (s & H & A & _); try lra. exists s. split; [exact H|]. rewrite A. unfold area, I_parts, total; cbn [p_w p_h]. lra.
Qed.

(** C43 fails for the weak inertia of every I shape. *)
Theorem C43_I_wrong m h b tw tf s : 0 < tw -> tw <= b -> 0 < tf -> 2 * tf < h -> mk_I m h b tw tf = Some s ->
  inertia_width (I_parts h b tw tf) < s_I22 s.
Proof. exact (c43_I_refuted m h b tw tf s). Qed.
Print Assumptions C43_I_wrong.
Example C43_I_wrong_example m : exists s, mk_I m 20 10 1 2 = Some s /\ inertia_width (I_parts 20 10 1 2) < s_I22 s.
Proof.
  destruct (C43_I_example m) as (s & H & _). exists s. split; [exact H|]. apply (C43_I_wrong m 20 10 1 2 s); try lra. exact H.
Qed.

(** C43 is false for the weak inertia of an I shape. *)
Theorem C43_I_refuted : exists m h b tw tf s, 0 < tw /\ tw <= b /\ 0 < tf /\ 2 * tf < h
  /\ mk_I m h b tw tf = Some s /\ inertia_width (I_parts h b tw tf) <> s_I22 s.
Proof. exact c43_I_exists. Qed.
Print Assumptions C43_I_refuted.
(* existential: the witness is part of the statement *)

(** C43 (rectangle). *)
Theorem C43_rectangle m h b : 0 < h -> 0 < b ->
  exists s, mk_rectangle m h b = Some s
  /\ s_A s = area [Part b h 0 0] /\ s_I22 s = inertia_width [Part b h 0 0] /\ s_I33 s = inertia_height [Part b h 0 0]
  /\ s_W22 s = s_I22 s / (b / 2) /\ s_W33 s = s_I33 s / (h / 2)
  /\ 0 < s_A s /\ 0 < s_I22 s /\ 0 < s_I33 s /\ 0 < s_W22 s /\ 0 < s_W33 s.
Proof. exact (c43_rectangle m h b). Qed.
Print Assumptions C43_rectangle.
Example C43_rectangle_example m : exists s, mk_rectangle m 6 2 = Some s /\ s_A s = 12 /\ s_I22 s = 4 /\ s_I33 s = 36.
Proof.
  destruct (C43_rectangle m 6 2) as (s & H & A & I2 & I3 & _); try lra. exists s. split; [exact H|]. rewrite A, I2, I3.
  unfold area, inertia_width, inertia_height, total; cbn [p_w p_h p_y p_z]. repeat split; lra.
Qed.

(** C43 (rectangle, partial). The torsion constant is positive when the height is at least a
    thousandth of the width. *)
Theorem C43_rectangle_J_partial m h b : 0 < b -> b / 1000 <= h -> 0 < s_J (rectangle_section m h b).
Proof. exact (c43_rectangle_J_partial m h b). Qed.
Print Assumptions C43_rectangle_J_partial.
Example C43_rectangle_J_partial_example m : 0 < s_J (rectangle_section m 2 1).
Proof. apply C43_rectangle_J_partial; lra. Qed.

(** C43 fails for the torsion constant: it is negative for every strip lying flat whose
    width exceeds its height by ten orders of magnitude. *)
Theorem C43_rectangle_J_negative m h b : 0 < h -> 0 < b -> h * 10000000000 <= b -> s_J (rectangle_section m h b) < 0.
Proof. exact (c43_rectangle_J_refuted m h b). Qed.
Print Assumptions C43_rectangle_J_negative.
Example C43_rectangle_J_example m : s_J (rectangle_section m 1 10000000000) < 0.
Proof. apply C43_rectangle_J_negative; lra. Qed.

(** C43 is false for the torsion constant of a rectangle. *)
Theorem C43_rectangle_J_refuted : exists m h b s, 0 < h /\ 0 < b /\ mk_rectangle m h b = Some s /\ s_J s < 0.
Proof. exact c43_J_exists. Qed.
Print Assumptions C43_rectangle_J_refuted.
(* existential: the witness is part of the statement *)

(** C43 (circle). Area and inertia up to one part in 100000 (pi is written 3.14159); polar = sum of the inertias; moduli = inertia / radius; positive. *)
Theorem C43_circle m d : 0 < d ->
  exists s, mk_circle m d = Some s
  /\ close (s_A s) (PI * (d ^ 2 / 4)) /\ close (s_I22 s) (PI * (d ^ 4 / 64))
  /\ s_I22 s = s_I33 s /\ s_J s = s_I22 s + s_I33 s
  /\ s_W22 s = s_I22 s / (d / 2) /\ s_W33 s = s_I33 s / (d / 2)
  /\ 0 < s_A s /\ 0 < s_I22 s /\ 0 < s_J s /\ 0 < s_W22 s.
Proof. exact (c43_circle m d). Qed.
Print Assumptions C43_circle.
Example C43_circle_example m : exists s, mk_circle m 2 = Some s /\ close (s_A s) (PI * (2 ^ 2 / 4)).
Proof. destruct (C43_circle m 2) as (s & H & A & _); [lra|]. exists s. split; [exact H|exact A]. Qed.

(** C43 (pipe). A pipe is the outer disc minus the inner disc. *)
Theorem C43_pipe m d t : 0 < t -> 2 * t <= d ->
  exists s, mk_pipe m d t = Some s
  /\ s_A s = s_A (circle_section m d) - s_A (circle_section m (d - 2 * t))
  /\ s_I22 s = s_I22 (circle_section m d) - s_I22 (circle_section m (d - 2 * t))
  /\ s_I33 s = s_I22 s /\ s_J s = s_I22 s + s_I33 s
  /\ s_W22 s = s_I22 s / (d / 2) /\ s_W33 s = s_I33 s / (d / 2)
  /\ 0 < s_A s /\ 0 < s_I22 s /\ 0 < s_J s /\ 0 < s_W22 s.
Proof. exact (c43_pipe m d t). Qed.
Print Assumptions C43_pipe.
Example C43_pipe_example m : exists s, mk_pipe m 10 1 = Some s /\ s_A s = s_A (circle_section m 10) - s_A (circle_section m (10 - 2 * 1)).
Proof. destruct (C43_pipe m 10 1) as (s & H & A & _); [lra|lra|]. exists s. split; [exact H|exact A]. Qed.

(** C43. A pipe of wall d/2 is the solid circle. *)
Theorem C43_solid_pipe m d : 0 < d ->
  let p := pipe_section m d (d / 2) in let c := circle_section m d in
  s_A p = s_A c /\ s_I22 p = s_I22 c /\ s_I33 p = s_I33 c /\ s_J p = s_J c /\ s_W22 p = s_W22 c /\ s_W33 p = s_W33 c.
Proof. exact (c43_solid_pipe m d). Qed.
Print Assumptions C43_solid_pipe.
Example C43_solid_pipe_example m : s_I22 (pipe_section m 6 (6 / 2)) = s_I22 (circle_section m 6).
Proof. apply (C43_solid_pipe m 6). lra. Qed.

(** C43 fails for the shear area of that pipe, which is below that of the circle. *)
Theorem C43_solid_pipe_shear m d : 0 < d -> s_As2 (pipe_section m d (d / 2)) < s_As2 (circle_section m d).
Proof. exact (c43_solid_pipe_refuted m d). Qed.
Print Assumptions C43_solid_pipe_shear.
Example C43_solid_pipe_shear_example m : s_As2 (pipe_section m 6 (6 / 2)) < s_As2 (circle_section m 6).
Proof. apply C43_solid_pipe_shear. lra. Qed.

(** C43 is false for the shear area of a solid pipe. *)
Theorem C43_solid_pipe_refuted : exists m d p c, 0 < d /\ mk_pipe m d (d / 2) = Some p /\ mk_circle m d = Some c /\ s_As2 p <> s_As2 c.
Proof. exact c43_solid_exists. Qed.
Print Assumptions C43_solid_pipe_refuted.
(* existential: the witness is part of the statement *)
