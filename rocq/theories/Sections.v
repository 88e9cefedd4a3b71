(** Model of /repo/hyperstatic/core/fe_model/material/isotropy.py,
    section/beam_section.py and section/shell_section.py.
    Simplification: [shape] and [sizes] attributes (only used for display) and the
    names stored inside the objects are not kept. *)
From Coq Require Import Reals Lra List.
From Verif Require Import Base.
Import ListNotations.
Local Open Scope R_scope.

(** isotropy.py:7-11 *)
Record material : Type := Mat { m_rho : R; m_E : R; m_mu : R; m_a : R }.
(** isotropy.py:33-37 *)
Definition mat_G (m : material) : R := m_E m / 2 / (1 + m_mu m).
(** isotropy.py:39-43 *)
Definition mat_lamda (m : material) : R := m_E m / (1 + m_mu m) / (1 - 2 * m_mu m).

(** beam_section.py:5-18 *)
Record bsection : Type := BSec {
  s_mat : material; s_A : R; s_As2 : R; s_As3 : R; s_J : R;
  s_I22 : R; s_I33 : R; s_W22 : R; s_W33 : R }.

(** model.py:108-111: note the argument order of the constructor (J before I22). *)
Definition general_section (m : material) (A As2 As3 I22 I33 J W22 W33 : R) : bsection :=
  BSec m A As2 As3 J I22 I33 W22 W33.

(** beam_section.py:105-120 [BoxSection] *)
Definition box_section (m : material) (h b tw tf : R) : bsection :=
  let A := h*b - (h-2*tf)*(b-2*tw) in
  let As2 := 2*tw*h in
  let As3 := 2*tf*b in
  let a := 2*((b-tw)/tf + (h-tf)/tw) in
  let Omega := 2*(h-tf)*(b-tw) in
  let c := Omega/a in
  let J := c*Omega in
  let I22 := h*b^3/12 - (h-2*tf)*(b-2*tw)^3/12 in
  let I33 := b*h^3/12 - (b-2*tw)*(h-2*tf)^3/12 in
  BSec m A As2 As3 J I22 I33 (I22/(b/2)) (I33/(h/2)).

(** beam_section.py:126 etc.: the literal 3.14159 *)
Definition pi5 : R := 314159 / 100000.
(** beam_section.py:143 etc.: the literal 3.141592 *)
Definition pi6 : R := 3141592 / 1000000.

(** beam_section.py:122-134 [PipeSection] *)
Definition pipe_section (m : material) (d t : R) : bsection :=
  let A := pi5/4*(d^2 - (d-2*t)^2) in
  let As := pi5*t*(d-t)/2 in
  let J := pi5/32*(d^4 - (d-2*t)^4) in
  let I := pi5/64*(d^4 - (d-2*t)^4) in
  BSec m A As As J I I (I/(d/2)) (I/(d/2)).

(** [sum([np.tanh(m*3.141592*x/2/y)/m**5 for m in range(1,N,2)])], the odd numbers
    below [2*k]. *)
Fixpoint odd_series (k : nat) (x y : R) : R :=
  match k with
  | O => 0
  | S k' => odd_series k' x y
            + tanh (INR (2*k'+1) * pi6 * x / 2 / y) / INR (2*k'+1) ^ 5
  end.

(** beam_section.py:136-155 [ISection]; range(1,30,2) has 15 terms. *)
Definition I_section (m : material) (h b tw tf : R) : bsection :=
  let A := b*h - (b-tw)*(h-2*tf) in
  let As2 := tw*h in
  let As3 := 5/3*tf*b in
  let beta1 := 1/3 - 64*b/(pi6^5*tf) * odd_series 15 tf b in
  let J1 := tf*b^3*beta1*2 in
  let beta2 := 1/3 - 64*(h-2*tf)/(pi6^5*tw) * odd_series 15 tw (h-2*tf) in
  let J := J1 + tw*(h-2*tf)^3*beta2 in
  let I22 := 1/12*tf*b^3*2 + 1/12*h*tw^3 in
  let I33 := (b*h^3 - (b-tw)*(h-2*tf)^3)/12 in
  BSec m A As2 As3 J I22 I33 (I22/(b/2)) (I33/(h/2)).

(** beam_section.py:157-169 [CircleSection] *)
Definition circle_section (m : material) (d : R) : bsection :=
  let A := pi5/4*d^2 in
  let As := pi5*d^2/4*(9/10) in
  let J := pi5/32*d^4 in
  let I := pi5/64*d^4 in
  BSec m A As As J I I (I/(d/2)) (I/(d/2)).

(** beam_section.py:171-186 [RectangleSection]; range(1,60,2) has 30 terms. *)
Definition rectangle_section (m : material) (h b : R) : bsection :=
  let A := b*h in
  let As := 5/6*h*b in
  let beta := 1/3 - 64*b/(pi6^5*h) * odd_series 30 h b in
  let J := h*b^3*beta in
  let I22 := h*b^3/12 in
  let I33 := b*h^3/12 in
  BSec m A As As J I22 I33 (I22/(b/2)) (I33/(h/2)).

(** Python raises ZeroDivisionError on a zero denominator (arguments are python
    numbers); the constructors below return [None] exactly when one of the
    divisions in the corresponding [__init__] has a zero denominator. *)
Definition mk_box (m : material) (h b tw tf : R) : option bsection :=
  if (Reqb tf 0 || Reqb tw 0 || Reqb (2*((b-tw)/tf + (h-tf)/tw)) 0 || Reqb b 0 || Reqb h 0)%bool
  then None else Some (box_section m h b tw tf).
Definition mk_pipe (m : material) (d t : R) : option bsection :=
  if Reqb d 0 then None else Some (pipe_section m d t).
Definition mk_I (m : material) (h b tw tf : R) : option bsection :=
  if (Reqb b 0 || Reqb tf 0 || Reqb (h-2*tf) 0 || Reqb tw 0 || Reqb h 0)%bool
  then None else Some (I_section m h b tw tf).
Definition mk_circle (m : material) (d : R) : option bsection :=
  if Reqb d 0 then None else Some (circle_section m d).
Definition mk_rectangle (m : material) (h b : R) : option bsection :=
  if (Reqb b 0 || Reqb h 0)%bool then None else Some (rectangle_section m h b).

(** shell_section.py:5-10; [ele_type] is an arbitrary string compared with
    "membrane", "plate" and "shell" (DKGQ.py:29,43). *)
Record ssection : Type := SSec { ss_mat : material; ss_t : R; ss_type : String.string }.
