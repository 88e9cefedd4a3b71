(** Vocabulary for the statements about cross sections: composition from rectangles. *)
From Coq Require Import Reals List.
Import ListNotations.
Local Open Scope R_scope.

(** A rectangle of width (along axis 3) and height (along axis 2) whose
    centre lies at (y, z) from the centroid of the whole section. *)
Record part : Type := Part { p_w : R; p_h : R; p_y : R; p_z : R }.
Fixpoint total (f : part -> R) (l : list part) : R :=
  match l with [] => 0 | p :: l' => f p + total f l' end.
Definition area (l : list part) : R := total (fun p => p_w p * p_h p) l.
(** Second moments with the parallel-axis rule: bending over the height, over the width. *)
Definition inertia_height (l : list part) : R := total (fun p => p_w p * p_h p ^ 3 / 12 + p_w p * p_h p * p_y p ^ 2) l.
Definition inertia_width (l : list part) : R := total (fun p => p_h p * p_w p ^ 3 / 12 + p_w p * p_h p * p_z p ^ 2) l.

(** Walls of a box of outer size b x h; flanges and web of an I shape. *)
Definition box_parts (h b tw tf : R) : list part :=
  [Part tw h 0 ((b - tw) / 2); Part tw h 0 (- (b - tw) / 2);
   Part (b - 2*tw) tf ((h - tf) / 2) 0; Part (b - 2*tw) tf (- (h - tf) / 2) 0].
Definition I_parts (h b tw tf : R) : list part :=
  [Part b tf ((h - tf) / 2) 0; Part b tf (- (h - tf) / 2) 0; Part tw (h - 2*tf) 0 0].

(** Equal up to one part in a hundred thousand. *)
Definition close (x y : R) : Prop := Rabs (x - y) <= y / 100000.
