(** Vocabulary for the statements about the thick plate.  Independent of the model. *)
From Coq Require Import Reals List Arith.
From Verif Require Import Base SpecKernel.
Import ListNotations.
Local Open Scope R_scope.

(** Three values per corner: deflection and the two slopes (rotations of the normal in the x and y plane). *)
Definition slope_values (xl : list R) (w : quadratic) (c : nat) : R :=
  let i := (c / 3)%nat in
  match (c mod 3)%nat with
  | O => defl w (at_x xl i) (at_y xl i) | S O => slope_x w (at_x xl i) (at_y xl i) | _ => slope_y w (at_x xl i) (at_y xl i)
  end.
Definition at_w (d : nat -> R) (i : nat) : R := d (3 * i)%nat.
Definition at_gx (d : nat -> R) (i : nat) : R := d (3 * i + 1)%nat.
Definition at_gy (d : nat -> R) (i : nat) : R := d (3 * i + 2)%nat.
(** The same values as deflection, rotation about x and rotation about y. *)
Definition as_rotations (d : nat -> R) (c : nat) : R :=
  let i := (c / 3)%nat in
  match (c mod 3)%nat with O => at_w d i | S O => at_gy d i | _ => - at_gx d i end.

(** The four sides in the order of the script: from corner, to corner. *)
Definition side_ends (k : nat) : nat * nat := nth k [(1, 2); (2, 3); (3, 0); (0, 1)]%nat (0, 0)%nat.
(** Slope along a side and across it, at corner [k]. *)
Definition along (xl : list R) (d : nat -> R) (i j k : nat) : R :=
  (at_gx d k * side_x xl i j + at_gy d k * side_y xl i j) / side_l xl i j.
Definition across (xl : list R) (d : nat -> R) (i j k : nat) : R :=
  (- at_gx d k * side_y xl i j + at_gy d k * side_x xl i j) / side_l xl i j.

(** A strip of a plate as a beam with shear: bending stiffness [D], shear stiffness [C], length [l],
    deflection [W], rotation [Psi] of the normal, constant shear strain [g]; no load between the ends. *)
Definition beam_strip (D C l w0 s0 w1 s1 : R) (W Psi : R -> R) (g : R) : Prop :=
  W 0 = w0 /\ W l = w1 /\ Psi 0 = s0 /\ Psi l = s1
  /\ (forall x, derivable_pt_lim W x (Psi x + g))
  /\ exists Psi', forall x, derivable_pt_lim Psi x (Psi' x) /\ derivable_pt_lim Psi' x (- (C * g / D)).
(** Bending and shear stiffness of a plate of thickness [t]. *)
Definition bending_stiffness (E mu t : R) : R := E * t^3 / (12 * (1 - mu^2)).
Definition shear_stiffness (E mu t : R) : R := 5/6 * (E / (2 * (1 + mu))) * t.

(** Bilinear interpolation on the square [-1,1]x[-1,1] with corners (-1,-1), (1,-1), (1,1), (-1,1). *)
Definition four (v : nat -> R) (s r : R) : R :=
  1/4 * ((1 - s) * (1 - r) * v 0%nat + (1 + s) * (1 - r) * v 1%nat + (1 + s) * (1 + r) * v 2%nat + (1 - s) * (1 + r) * v 3%nat).
Definition place_x (xl : list R) : R -> R -> R := four (at_x xl).
Definition place_y (xl : list R) : R -> R -> R := four (at_y xl).
(** [F], given over the square, has at the place of [s], [r] in the plane the gradient [a], [b]. *)
Definition gradient (xl : list R) (F : R -> R -> R) (s r a b : R) : Prop :=
  exists xs ys xr yr,
    derivable_pt_lim (fun s => place_x xl s r) s xs /\ derivable_pt_lim (fun s => place_y xl s r) s ys /\
    derivable_pt_lim (fun r => place_x xl s r) r xr /\ derivable_pt_lim (fun r => place_y xl s r) r yr /\
    derivable_pt_lim (fun s => F s r) s (a * xs + b * ys) /\ derivable_pt_lim (fun r => F s r) r (a * xr + b * yr).
(** Eight-node interpolation of corner values and values at the middles of the sides in the order of [side_ends]. *)
Definition eight_node (corner middle : nat -> R) (s r : R) : R :=
  eight (corner 0%nat) (corner 1%nat) (corner 2%nat) (corner 3%nat) (middle 3%nat) (middle 0%nat) (middle 1%nat) (middle 2%nat) s r.
(** The shear [gx], [gy] at the corners has along each side, at both ends, the component [g] times its length. *)
Definition shear_of_sides (xl : list R) (g : nat -> R) (gx gy : nat -> R) : Prop :=
  forall k, (k < 4)%nat -> let (i, j) := side_ends k in
    gx i * side_x xl i j + gy i * side_y xl i j = g k /\ gx j * side_x xl i j + gy j * side_y xl i j = g k.
(** The four sides are equally long. *)
Definition equal_sides (xl : list R) (l : R) : Prop :=
  forall k, (k < 4)%nat -> let (i, j) := side_ends k in side_l xl i j = l.
(** Six values per corner as in [shell_field], but with the slopes w,x and w,y at the places of the rotations. *)
Definition slope_field (xl : list R) (u v : lin) (w : quadratic) (c : nat) : R :=
  let i := (c / 6)%nat in let x := at_x xl i in let y := at_y xl i in
  match (c mod 6)%nat with
  | 0%nat => lin_at u x y | 1%nat => lin_at v x y | 2%nat => defl w x y
  | 3%nat => slope_x w x y | 4%nat => slope_y w x y | _ => 0
  end.
