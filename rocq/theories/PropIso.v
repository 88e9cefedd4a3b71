(** C114: shells have no preferred direction in their plane.
    Only statements, each closed by a lemma proved elsewhere, with the assumptions it
    rests on and an instance of its hypotheses. *)
From Coq Require Import Reals Lra Lia List String Arith Bool ZArith Sorting.Permutation Sorting.Sorted.
From Verif Require Import Base BaseFacts Csys Sections Element Kernels SpecKernel KernelProofs2 KernelProofs5 Demo2 SpecIso IsoProofs IsoProofs2.
Import ListNotations.
Local Open Scope string_scope.
Local Open Scope list_scope.
Local Open Scope R_scope.

(** C114. The membrane stiffness of quadrilaterals has no preferred direction: turned corners and turned values do
    the work of those not turned. *)
Theorem C114_membrane c2 t2 E mu t c s xl x y : c * c + s * s = 1 -> List.length xl = 8%nat ->
  work 12 (k_gq12 (code_kernels c2 t2) E mu t (spin c s xl)) (spin_membrane c s x) (spin_membrane c s y)
  = work 12 (k_gq12 (code_kernels c2 t2) E mu t xl) x y.
Proof. exact (c114_membrane c2 t2 E mu t c s xl x y). Qed.
Print Assumptions C114_membrane.
Example C114_membrane_example : let x := fun i => match i with 0%nat => 1 | 4%nat => 2 | 8%nat => 3 | _ => 0 end in
  work 12 (k_gq12 (code_kernels gauss2 tri_mid) 2 (3/10) 1 (spin (3/5) (4/5) [0; 0; 2; 0; 3; 1; 0; 1])) (spin_membrane (3/5) (4/5) x) (spin_membrane (3/5) (4/5) x)
  = work 12 (k_gq12 (code_kernels gauss2 tri_mid) 2 (3/10) 1 [0; 0; 2; 0; 3; 1; 0; 1]) x x.
Proof. intros x. apply C114_membrane; [lra|reflexivity]. Qed.

(** C114. Nor has the plate stiffness of triangles whose corners are not in line. *)
Theorem C114_triangle_plate c2 t2 E mu t c s xl x y : c * c + s * s = 1 -> List.length xl = 6%nat -> turn xl 0 1 2 <> 0 ->
  work 9 (k_dkt (code_kernels c2 t2) E mu t (spin c s xl)) (spin_plate c s x) (spin_plate c s y)
  = work 9 (k_dkt (code_kernels c2 t2) E mu t xl) x y.
Proof. exact (c114_triangle_plate c2 t2 E mu t c s xl x y). Qed.
Print Assumptions C114_triangle_plate.
Example C114_triangle_plate_example : let x := fun i => match i with 0%nat => 1 | 4%nat => 2 | 8%nat => 3 | _ => 0 end in
  work 9 (k_dkt (code_kernels gauss2 tri_mid) 2 (3/10) 1 (spin (3/5) (4/5) [0; 0; 2; 0; 1; 1])) (spin_plate (3/5) (4/5) x) (spin_plate (3/5) (4/5) x)
  = work 9 (k_dkt (code_kernels gauss2 tri_mid) 2 (3/10) 1 [0; 0; 2; 0; 1; 1]) x x.
Proof. intros x. apply C114_triangle_plate; [lra|reflexivity|unfold SpecKernel.turn, at_x, at_y; cbn; lra]. Qed.

(** C114. The membrane stiffness of triangles changes with the direction they are laid in. *)
Theorem C114_triangle_membrane_refuted : exists xl c s x, c * c + s * s = 1 /\ List.length xl = 6%nat /\ turn xl 0 1 2 <> 0
  /\ work 6 (t9_BDB 1 0 (spin c s xl)) (spin_pair c s x) (spin_pair c s x) <> work 6 (t9_BDB 1 0 xl) x x.
Proof. exact c114_triangle_membrane_refuted. Qed.
Print Assumptions C114_triangle_membrane_refuted.
Example C114_triangle_membrane_refuted_example : spin 0 1 [0; 0; 1; 0; 0; 1] = [0; 0; 0; 1; -1; 0].
Proof. unfold spin. repeat f_equal; ring. Qed.

(** C114. So does the plate stiffness of quadrilaterals, rectangles among them. *)
Theorem C114_plate_refuted : exists xl c s x, c * c + s * s = 1 /\ List.length xl = 8%nat /\ convex4 xl
  /\ work 12 (k_dkq (code_kernels gauss2 tri_mid) 12 0 1 (spin c s xl)) (spin_plate c s x) (spin_plate c s x)
     <> work 12 (k_dkq (code_kernels gauss2 tri_mid) 12 0 1 xl) x x.
Proof. exact c114_plate_refuted. Qed.
Print Assumptions C114_plate_refuted.
Example C114_plate_refuted_example : convex4 plank /\ spin 0 1 plank = [2; -1; 2; 1; -2; 1; -2; -1].
Proof. split; [unfold convex4, SpecKernel.turn, at_x, at_y, plank; cbn; lra|exact plank_turned]. Qed.
