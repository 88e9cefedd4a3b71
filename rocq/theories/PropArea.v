(** Areas, deleting, stock data and listings of the drawing model.
    Only statements, each closed by a lemma proved elsewhere, with the assumptions it
    rests on and an instance of its hypotheses. *)
From Coq Require Import Reals Lra Lia List String Arith Bool ZArith Sorting.Permutation Sorting.Sorted.
From Verif Require Import Base General SpecGeneral BaseFacts GeneralProofs GeneralProofs2 GeneralProofs5.
Import ListNotations.
Local Open Scope string_scope.
Local Open Scope list_scope.
Local Open Scope R_scope.

(** C125. In no session does the model ever hold an area: whatever is drawn, the table of areas is empty. *)
Theorem C125_none uuid s : drawn uuid s -> d_areas (s_db s) = [].
Proof. exact (c125_none uuid s). Qed.
Print Assumptions C125_none.
Example C125_none_example : let s := fst (grun ticks create [GAddJoint 0 0 0; GAddJoint 1 0 0; GAddJoint 0 1 0; GSave;
    GAddArea ((0, 0), 0) ((1, 0), 0) ((0, 1), 0) None "A-M120" None]) in
  drawn ticks s /\ List.length (d_joints (s_db s)) = 3%nat /\ d_areas (s_db s) = [].
Proof.
  intro s. assert (D : drawn ticks s) by (eexists; reflexivity). split; [exact D|]. split; [|exact (C125_none ticks s D)].
  subst s. rewrite create_eq, !grun_fst_cons. cbn [gstep]. rewrite add_area_fails. reflexivity.
Qed.

(** C125. Drawing areas, one or several, is always answered by False and takes all unsaved work with it. *)
Theorem C125_never uuid s o : match o with GAddArea _ _ _ _ _ _ | GAddAreaBatch _ _ => True | _ => False end ->
  snd (gstep uuid s o) = GFalse /\ s_db (fst (gstep uuid s o)) = s_saved s.
Proof. exact (c125_never uuid s o). Qed.
Print Assumptions C125_never.
Example C125_never_example : let s := fst (grun ticks create three_corners) in
  List.length (d_joints (s_db s)) = 3%nat /\ d_joints (s_db (fst (gstep ticks s (GAddAreaBatch [] "A-M120")))) = [].
Proof. intro s. destruct (C125_never ticks s (GAddAreaBatch [] "A-M120") I) as (_ & B). rewrite B. subst s. rewrite create_eq. split; reflexivity. Qed.

(** C125. A triangle whose three corners are joints and whose section is in the model cannot be drawn, and the joints are lost. *)
Theorem C125_refuted : exists uuid s p0 p1 p2 sec, fresh_names uuid /\ drawn uuid s
  /\ (exists a b c, In a (d_joints (s_db s)) /\ pos a = p0 /\ In b (d_joints (s_db s)) /\ pos b = p1 /\ In c (d_joints (s_db s)) /\ pos c = p2)
  /\ p0 <> p1 /\ p1 <> p2 /\ p2 <> p0 /\ dget sec (d_asecs (s_db s)) <> None /\ d_unit (s_db s) = "N_m_C"%string
  /\ snd (gstep uuid s (GAddArea p0 p1 p2 None sec None)) = GFalse
  /\ d_areas (s_db (fst (gstep uuid s (GAddArea p0 p1 p2 None sec None)))) = []
  /\ d_joints (s_db (fst (gstep uuid s (GAddArea p0 p1 p2 None sec None)))) = [].
Proof. exact c125_refuted. Qed.
Print Assumptions C125_refuted.


(** C126. No call that is to delete something deletes it: it answers False and returns to the saved model, or raises and
    leaves the model as it is. *)
Theorem C126_kept uuid s o : deletes o ->
  (snd (gstep uuid s o) = GFalse /\ s_db (fst (gstep uuid s o)) = s_saved s) \/ (snd (gstep uuid s o) = GRaise /\ s_db (fst (gstep uuid s o)) = s_db s).
Proof. exact (c126_kept uuid s o). Qed.
Print Assumptions C126_kept.
Example C126_kept_example : deletes (GDeleteFrame "F") /\ deletes (GDeleteSection "1-L-H400x200x14x20")
  /\ dget "1-L-H400x200x14x20"%string (d_secs (s_db (fst (gstep ticks create (GDeleteSection "1-L-H400x200x14x20"))))) <> None.
Proof.
  split; [exact I|]. split; [exact I|].
  destruct (C126_kept ticks create (GDeleteSection "1-L-H400x200x14x20") I) as [(_ & E)|(_ & E)]; rewrite E, create_eq; discriminate.
Qed.

(** C126. A saved joint that nothing refers to is still there after it has been deleted; deleting a load case raises. *)
Theorem C126_refuted : exists uuid s n j, fresh_names uuid /\ drawn uuid s /\ is_joint (s_db s) n j /\ d_frames (s_db s) = [] /\ d_rest (s_db s) = []
  /\ is_joint (s_db (fst (gstep uuid s (GDeleteJoint n)))) n j
  /\ snd (gstep uuid s (GDeleteCase "S")) = GRaise /\ dget "S"%string (d_cases (s_db (fst (gstep uuid s (GDeleteCase "S"))))) <> None.
Proof. exact c126_refuted. Qed.
Print Assumptions C126_refuted.


(** C127. For frame sections: a section of a material that is not in the model is refused.  Missing: area sections (see
    C127_refuted). *)
Theorem C127_partial uuid s n m ty size : dget m (d_mats (s_db s)) = None -> snd (gstep uuid s (GAddSection n m ty size)) = GFalse.
Proof. exact (c127_frames uuid s n m ty size). Qed.
Print Assumptions C127_partial.
Example C127_partial_example : snd (gstep ticks create (GAddSection "R" "wood" "o" [1])) = GFalse
  /\ snd (gstep ticks create (GAddSection "R" "Q345" "o" [1])) = GTrue.
Proof.
  split; [apply C127_partial; rewrite create_eq; reflexivity|]. rewrite create_eq.
  unfold gstep, add_frame_section, start_db. cbn. unfold circle_consts. unfold Reqb. match goal with |- context [Req_EM_T ?a ?b] => destruct (Req_EM_T a b) end; [lra|reflexivity].
Qed.

(** C127. An area section is made of a material that is not in the model, and the answer is True. *)
Theorem C127_refuted : exists uuid s n m, fresh_names uuid /\ drawn uuid s /\ dget m (d_mats (s_db s)) = None
  /\ snd (gstep uuid s (GAddAreaSec n m "m" 1)) = GTrue
  /\ exists a, dget n (d_asecs (s_db (fst (gstep uuid s (GAddAreaSec n m "m" 1))))) = Some a /\ gas_mat a = m.
Proof. exact c127_refuted. Qed.
Print Assumptions C127_refuted.


(** C55. Thicknesses of areas: what is given in the unit of the session is kept in metres. *)
Theorem C55_thickness uuid s n m ty u t : In u units -> d_unit (s_db s) = u -> dget n (d_asecs (s_db s)) = None -> In ty ["m"; "p"; "s"; "n"]%string ->
  snd (gstep uuid s (GAddAreaSec n m ty t)) = GTrue /\
  dget n (d_asecs (s_db (fst (gstep uuid s (GAddAreaSec n m ty t))))) = Some (GASec m ty (t * metres u)).
Proof. exact (c55_thickness uuid s n m ty u t). Qed.
Print Assumptions C55_thickness.
Example C55_thickness_example : let s := fst (gstep ticks create (GSetUnit "kN_mm_C")) in
  dget "W"%string (d_asecs (s_db (fst (gstep ticks s (GAddAreaSec "W" "C35" "s" 200))))) = Some (GASec "C35" "s" (200 * (1/1000))).
Proof.
  intro s. subst s. rewrite (proj2 (C55_thickness ticks (fst (gstep ticks create (GSetUnit "kN_mm_C"))) "W" "C35" "s" "kN_mm_C" 200 ltac:(right; right; right; left; reflexivity) ltac:(rewrite create_eq; reflexivity) ltac:(rewrite create_eq; reflexivity) ltac:(right; right; left; reflexivity))).
  unfold metres. cbn. do 2 f_equal. lra.
Qed.

(** C128. Setting the mass of any joint of any session answers True and changes nothing. *)
Theorem C128_mass uuid s n j m : is_joint (s_db s) n j -> gstep uuid s (GSetJointMass n m) = (s, GTrue).
Proof. exact (c128_mass uuid s n j m). Qed.
Print Assumptions C128_mass.
Example C128_mass_example : let s := fst (grun ticks create [GAddJoint 0 0 0]) in
  is_joint (s_db s) (ticks 0) (Joint (ticks 0) 0 0 0) /\ gstep ticks s (GSetJointMass (ticks 0) [1; 1; 1; 0; 0; 0]) = (s, GTrue).
Proof.
  intro s. assert (H : is_joint (s_db s) (ticks 0) (Joint (ticks 0) 0 0 0)) by (subst s; rewrite create_eq; split; [left; reflexivity|reflexivity]).
  split; [exact H|exact (C128_mass ticks s _ _ _ H)].
Qed.

(** C128. In every session adding a stock material adds nothing: the one grade it knows is already there, so the call takes
    the unsaved work with it and answers None; for every other grade it does nothing. *)
Theorem C128_quick uuid s code : drawn uuid s -> snd (gstep uuid s (GAddQuick code)) = GNone
  /\ s_db (fst (gstep uuid s (GAddQuick code))) = if String.eqb code "Q345" then s_saved s else s_db s.
Proof. exact (c128_quick uuid s code). Qed.
Print Assumptions C128_quick.
Example C128_quick_example : let s := fst (grun ticks create three_corners) in
  List.length (d_joints (s_db s)) = 3%nat /\ d_joints (s_db (fst (gstep ticks s (GAddQuick "Q345")))) = [] /\ gstep ticks s (GAddQuick "Q235") = (s, GNone).
Proof.
  intro s. rewrite (proj2 (C128_quick ticks s "Q345" (ex_intro _ three_corners eq_refl))). subst s. rewrite create_eq. repeat split.
Qed.

(** C128. A joint is given a mass and a stock material is added: neither is in the model afterwards, and the joint is lost. *)
Theorem C128_refuted : exists uuid s n j m code, fresh_names uuid /\ drawn uuid s /\ is_joint (s_db s) n j /\ m <> [0; 0; 0; 0; 0; 0]
  /\ gstep uuid s (GSetJointMass n m) = (s, GTrue)
  /\ In code ["Q345"]%string /\ d_joints (s_db (fst (gstep uuid s (GAddQuick code)))) = [].
Proof. exact c128_refuted. Qed.
Print Assumptions C128_refuted.


(** C129. In every session the listings of materials, sections of frames and areas, load cases and joints name every object
    of the model, once, and nothing else. *)
Theorem C129_listings uuid s : fresh_names uuid -> drawn uuid s ->
  lists_keys (d_mats (s_db s)) (snd (gstep uuid s GMaterialNames)) /\ lists_keys (d_secs (s_db s)) (snd (gstep uuid s GSectionNames))
  /\ lists_keys (d_asecs (s_db s)) (snd (gstep uuid s GAreaSecNames)) /\ lists_keys (d_cases (s_db s)) (snd (gstep uuid s GCaseNames))
  /\ exists l, snd (gstep uuid s GJointNames) = GNames l /\ NoDup l /\ forall n, In n l <-> exists j, is_joint (s_db s) n j.
Proof. exact (c129_listings uuid s). Qed.
Print Assumptions C129_listings.
Example C129_listings_example : let s := fst (grun ticks create (GAddMaterial "M" 1 "" None :: GAddMaterial "M" 2 "" None :: GAddCase "W" "modal" :: three_corners)) in
  drawn ticks s /\ snd (gstep ticks s GMaterialNames) = GNames ["Q345"; "C35"]%string
  /\ snd (gstep ticks s GCaseNames) = GNames ["S"; "W"]%string /\ snd (gstep ticks s GJointNames) = GNames ["j"; "jj"; "jjj"]%string
  /\ lists_keys (d_asecs (s_db s)) (snd (gstep ticks s GAreaSecNames)).
Proof.
  intro s. assert (D : drawn ticks s) by (eexists; reflexivity). split; [exact D|].
  destruct (C129_listings ticks s ticks_fresh D) as (_ & _ & H & _). split; [|split; [|split; [|exact H]]]; subst s; rewrite create_eq; reflexivity.
Qed.
