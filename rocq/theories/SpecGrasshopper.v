(** Vocabulary for the statements about the drawing that the Grasshopper component turns
    into interface calls. *)
From Coq Require Import Reals List String Arith Bool ZArith.
From Verif Require Import Base Csys Sections Element Load FeModel Assembly Solver Post Api SpecGeom SpecApi Grasshopper.
Import ListNotations.
Local Open Scope R_scope.

(** A point that the tolerance does not tell from another. *)
Definition near (tol : R) (p q : vec3) : Prop := p = q \/ distance p q < tol.
Definition apart (tol : R) (l : list gnode) : Prop := forall i j a b, i <> j ->
  nth_error l i = Some a -> nth_error l j = Some b -> tol <= distance (gn_pt a) (gn_pt b).
(** The nodes that restraints and loads name, in the order they are read. *)
Definition entries (d : drawing) : list gnode := map gr_node (dr_rests d) ++ map gl_node (dr_loads d).
(** The drawing's own names: one name is one node, and none looks like a generated one. *)
Definition well_named (d : drawing) : Prop :=
  (forall a b, In a (entries d) -> In b (entries d) -> gn_name a = gn_name b -> gn_pt a = gn_pt b)
  /\ (forall a k, In a (entries d) -> gn_name a <> ("gen_" ++ k)%string).
Definition distinct_beams (d : drawing) : Prop := NoDup (map gb_name (dr_beams d)).

(** [y] is [x] written with six decimals. *)
Definition six_decimals (x y : R) : Prop := exists k : Z, y = IZR k / 1000000 /\ - (1/2) / 1000000 <= x - y < 1/2 / 1000000.
(** The same point in metres, as written: *)
Definition written (sc : R) (p q : vec3) : Prop :=
  six_decimals (vx p * sc) (vx q) /\ six_decimals (vy p * sc) (vy q) /\ six_decimals (vz p * sc) (vz q).
(** After the script the node named [x] is where the drawing has [p], up to the tolerance. *)
Definition stands (ext : externals) (w : world) (tol sc : R) (x : string) (p : vec3) : Prop :=
  exists p' q, near tol p p' /\ written sc p' q /\ answer ext w (OpNodeLocation x) = RVec3 q.
(** Every line of the script can be called. *)
Definition callable (lines : list line) : Prop := ~ In None lines.
(** Python's objects: one id is one object; and the drawing's own names are one object each. *)
Definition tidy (d : drawing) : Prop := forall b c, In b (dr_beams d) -> In c (dr_beams d) ->
  let s := gb_sec b in let s' := gb_sec c in
  (gs_id s = gs_id s' -> s = s') /\ (gs_name s = gs_name s' -> s = s')
  /\ (gm_id (gs_mat s) = gm_id (gs_mat s') -> gs_mat s = gs_mat s')
  /\ (gm_name (gs_mat s) = gm_name (gs_mat s') -> gs_mat s = gs_mat s').
(** A stored section is the drawn one in metres and newtons: lengths times [sc], forces times [fs]. *)
Definition converted (sc fs : R) (m : gmaterial) (A As2 As3 J I2 I3 : R) (sec : bsection) : Prop :=
  six_decimals (A * sc^2) (s_A sec) /\ six_decimals (As2 * sc^2) (s_As2 sec) /\ six_decimals (As3 * sc^2) (s_As3 sec)
  /\ six_decimals (J * sc^4) (s_J sec) /\ six_decimals (I2 * sc^4) (s_I22 sec) /\ six_decimals (I3 * sc^4) (s_I33 sec)
  /\ six_decimals (gm_E m * fs / sc^2) (m_E (s_mat sec)) /\ six_decimals (gm_rho m / sc^3) (m_rho (s_mat sec))
  /\ six_decimals (gm_mu m) (m_mu (s_mat sec)).
(** The same for the material alone; the other shapes are made from their sizes. *)
Definition stuff (sc fs : R) (m : gmaterial) (mt : material) : Prop :=
  six_decimals (gm_E m * fs / sc^2) (m_E mt) /\ six_decimals (gm_rho m / sc^3) (m_rho mt) /\ six_decimals (gm_mu m) (m_mu mt).
(** A beam is connected to nodes that stand for its two ends; an entry is given a node that
    stands for its point. *)
Definition joined (tol : R) (nodes : list gnode) (conn : dict (nat * nat)) (b : gbeam) : Prop :=
  exists i j a c, dget (gb_name b) conn = Some (i, j) /\ nth_error nodes i = Some a /\ near tol (gb_start b) (gn_pt a)
  /\ nth_error nodes j = Some c /\ near tol (gb_end b) (gn_pt c).
Definition entry_ok (tol : R) (nodes : list gnode) (e p : gnode) : Prop := In p nodes /\ near tol (gn_pt e) (gn_pt p).
