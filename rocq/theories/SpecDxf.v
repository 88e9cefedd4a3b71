(** Vocabulary for the statements about areas and the exchange with dxf files. *)
From Coq Require Import Reals List String.
From Verif Require Import Base General SpecGeneral Dxf.
Import ListNotations.
Local Open Scope R_scope.

(** An entity on one of the layers asked for; no layers asked for means all. *)
Definition on_layers (layers : list string) (e : entity) : Prop := layers = [] \/ In (layer_of e) layers.
(** The lines of a drawing on the layers asked for, in order. *)
Inductive lines_on (layers : list string) : list entity -> list (point * point) -> Prop :=
| lines_nil : lines_on layers [] []
| lines_take : forall l p q es ps, on_layers layers (ELine l p q) -> lines_on layers es ps -> lines_on layers (ELine l p q :: es) ((p, q) :: ps)
| lines_skip : forall e es ps, (~ on_layers layers e \/ forall l p q, e <> ELine l p q) -> lines_on layers es ps -> lines_on layers (e :: es) ps.
(** No face of the drawing is on a layer asked for. *)
Definition no_faces (layers : list string) (es : list entity) : Prop :=
  forall l a b c d, In (EFace l a b c d) es -> ~ on_layers layers (EFace l a b c d).
(** Any two joints are at least the tolerance apart. *)
Definition joints_apart (tol : R) (js : list joint) : Prop :=
  forall a b, In a js -> In b js -> a = b \/ tol^2 <= place_dist2 (pos a) (pos b).
(** A member runs between two places, in one direction or the other. *)
Definition joins (d : db) (f : frame) (p q : point) : Prop := runs d f p q \/ runs d f q p.
