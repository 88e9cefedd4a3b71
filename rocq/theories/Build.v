(** Building directly on the model class with the duplicate check
    (core/fe_model/model.py:72-180), which the programming interface never asks for. *)
From Coq Require Import Reals List String Arith Bool.
From Verif Require Import Base Csys Sections Element FeModel.
Import ListNotations.
Local Open Scope R_scope.

(** The calls: model.py:72-86, 88-93, 101-102, 104-106, 108-111, 143-161, 163-180.  The other section
    shapes (lines 113-136) differ only in what they compute and are left out. *)
Inductive mcall : Type :=
| MNode (name : string) (x y z : R) (check_dup : bool)
| MRestraint (name : string) (flags : list bool)
| MMass (name : string) (mass : list R)
| MMaterial (name : string) (rho E mu a : R)
| MGeneral (name mat : string) (A As2 As3 I22 I33 J W22 W33 : R)
| MBeam (name start end_ section : string) (check_dup : bool)
| MSimple (name start end_ : string) (E mu A I2 I3 J rho : R) (check_dup : bool).

(** What a call gives back: nothing, a truth value, a number, an exception. *)
Inductive mresult : Type := MUnit | MBool (b : bool) | MNumber (n : nat) | MRaise.
Definition numbered (m : fem) (r : option (nat * fem)) : mresult * fem :=
  match r with Some (h, m') => (MNumber h, m') | None => (MRaise, m) end.
Definition quiet (m : fem) (r : option fem) : mresult * fem :=
  match r with Some m' => (MUnit, m') | None => (MRaise, m) end.
(** One call; an exception leaves the model as it was, since every method changes it in its
    last lines only. *)
Definition mstep (m : fem) (c : mcall) : mresult * fem :=
  match c with
  | MNode n x y z d => numbered m (model_add_node n x y z d m)
  | MRestraint n f => let (b, m') := model_set_restraint n f m in (MBool b, m')
  | MMass n v => quiet m (model_set_mass n v m)
  | MMaterial n rho E mu a => (MUnit, model_add_material n rho E mu a m)
  | MGeneral n mt A As2 As3 I22 I33 J W22 W33 => quiet m (model_add_general n mt A As2 As3 I22 I33 J W22 W33 m)
  | MBeam n s e sec d => numbered m (model_add_beam n s e sec d m)
  | MSimple n s e E mu A I2 I3 J rho d => numbered m (model_add_simple_beam n s e E mu A I2 I3 J rho d m)
  end.
Definition mrun (cs : list mcall) : fem := fold_left (fun m c => snd (mstep m c)) cs new_fem.
