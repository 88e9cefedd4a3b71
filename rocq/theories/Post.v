(** Model of /repo/hyperstatic/core/fe_post/node.py and fe_post/beam.py. *)
From Coq Require Import Reals Lra List String Arith Bool.
From Verif Require Import Base Csys Sections Element Load FeModel Assembly.
Import ListNotations.
Local Open Scope R_scope.

(** numpy slice [d[a:a+n]] (silently shorter beyond the end) *)
Definition slice (a n : nat) (d : list R) : list R := firstn n (skipn a d).

(** fe_post/node.py:13-27 [resolve_nodal_displacement]; [d] is row [step-1] of the
    stored array (the static solver stores a single row; step=1). *)
Definition resolve_nodal_displacement (a : asm) (d : list R) (name : string) : option (list R) :=
  bindO (model_node_hid name (a_model a)) (fun hid => Some (slice (hid*6) 6 d)).

(** [d[np.in1d(range(len(d)),mask)]]: the masked entries in ascending order *)
Definition pick (mask : list nat) (d : list R) : list R :=
  map (fun i => nth i d 0) (filter (fun i => memb i mask) (seq 0 (List.length d))).

Definition ldot (a b : list R) : R := lsum (map (fun xy => fst xy * snd xy) (combine a b)).

Definition mat_list (n : nat) (T : mat) (v : list R) : list R :=
  map (fun i => rsum n (fun k => T i k * nth k v 0)) (seq 0 n).

(** fe_post/beam.py:28-65 [resolve_beam_deformation]: [x,w2,w3,theta,phi2,phi3].
    [T.dot(dd)] needs twelve values. *)
Definition resolve_beam_deformation (a : asm) (d : list R) (name : string) (loc : R) : option (list R) :=
  let m := a_model a in
  bindO (dget name (f_beams m)) (fun b =>
  bindO (beam_hids b m) (fun ij =>
  let mask := seq (fst ij * 6) 6 ++ seq (snd ij * 6) 6 in
  let N := interpolate (b_length b) loc in
  let N_ := interpolate1 (b_length b) loc in
  let dd0 := pick mask d in
  if negb (Nat.eqb (List.length dd0) 12) then None
  else
    let dd := mat_list 12 (beam_T b) dd0 in
    let axial := pick [0;6]%nat dd in
    let shear2bend3 := pick [1;5;7;11]%nat dd in
    let shear3bend2 := pick [2;4;8;10]%nat dd in
    let torsion := pick [3;9]%nat dd in
    let x := ldot (slice 0 2 N) axial in
    let w2 := ldot (slice 2 4 N) shear2bend3 in
    let w3 := ldot (slice 6 4 N) shear3bend2 in
    let theta := ldot (skipn 10 N) torsion in
    let phi2 := ldot (slice 2 4 N_) shear2bend3 in
    let phi3 := ldot (slice 6 4 N_) shear3bend2 in
    Some [x; w2; w3; theta; phi2; phi3])).
