(** C131: the modes of parts of a structure that nothing connects.
    Only statements, each closed by a lemma proved elsewhere, with the assumptions it
    rests on and an instance of its hypotheses. *)
From Coq Require Import Reals Lra Lia List String Arith Bool ZArith Sorting.Permutation Sorting.Sorted.
From Verif Require Import Base BaseFacts Csys Sections Element Load FeModel Assembly Solver Post Api SpecApi SpecGeom SpecBeam SpecAsm SpecLoad SpecSolve SpecMass SpecTold SpecToldLoad SpecStatics SpecSame SpecPart Dynamic SpecDyn SpecModal SpecFreq SpecPartModal Demo StaticsDemo StaticsDemo2 StaticsDemo3 GaussDemo CutDemo PartProofs3 PartDemo PartDemo2 PartModal2 PartModalDemo PartModalDemo2.
Import ListNotations.
Local Open Scope string_scope.
Local Open Scope list_scope.
Local Open Scope R_scope.

(** C131. A mode that a modal case finds, restricted to a part that nothing connects with the rest, is a free vibration of the same
    frequency of every structure that has this part, whatever else it has; and it is one that moves if the mode moves a node of the part. *)
Theorem C131_modes ext ops ops' t t' l l' eigsh a c st modes o part m m' : never_readds_nodes ext ops -> never_readds_nodes ext ops' ->
  let w := final ext init (ops ++ [OpAssemble]) in let w' := final ext init (ops' ++ [OpAssemble]) in
  describes ext ops t l -> describes ext ops' t' l' -> apart part t -> apart part t' -> same_part part t t' -> same_masses part t t' -> same_held part ext w w' c ->
  stiffness ext w' <> None -> symmetric_elements ext w' -> assembled_model w = Some m -> assembled_model w' = Some m' ->
  exact_eigen eigsh -> read_asb w = Some a -> solve_eigen (x_ker ext) eigsh a c st = Some (modes, o) ->
  forall i lambda x U V, nth_error o i = Some lambda -> nth_error modes i = Some x -> shape_of ext w c x U -> seen_in part m m' U V ->
  swings ext w' c lambda V
  /\ ((exists k j, part k = true /\ In k (dkeys (f_nodes m)) /\ (j < 6)%nat /\ U (6 * num m k + j)%nat <> 0) -> exists q, (q < equations w')%nat /\ V q <> 0).
Proof. exact (m131_modes ext ops ops' t t' l l' eigsh a c st modes o part m m'). Qed.
Print Assumptions C131_modes.
Example C131_modes_example ext : swings ext (final ext init (duo_ops ++ [OpAssemble])) "C" 8 stretched.
Proof.
  destruct (canti_described ext false) as (t & l & D & H & _). destruct (duo_described ext) as (t' & l' & D' & H' & _).
  destruct (alone_mode ext) as (a & Ha & SU & e & EX & _ & HS).
  exact (proj1 (C131_modes ext (canti_ops false) duo_ops t t' l l' e a "C" (Modal 1 None) _ _ near _ _ (canti_fresh _ false) (duo_fresh _) D D' (canti_apart t H)
    (duo_apart t' near H' (or_introl eq_refl)) (duo_same t t' H H') (duo_masses t t' H H') (duo_held _ "C" (or_introl eq_refl)) (duo_stiffness _) (duo_symmetric _)
    (canti_model _ false) (duo_assembled _) EX Ha HS 0%nat 8 _ stretched stretched eq_refl eq_refl SU duo_seen)).
Qed.

(** C131. The numbers of the lowest modes of a structure, in ascending order, are no larger than those of such a part alone: what is put
    beside it adds modes and changes none. *)
Theorem C131_lower ext ops ops' t t' l l' eigsh eigsh' a a' c st st' modes modes' o o' part : never_readds_nodes ext ops -> never_readds_nodes ext ops' ->
  let w := final ext init (ops ++ [OpAssemble]) in let w' := final ext init (ops' ++ [OpAssemble]) in
  describes ext ops t l -> describes ext ops' t' l' -> apart part t -> same_part part t t' -> same_masses part t t' -> same_held part ext w w' c ->
  (forall k, t_node t' k <> None -> part k = true) ->
  exact_eigen eigsh -> lowest_eigen eigsh -> exact_eigen eigsh' -> lowest_eigen eigsh' -> read_asb w = Some a -> read_asb w' = Some a' ->
  solve_eigen (x_ker ext) eigsh a c st = Some (modes, o) -> solve_eigen (x_ker ext) eigsh' a' c st' = Some (modes', o') ->
  symmetric_elements ext w -> elastic ext w -> elastic ext w' -> massive w -> massive w' -> stable ext w c ->
  forall i lambda lambda', nth_error o i = Some lambda -> nth_error o' i = Some lambda' -> lambda <= lambda'.
Proof. exact (m131_lower ext ops ops' t t' l l' eigsh eigsh' a a' c st st' modes modes' o o' part). Qed.
Print Assumptions C131_lower.
Example C131_lower_example ext : let w := final ext init (duo_ops ++ [OpAssemble]) in let w' := final ext init (canti_ops false ++ [OpAssemble]) in
  exists a a' e e', read_asb w = Some a /\ read_asb w' = Some a'
  /\ solve_eigen (x_ker ext) e a "C" (Modal 1 None) = Some ([[1;0;0;0;0;0;0;0;0;0;0;0]], [8])
  /\ solve_eigen (x_ker ext) e' a' "C" (Modal 1 None) = Some ([[1;0;0;0;0;0]], [8])
  /\ forall i lambda lambda', nth_error [8] i = Some lambda -> nth_error [8] i = Some lambda' -> lambda <= lambda'.
Proof.
  intros w w'. destruct (canti_described ext false) as (t' & l' & D' & H' & _). destruct (duo_described ext) as (t & l & D & H & _).
  destruct (duo_mode ext) as (a & Ha & _ & e & EX & LO & HS). destruct (alone_mode ext) as (a' & Ha' & _ & e' & EX' & LO' & HS').
  exists a, a', e, e'. split; [exact Ha|]. split; [exact Ha'|]. split; [exact HS|]. split; [exact HS'|].
  exact (C131_lower ext duo_ops (canti_ops false) t t' l l' e e' a a' "C" (Modal 1 None) (Modal 1 None) _ _ _ _ near (duo_fresh _) (canti_fresh _ false) D D'
    (duo_apart t near H (or_introl eq_refl)) (part_sym _ _ _ (duo_same t' t H' H)) (fun k P => eq_sym (duo_masses t' t H' H k P)) (held_sym _ _ _ _ _ (duo_held _ "C" (or_introl eq_refl)))
    (fun k => canti_only t' k H') EX LO EX' LO' Ha Ha' HS HS' (duo_symmetric _) (duo_elastic _) (canti_elastic _ false) (duo_massive _) (alone_massive _) (duo_stable _ "C" (or_introl eq_refl))).
Qed.
