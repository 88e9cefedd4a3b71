(** Properties C102 and C103: the tables and the load cases of SAP2000 text files.
    Only statements, each closed by a lemma proved elsewhere, with the assumptions it
    rests on and an instance of its hypotheses. *)
From Coq Require Import Reals Lra Lia List String Arith Bool ZArith Sorting.Permutation Sorting.Sorted.
From Verif Require Import Base S2k SpecS2k S2kProofs S2kCases.
Import ListNotations.
Local Open Scope string_scope.
Local Open Scope list_scope.
Local Open Scope R_scope.

(** C102. Of every file whose tables are each followed by a line, whose keys and values hold no quote or
    line end, and whose rows do not end in an underscore, every table is read with every key and
    value of every row in order, quoted or not, on one line or continued on others. *)
Theorem C102_reads_partial : forall h1 h2 gap ts, ~ occurs line_char h1 -> ~ occurs line_char h2 -> good_gap gap -> Forall good_table ts -> NoDup (map fst ts) ->
  read_tables (text (all_lines h1 h2 gap ts)) = Some (map (fun t => (fst t, Some (table_says t))) ts).
Proof. exact c102_reads. Qed.
Print Assumptions C102_reads_partial.
Example C102_reads_partial_example : exists attrs, read_tables (text (all_lines "File" "" " " [joints; frames])) = Some attrs
  /\ dget "JOINT COORDINATES" attrs = Some (Some [[("Joint", "1"); ("CoordSys", "GLOBAL SYSTEM"); ("X", "0")]; [("Joint", "2"); ("CoordSys", ""); ("X", "6.5")]]).
Proof.
  eexists. split; [apply C102_reads_partial|reflexivity].
  - apply occursb_not. reflexivity.
  - apply occursb_not. reflexivity.
  - exact gap_good.
  - apply Forall_cons; [exact joints_good|apply Forall_cons; [exact frames_good|apply Forall_nil]].
  - keys_good.
Qed.

(** C102. Without a line after the last table its last row is lost. *)
Theorem C102_last : forall h1 h2 gap ts n rows fs, ~ occurs line_char h1 -> ~ occurs line_char h2 -> good_gap gap -> Forall good_table ts ->
  good_table (n, rows ++ [fs]) -> NoDup (map fst ts ++ [n]) -> (forall f, In f fs -> broken f = false) ->
  read_tables (text (short_lines h1 h2 gap ts (n, rows ++ [fs])))
  = Some (map (fun t => (fst t, Some (table_says t))) ts ++ [(n, Some (map row_says rows))]).
Proof. exact c102_last. Qed.
Print Assumptions C102_last.
Example C102_last_example : read_tables (text (short_lines "File" "" " " [joints] frames)) = Some [(fst joints, Some (table_says joints)); (fst frames, Some [])].
Proof.
  apply (C102_last "File" "" " " [joints] (fst frames) [] (hd [] (snd frames))).
  - apply occursb_not. reflexivity.
  - apply occursb_not. reflexivity.
  - exact gap_good.
  - apply Forall_cons; [exact joints_good|apply Forall_nil].
  - exact frames_good.
  - keys_good.
  - cbn. intros f H. intuition (subst; reflexivity).
Qed.

(** C102. A row that ends in an underscore is joined with the next one, and the two become one. *)
Theorem C102_underscore_refuted : exists (t : table) rows, ~ occurs quote_char (fst t) /\ Forall (fun fs => fs <> [] /\ Forall good_field fs /\ NoDup (map key fs)) (snd t)
  /\ List.length (snd t) = 2%nat /\ read_tables (text (all_lines "File" "" " " [t])) = Some [(fst t, Some rows)] /\ List.length rows = 1%nat.
Proof. exact c102_underscore_refuted. Qed.
Print Assumptions C102_underscore_refuted.
Example C102_underscore_refuted_example : read_tables (text (all_lines "File" "" " " [("GROUPS", [[Field "GroupName" "A_" false false]; [Field "Color" "Red" false false]])]))
  = Some [("GROUPS", Some [[("GroupName", "A"); ("Color", "Red")]])].
Proof. vm_compute. reflexivity. Qed.

(** C102. With two empty lines after a table the table is None instead of its rows. *)
Theorem C102_gaps_refuted : exists t : table, good_table t /\ snd t <> []
  /\ read_tables (text ([("File" ++ line_end)%string; line_end] ++ table_lines " " t ++ [(" " ++ line_end)%string; end_line])) = Some [(fst t, None)].
Proof. exact c102_gaps_refuted. Qed.
Print Assumptions C102_gaps_refuted.
Example C102_gaps_refuted_example : read_tables (text (all_lines "File" "" " " [frames])) = Some [(fst frames, Some (table_says frames))].
Proof. vm_compute. reflexivity. Qed.

(** C102. Whatever the file is, no key and no value that is read begins with a quote; so the section
    shapes, compared with quoted names, are never recognised. *)
Theorem C102_unquoted : forall t attrs n rows r k v, read_tables t = Some attrs -> In (n, Some rows) attrs -> In r rows -> In (k, v) r ->
  (forall s, k <> (dquote ++ s)%string) /\ (forall s, v <> (dquote ++ s)%string).
Proof. exact c102_unquoted. Qed.
Print Assumptions C102_unquoted.
Definition shapes : table := ("FRAME SECTION PROPERTIES 01 - GENERAL", [[Field "SectionName" "H400" false false; Field "Shape" "I/Wide Flange" true false]]).
Example C102_unquoted_example : exists attrs, read_tables (text (all_lines "File" "" " " [shapes])) = Some attrs
  /\ dget (fst shapes) attrs = Some (Some [[("SectionName", "H400"); ("Shape", "I/Wide Flange")]])
  /\ forall k v, In (k, v) [("SectionName", "H400"); ("Shape", "I/Wide Flange")] -> v <> (dquote ++ "I/Wide Flange" ++ dquote)%string.
Proof.
  eexists. split; [vm_compute; reflexivity|]. split; [reflexivity|]. intros k v H.
  exact (proj2 (C102_unquoted (text (all_lines "File" "" " " [shapes])) _ _ _ _ k v eq_refl (or_introl eq_refl) (or_introl eq_refl) H) _).
Qed.

(** C102. Nothing is imported from files whose tables are read: the function stops at an undefined name. *)
Theorem C102_import_refuted : exists t attrs, read_tables t = Some attrs /\ attrs <> [] /\ import_s2k (Some t) = None.
Proof. exact c102_import_refuted. Qed.
Print Assumptions C102_import_refuted.
Example C102_import_refuted_example : read_tables (text (all_lines "File" "" " " [joints; frames])) <> None /\ import_s2k (Some (text (all_lines "File" "" " " [joints; frames]))) = None.
Proof. split; [vm_compute; discriminate|reflexivity]. Qed.

(** C103. What the dictionary of the load cases holds when no name occurs twice: what every case but
    the response spectra starts from. *)
Theorem C103_cases : forall block, NoDup (map lr_case block) -> forall n i,
  dget n (case_dict block []) = Some i <-> exists t, t <> "LinRespSpec" /\ In (LRow n t i) block.
Proof. exact case_dict_holds. Qed.
Print Assumptions C103_cases.
Definition five : list lrow := [LRow "S+D+L" "NonStatic" "S+D"; LRow "S" "NonStatic" "Zero"; LRow "quake" "LinRespSpec" "Zero"; LRow "S+D" "NonStatic" "S"; LRow "wind" "LinStatic" "Zero"].
Example C103_cases_example : dget "S+D" (case_dict five []) = Some "S" /\ dget "quake" (case_dict five []) = None.
Proof.
  split; [|reflexivity]. apply C103_cases; [keys_good|]. exists "NonStatic". split; [discriminate|]. cbn. tauto.
Qed.

(** C103. If the depths are found at all, each case gets the length of its chain down to one that starts
    from zero. *)
Theorem C103_depths : forall limit block l, give_depth limit (case_dict block []) = Some l ->
  map fst l = case_dict block [] /\ forall n f k, In (n, f, k) l -> stands_at (case_dict block []) n k.
Proof. exact c103_depths. Qed.
Print Assumptions C103_depths.
Example C103_depths_example : exists l, give_depth 10 (case_dict five []) = Some l /\ In ("S+D+L", "S+D", 3%nat) l /\ stands_at (case_dict five []) "S+D+L" 3.
Proof.
  destruct (give_depth 10 (case_dict five [])) as [l|] eqn:E; [|vm_compute in E; discriminate]. exists l. split; [reflexivity|].
  assert (I : In ("S+D+L", "S+D", 3%nat) l) by (vm_compute in E; injection E as <-; cbn; tauto). split; [exact I|].
  exact (proj2 (C103_depths 10 five l E) "S+D+L" "S+D" 3%nat I).
Qed.

(** C103. They are found when every case has a chain not longer than the limit of nested calls. *)
Theorem C103_returns : forall limit block, let d := case_dict block [] in
  (forall n f, dget n d = Some f -> exists k, stands_at d n k /\ (k <= limit)%nat) -> exists l, give_depth limit d = Some l.
Proof. exact c103_returns. Qed.
Print Assumptions C103_returns.
Lemma five_stand : forall n f, dget n (case_dict five []) = Some f -> exists k, stands_at (case_dict five []) n k /\ (k <= 3)%nat.
Proof.
  assert (A : stands_at (case_dict five []) "S" 1) by now apply StartsZero.
  assert (B : stands_at (case_dict five []) "S+D" 2) by (apply (Continues _ _ "S"); [reflexivity|discriminate|exact A]).
  assert (C : stands_at (case_dict five []) "S+D+L" 3) by (apply (Continues _ _ "S+D"); [reflexivity|discriminate|exact B]).
  assert (W : stands_at (case_dict five []) "wind" 1) by now apply StartsZero.
  intros n f E. apply in_dget in E. cbn in E. destruct E as [E|[E|[E|[E|[]]]]]; injection E as <- <-; [exists 3%nat|exists 1%nat|exists 2%nat|exists 1%nat]; (split; [assumption|lia]).
Qed.
Example C103_returns_example : exists l, give_depth 3 (case_dict five []) = Some l.
Proof. apply C103_returns. exact five_stand. Qed.

(** C103. If the chain of any case never ends, or meets a case that is not there, nothing is found. *)
Theorem C103_fails : forall limit block, let d := case_dict block [] in
  (exists n f, dget n d = Some f /\ forall k, ~ stands_at d n k) -> give_depth limit d = None.
Proof. exact c103_fails. Qed.
Print Assumptions C103_fails.
Definition ring : list lrow := [LRow "S" "NonStatic" "Zero"; LRow "A" "NonStatic" "B"; LRow "B" "NonStatic" "A"].
Lemma ring_stands : forall k, ~ stands_at (case_dict ring []) "A" k /\ ~ stands_at (case_dict ring []) "B" k.
Proof.
  induction k as [|k [IA IB]]; split; intros H; inversion H as [? E|? f j E Z H']; subst; try discriminate; cbn in E; injection E as <-; contradiction.
Qed.
Example C103_fails_example : give_depth 1000 (case_dict ring []) = None.
Proof. apply C103_fails. exists "A", "B". split; [reflexivity|]. intros k. apply ring_stands. Qed.

(** C103. Sorted by depth, every case stands after the one it starts from. *)
Theorem C103_sorted : forall limit block l, give_depth limit (case_dict block []) = Some l ->
  Permutation (map fst (sorted_cases l)) (case_dict block [])
  /\ forall n f, dget n (case_dict block []) = Some f -> f <> "Zero" ->
     exists g, dget f (case_dict block []) = Some g /\ earlier (f, g) (n, f) (map fst (sorted_cases l)).
Proof. exact c103_sorted. Qed.
Print Assumptions C103_sorted.
Example C103_sorted_example : exists l, give_depth 10 (case_dict five []) = Some l /\ map fst (sorted_cases l) = [("S", "Zero"); ("wind", "Zero"); ("S+D", "S"); ("S+D+L", "S+D")].
Proof. eexists. split; reflexivity. Qed.
Example C103_sorted_applies : exists l g, dget "S+D" (case_dict five []) = Some g /\ earlier ("S+D", g) ("S+D+L", "S+D") (map fst (sorted_cases l)).
Proof.
  destruct (C103_returns 10 five) as [l E]; [intros n f H; destruct (five_stand n f H) as [k [K L]]; exists k; split; [exact K|lia]|].
  destruct (proj2 (C103_sorted 10 five l E) "S+D+L" "S+D" eq_refl ltac:(discriminate)) as [g [G H]]. now exists l, g.
Qed.

(** C103. The chain of the chosen case: from one that starts from zero to the chosen one, each starting
    from the one before. *)
Theorem C103_chain : forall limit fuel block l n k, give_depth limit (case_dict block []) = Some l -> stands_at (case_dict block []) n k -> (k <= fuel)%nat ->
  exists c, case_chain fuel (case_dict block []) (depth_dict l) n = Some c
  /\ List.length c = k /\ last c "" = n /\ continues (case_dict block []) "Zero" c.
Proof. exact c103_chain. Qed.
Print Assumptions C103_chain.
Example C103_chain_example : exists l, give_depth 10 (case_dict five []) = Some l /\ case_chain 5 (case_dict five []) (depth_dict l) "S+D+L" = Some ["S"; "S+D"; "S+D+L"].
Proof. eexists. split; reflexivity. Qed.
Example C103_chain_applies : exists l c, case_chain 3 (case_dict five []) (depth_dict l) "S+D+L" = Some c /\ List.length c = 3%nat /\ continues (case_dict five []) "Zero" c.
Proof.
  destruct (C103_returns 3 five five_stand) as [l E].
  assert (K : stands_at (case_dict five []) "S+D+L" 3).
  { apply (Continues _ _ "S+D"); [reflexivity|discriminate|]. apply (Continues _ _ "S"); [reflexivity|discriminate|]. now apply StartsZero. }
  destruct (C103_chain 3 3 five l "S+D+L" 3 E K ltac:(lia)) as [c [C1 [C2 [_ C4]]]]. now exists l, c.
Qed.

(** C103. The other ordering routine gives back the same cases, each nonlinear one behind the one it
    starts from. *)
Theorem C103_order : forall fuel block r, sort_load_case fuel block = Some r ->
  Permutation r block /\ forall p x q, r = p ++ x :: q -> lr_type x = "NonStatic" -> lr_init x <> "Zero" -> exists y, In y p /\ lr_case y = lr_init x.
Proof. exact c103_order. Qed.
Print Assumptions C103_order.
Example C103_order_example : exists r, sort_load_case 5 five = Some r /\ map lr_case r = ["S"; "quake"; "wind"; "S+D"; "S+D+L"]
  /\ exists y, In y (firstn 4 r) /\ lr_case y = "S+D".
Proof.
  destruct (sort_load_case 5 five) as [r|] eqn:E; [|vm_compute in E; discriminate]. exists r. split; [reflexivity|].
  assert (X := E). vm_compute in X. injection X as X. split; [now rewrite <- X|].
  exact (proj2 (C103_order 5 five r E) (firstn 4 r) (LRow "S+D+L" "NonStatic" "S+D") [] ltac:(rewrite <- X; reflexivity) eq_refl ltac:(discriminate)).
Qed.

(** C103. It ends for just those lists in which every case can be placed; for the others it runs forever. *)
Theorem C103_ends : forall block, (exists fuel r, sort_load_case fuel block = Some r) <-> (forall x, In x block -> placeable (map triple block) (triple x)).
Proof. exact c103_ends. Qed.
Print Assumptions C103_ends.
Example C103_ends_example : forall fuel, sort_load_case fuel ring = None.
Proof.
  assert (K : forall t, placeable (map triple ring) t -> t <> ("A", "NonStatic", "B") /\ t <> ("B", "NonStatic", "A")).
  { induction 1 as [n t i I C|n t i u j I P [IH1 IH2]].
    - split; intros E; injection E as -> -> ->; destruct C; congruence.
    - split; intros E; injection E as -> -> ->.
      + inversion P as [? ? ? J _|? ? ? ? ? J _]; subst; cbn in J; destruct J as [J|[J|[J|[]]]]; injection J; intros; subst; congruence.
      + inversion P as [? ? ? J _|? ? ? ? ? J _]; subst; cbn in J; destruct J as [J|[J|[J|[]]]]; injection J; intros; subst; congruence. }
  intros fuel. destruct (sort_load_case fuel ring) as [r|] eqn:E; [|reflexivity]. exfalso.
  assert (H := proj1 (C103_ends ring) (ex_intro _ fuel (ex_intro _ r E)) (LRow "A" "NonStatic" "B") ltac:(cbn; tauto)).
  exact (proj1 (K _ H) eq_refl).
Qed.

(** C103. It needs no more passes than there are cases. *)
Theorem C103_passes : forall block, (forall x, In x block -> placeable (map triple block) (triple x)) -> exists r, sort_load_case (List.length block) block = Some r.
Proof. exact c103_passes. Qed.
Print Assumptions C103_passes.
Example C103_passes_example : exists r, sort_load_case 5 five = Some r.
Proof.
  apply (C103_passes five).
  assert (A : placeable (map triple five) ("S", "NonStatic", "Zero")) by (apply PlaceFree; [cbn; tauto|now right]).
  assert (B : placeable (map triple five) ("S+D", "NonStatic", "S")) by (apply (PlaceAfter _ _ _ _ "NonStatic" "Zero"); [cbn; tauto|exact A]).
  assert (C : placeable (map triple five) ("S+D+L", "NonStatic", "S+D")) by (apply (PlaceAfter _ _ _ _ "NonStatic" "S"); [cbn; tauto|exact B]).
  intros x [<-|[<-|[<-|[<-|[<-|[]]]]]]; try assumption; (apply PlaceFree; [cbn; tauto|left; discriminate]).
Qed.
