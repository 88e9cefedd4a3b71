(** Proofs about the tables of SAP2000 text files. *)
From Coq Require Import List String Ascii Bool Arith Lia.
From Verif Require Import Base S2k SpecS2k.
Import ListNotations.
Local Open Scope string_scope.
Local Open Scope list_scope.

(** ** Strings *)
Lemma sapp_assoc : forall a b c : string, ((a ++ b) ++ c)%string = (a ++ b ++ c)%string.
Proof. induction a as [|x a IH]; intros b c; cbn; [reflexivity|]. now rewrite IH. Qed.
Lemma sapp_nil : forall a : string, (a ++ "")%string = a.
Proof. induction a as [|x a IH]; cbn; [reflexivity|]. now rewrite IH. Qed.
Lemma sapp_empty : forall a c s, (a ++ String c s)%string <> "".
Proof. intros [|x a] c s; discriminate. Qed.
Lemma sapp_cons' : forall a c s, ((a ++ one_char c) ++ s)%string = (a ++ String c s)%string.
Proof. intros. now rewrite sapp_assoc. Qed.
Lemma occurs_app : forall c a b, occurs c (a ++ b)%string <-> occurs c a \/ occurs c b.
Proof. intros c a b. induction a as [|x a IH]; cbn; [tauto|]. rewrite IH. tauto. Qed.

Lemma prefix_app : forall p b, String.prefix p (p ++ b)%string = true.
Proof. induction p as [|x p IH]; intros b; cbn; [now destruct b|]. destruct (ascii_dec x x); [apply IH|contradiction]. Qed.
Lemma prefix_inv : forall p s, String.prefix p s = true -> exists b, s = (p ++ b)%string.
Proof.
  induction p as [|x p IH]; intros s H; [now exists s|]. destruct s as [|y s]; [discriminate|]. cbn in H.
  destruct (ascii_dec x y) as [->|]; [|discriminate]. destruct (IH s H) as [b ->]. now exists b.
Qed.
Lemma contains_iff : forall p s, contains p s = true <-> within p s.
Proof.
  intros p. induction s as [|c s IH].
  - cbn [contains]. rewrite orb_false_r. split.
    + intros H. destruct (prefix_inv _ _ H) as [b E]. exists "", b. exact E.
    + intros [a [b E]]. destruct a; [|discriminate]. cbn in E. rewrite E. apply prefix_app.
  - cbn [contains]. rewrite orb_true_iff, IH. split.
    + intros [H|[a [b E]]]; [destruct (prefix_inv _ _ H) as [b E]; now exists "", b|]. exists (String c a), b. cbn. now rewrite E.
    + intros [a [b E]]. destruct a as [|x a]; [left; cbn in E; rewrite E; apply prefix_app|]. right. injection E as -> E. now exists a, b.
Qed.
Lemma contains_not : forall p s, ~ within p s -> contains p s = false.
Proof. intros p s H. destruct (contains p s) eqn:E; [|reflexivity]. exfalso. apply H. now apply contains_iff. Qed.

(** ** Lines *)
Definition ended (l : string) : Prop := exists b, l = (b ++ line_end)%string /\ ~ occurs newline b.
Lemma lines_line : forall b cur s, ~ occurs newline b -> lines_from cur (b ++ line_end ++ s)%string = ((cur ++ b) ++ line_end)%string :: lines_of s.
Proof.
  induction b as [|c b IH]; intros cur s H.
  - rewrite sapp_nil. reflexivity.
  - cbn in H. change ((String c b) ++ line_end ++ s)%string with (String c (b ++ line_end ++ s)). cbn [lines_from].
    destruct (Ascii.eqb c newline) eqn:E; [apply Ascii.eqb_eq in E; tauto|]. rewrite IH by tauto. now rewrite (sapp_cons' cur).
Qed.
Lemma text_cons : forall l ls, text (l :: ls) = (l ++ text ls)%string.
Proof. intros l [|m ls]; cbn; [now rewrite sapp_nil|reflexivity]. Qed.
Lemma lines_text : forall ls, Forall ended ls -> lines_of (text ls) = ls.
Proof.
  induction ls as [|l ls IH]; intros H; [reflexivity|]. inversion H as [|? ? [b [-> Hb]] H']; subst. rewrite text_cons, sapp_assoc.
  unfold lines_of. rewrite lines_line by exact Hb. cbn [append]. now rewrite (IH H').
Qed.

(** ** Continuation lines *)
Lemma second_last_app : forall s c d, second_last (s ++ String c (one_char d))%string = Some c.
Proof. induction s as [|x s IH]; intros c d; [reflexivity|]. cbn [append second_last]. rewrite IH. destruct s as [|y [|z s]]; reflexivity. Qed.
Lemma but_two_app : forall s c d, but_two (s ++ String c (one_char d))%string = s.
Proof.
  induction s as [|x s IH]; intros c d; [reflexivity|]. cbn [append]. specialize (IH c d). destruct s as [|y s]; [reflexivity|].
  cbn [append] in *. destruct (s ++ String c (one_char d))%string eqn:E; [destruct s; discriminate|].
  change (String x (but_two (String y (String a s0))) = String x (String y s)). now rewrite IH.
Qed.
(** the row on one line *)
Fixpoint flat (fs : list field) : string :=
  match fs with [] => line_end | f :: r => (entry_text f ++ (if broken f then " " else "") ++ flat r)%string end.
(** its last character before the line end is not an underscore *)
Definition solid (s : string) : Prop := exists a c, s = (a ++ String c line_end)%string /\ c <> "_"%char.
Lemma solid_app : forall a s, solid s -> solid (a ++ s)%string.
Proof. intros a s [b [c [-> H]]]. exists (a ++ b)%string, c. now rewrite sapp_assoc. Qed.
Lemma last_char : forall s, s = "" \/ exists a c, s = (a ++ one_char c)%string.
Proof.
  induction s as [|x s [->|[a [c ->]]]]; [now left|right; now exists "", x|right]. now exists (String x a), c.
Qed.
Lemma sapp_cons : forall a c s, (a ++ String c s)%string = ((a ++ one_char c) ++ s)%string.
Proof. intros. now rewrite sapp_assoc. Qed.
Lemma entry_solid : forall f, (quoted f = false -> forall v, value f <> (v ++ "_")%string) -> solid (entry_text f ++ line_end)%string.
Proof.
  intros f H. unfold entry_text, entry. rewrite !sapp_assoc. apply solid_app. apply solid_app.
  destruct (quoted f).
  - exists ("=" ++ dquote ++ value f)%string, "034"%char. split; [|discriminate]. rewrite !sapp_assoc. reflexivity.
  - destruct (last_char (value f)) as [E|[a [c E]]]; rewrite E.
    + exists "", "="%char. split; [reflexivity|discriminate].
    + exists ("=" ++ a)%string, c. split; [now rewrite !sapp_assoc|]. intros ->. exact (H eq_refl a E).
Qed.
Lemma flat_solid : forall fs, fs <> [] -> good_end fs -> solid (flat fs).
Proof.
  induction fs as [|f fs IH]; intros N H; [contradiction|]. cbn [flat]. destruct fs as [|g fs].
  - destruct (broken f) eqn:B.
    + apply solid_app. exists "", " "%char. split; [reflexivity|discriminate].
    + cbn [flat append]. apply entry_solid. intros Q v. exact (H [] f eq_refl Q B v).
  - apply solid_app. apply solid_app. apply IH; [discriminate|]. intros a x E. apply (H (f :: a) x). now rewrite E.
Qed.
Lemma join_rest : forall fs acc cur rest, solid (acc ++ cur ++ flat fs)%string ->
  exists l ls, row_lines cur fs = l :: ls /\ join_lines (acc ++ l)%string (ls ++ rest) = JRow (acc ++ cur ++ flat fs)%string rest.
Proof.
  induction fs as [|f fs IH]; intros acc cur rest S.
  - cbn [row_lines flat] in *. eexists _, []. split; [reflexivity|]. cbn [List.app]. destruct S as [a [c [E Hc]]].
    rewrite E. assert (F : second_last (a ++ String c line_end)%string = Some c) by apply second_last_app.
    destruct rest; cbn [join_lines]; rewrite F; destruct (Ascii.eqb_spec c "_"); try contradiction; reflexivity.
  - cbn [row_lines flat] in *. destruct (broken f) eqn:B.
    + eexists _, _. split; [reflexivity|].
      assert (E : (acc ++ cur ++ entry_text f ++ " _" ++ line_end)%string = ((acc ++ cur ++ entry_text f ++ " ") ++ String "_" (one_char newline))%string)
        by (rewrite !sapp_assoc; reflexivity).
      rewrite E. destruct (IH (acc ++ cur ++ entry_text f ++ " ")%string "" rest) as [l [ls [E1 E2]]]; [cbn [append]; rewrite !sapp_assoc; exact S|].
      rewrite E1. cbn [List.app]. cbn [join_lines]. rewrite second_last_app, but_two_app. cbn [Ascii.eqb Bool.eqb]. rewrite E2. cbn [append].
      now rewrite !sapp_assoc.
    + destruct (IH acc (cur ++ entry_text f)%string rest) as [l [ls [E1 E2]]]; [rewrite !sapp_assoc; cbn [append] in S; exact S|].
      exists l, ls. split; [exact E1|]. rewrite E2. rewrite !sapp_assoc. reflexivity.
Qed.

(** ** Tokens *)
Lemma split_plain : forall p flag temp s, ~ occurs quote p -> (flag = false -> ~ occurs blank p /\ ~ occurs newline p) ->
  split_from flag temp (p ++ s)%string = split_from flag (temp ++ p)%string s.
Proof.
  induction p as [|c p IH]; intros flag temp s Q B; cbn [append]; [now rewrite sapp_nil|]. cbn in Q. cbn [split_from].
  destruct (Ascii.eqb c quote) eqn:E; [apply Ascii.eqb_eq in E; tauto|].
  assert (T : (flag || (negb (Ascii.eqb c blank) && negb (Ascii.eqb c newline)))%bool = true).
  { destruct flag; [reflexivity|]. destruct (B eq_refl) as [B1 B2]. cbn in B1, B2.
    destruct (Ascii.eqb c blank) eqn:E1; [apply Ascii.eqb_eq in E1; tauto|].
    destruct (Ascii.eqb c newline) eqn:E2; [apply Ascii.eqb_eq in E2; tauto|]. reflexivity. }
  rewrite T. rewrite IH; [now rewrite sapp_cons, (sapp_assoc temp)|tauto|]. intros F. specialize (B F). cbn in B. tauto.
Qed.
Lemma split_quote : forall flag temp s, split_from flag temp (String quote s) = split_from (negb flag) (temp ++ dquote)%string s.
Proof. intros flag temp s. cbn [split_from]. rewrite Ascii.eqb_refl. destruct flag; reflexivity. Qed.
Lemma split_entry : forall f s, good_field f -> split_from false "" (entry f ++ s)%string = split_from false (entry f) s.
Proof.
  intros f s [HK [HV1 [HV2 HV3]]]. unfold entry. rewrite !sapp_assoc. cbn in HK.
  rewrite split_plain; [|apply HK; tauto|intros _; split; apply HK; tauto].
  assert (E : forall t u, split_from false t ("=" ++ u)%string = split_from false (t ++ "=")%string u) by reflexivity.
  rewrite E. cbn [append]. destruct (quoted f).
  - rewrite !sapp_assoc. change (dquote ++ value f ++ dquote ++ s)%string with (String quote (value f ++ dquote ++ s))%string.
    rewrite split_quote. cbn [negb]. rewrite split_plain; [|exact HV1|discriminate].
    change (dquote ++ s)%string with (String quote s). rewrite split_quote. cbn [negb]. now rewrite !sapp_assoc.
  - rewrite split_plain; [now rewrite !sapp_assoc|exact HV1|]. intros _. split; [exact (HV3 eq_refl)|exact HV2].
Qed.
Definition separator (c : ascii) : Prop := c = blank \/ c = newline.
Lemma split_skip : forall c s, separator c -> split_from false "" (String c s) = split_from false "" s.
Proof. intros c s [->| ->]; reflexivity. Qed.
Lemma split_emit : forall c t s, separator c -> t <> "" -> split_from false t (String c s) = t :: split_from false "" s.
Proof. intros c t s [->| ->] H; cbn; (destruct (String.eqb_spec t ""); [contradiction|reflexivity]). Qed.
Lemma flat_starts : forall fs, exists c s, separator c /\ flat fs = String c s.
Proof. intros [|f fs]; [exists newline, ""|eexists blank, _]; (split; [unfold separator; tauto|reflexivity]). Qed.
Lemma entry_some : forall f, entry f <> "".
Proof. intros f. unfold entry. destruct (key f); discriminate. Qed.
Lemma split_flat : forall fs, Forall good_field fs -> split_row (flat fs) = map entry fs.
Proof.
  unfold split_row. induction fs as [|f fs IH]; intros H; [reflexivity|]. inversion H as [|? ? Hf H']; subst. cbn [flat map].
  unfold entry_text. rewrite sapp_assoc. cbn [append]. rewrite !split_skip by (unfold separator; tauto). rewrite split_entry by exact Hf.
  destruct (flat_starts fs) as [c [s [Hc E]]]. specialize (IH H').
  destruct (broken f); cbn [append].
  - rewrite split_emit by (try apply entry_some; unfold separator; tauto). now rewrite IH.
  - rewrite E in IH |- *. rewrite split_emit by (try apply entry_some; exact Hc). rewrite split_skip in IH by exact Hc. now rewrite IH.
Qed.

(** ** Dictionaries *)
Lemma cut_entry : forall k v, ~ occurs "=" k -> cut_equal (k ++ "=" ++ v)%string = Some (k, v).
Proof.
  induction k as [|c k IH]; intros v H; [reflexivity|]. cbn in H. cbn [append cut_equal].
  destruct (Ascii.eqb c "=") eqn:E; [apply Ascii.eqb_eq in E; tauto|].
  change (String "=" v) with ("=" ++ v)%string. rewrite IH by tauto. reflexivity.
Qed.
Lemma lstrip_plain : forall s, ~ occurs quote s -> lstrip s = s.
Proof. intros [|c s] H; [reflexivity|]. cbn in *. destruct (Ascii.eqb c quote) eqn:E; [apply Ascii.eqb_eq in E; tauto|reflexivity]. Qed.
Lemma rstrip_app : forall s, ~ occurs quote s -> rstrip (s ++ dquote)%string = s /\ rstrip s = s.
Proof.
  induction s as [|c s IH]; intros H; [now split|]. cbn in H. destruct IH as [I1 I2]; [tauto|]. cbn [append rstrip]. rewrite I1, I2.
  assert (E : Ascii.eqb c quote = false) by (destruct (Ascii.eqb c quote) eqn:E; [apply Ascii.eqb_eq in E; tauto|reflexivity]).
  rewrite E. destruct s; now split.
Qed.
Lemma strip_plain : forall s, ~ occurs quote s -> strip s = s.
Proof. intros s H. unfold strip. rewrite lstrip_plain by exact H. now apply rstrip_app. Qed.
Lemma strip_quoted : forall s, ~ occurs quote s -> strip (dquote ++ s ++ dquote)%string = s.
Proof.
  intros s H. unfold strip. change (dquote ++ s ++ dquote)%string with (String quote (s ++ dquote)). cbn [lstrip]. rewrite Ascii.eqb_refl.
  destruct s as [|c s]; [reflexivity|]. cbn in H. cbn [append lstrip].
  destruct (Ascii.eqb c quote) eqn:E; [apply Ascii.eqb_eq in E; tauto|]. now apply (rstrip_app (String c s)).
Qed.
Lemma dset_fresh : forall (A : Type) k (v : A) d, ~ In k (map fst d) -> dset k v d = d ++ [(k, v)].
Proof.
  intros A k v d. induction d as [|[k' v'] d IH]; intros H; [reflexivity|]. cbn in H. cbn.
  destruct (String.eqb_spec k k') as [->|N]; [tauto|]. rewrite IH by tauto. reflexivity.
Qed.
Lemma row_dict_says : forall fs d, Forall good_field fs -> NoDup (map fst d ++ map key fs) ->
  row_dict (map entry fs) d = Some (d ++ row_says fs).
Proof.
  induction fs as [|f fs IH]; intros d H N; [cbn; now rewrite app_nil_r|]. inversion H as [|? ? Hf H']; subst. destruct Hf as [HK [HV _]].
  cbn [map row_dict]. cbn in HK. unfold entry at 1. rewrite cut_entry by (apply HK; tauto). cbn [bindO fst snd].
  rewrite strip_plain by (apply HK; tauto).
  assert (E : strip (if quoted f then dquote ++ value f ++ dquote else value f)%string = value f)
    by (destruct (quoted f); [now apply strip_quoted|now apply strip_plain]).
  rewrite E. cbn [map] in N. rewrite dset_fresh.
  - rewrite IH; [|exact H'|].
    + unfold row_says. cbn [map]. now rewrite <- app_assoc.
    + rewrite map_app. cbn. rewrite <- app_assoc. exact N.
  - apply NoDup_remove_2 in N. intros I. apply N. apply in_or_app. now left.
Qed.

(** ** Rows of a table *)
Lemma row_join : forall fs rest, good_row fs -> exists l ls, row_lines "" fs = l :: ls /\ join_lines l (ls ++ rest) = JRow (flat fs) rest.
Proof. intros fs rest [N [_ [_ [E _]]]]. apply (join_rest fs "" "" rest). cbn. now apply flat_solid. Qed.
Lemma parse_rows : forall rows fuel data, Forall good_row rows -> (List.length rows < fuel)%nat ->
  parse_from fuel (List.concat (map (row_lines "") rows)) data = Some (Some (data ++ map row_says rows)).
Proof.
  induction rows as [|fs rows IH]; intros fuel data H L; (destruct fuel as [|fuel]; [lia|]); [cbn; now rewrite app_nil_r|].
  inversion H as [|? ? Hf H']; subst. destruct (row_join fs (List.concat (map (row_lines "") rows)) Hf) as [l [ls [E1 E2]]].
  cbn [map List.concat]. rewrite E1. cbn [List.app parse_from]. rewrite E2.
  destruct Hf as [N [G [D _]]]. rewrite split_flat by exact G.
  destruct fs as [|f fs]; [contradiction|]. cbn [map].
  change (entry f :: map entry fs) with (map entry (f :: fs)). rewrite (row_dict_says (f :: fs) []) by (exact G || exact D).
  cbn [bindO List.app]. rewrite IH by (cbn in L; lia || exact H'). now rewrite <- app_assoc.
Qed.
Lemma row_lines_some : forall fs cur, (1 <= List.length (row_lines cur fs))%nat.
Proof. induction fs as [|f fs IH]; intros cur; cbn [row_lines]; [cbn; lia|]. destruct (broken f); cbn [List.length]; [lia|apply IH]. Qed.
Lemma rows_length : forall rows, (List.length rows <= List.length (List.concat (map (row_lines "") rows)))%nat.
Proof.
  induction rows as [|fs rows IH]; [cbn; lia|]. cbn [map List.concat List.length]. rewrite app_length.
  pose proof (row_lines_some fs ""). lia.
Qed.
Lemma parse_table : forall rows, Forall good_row rows -> parse_lines (List.concat (map (row_lines "") rows)) = Some (Some (map row_says rows)).
Proof. intros rows H. unfold parse_lines. apply (parse_rows rows); [exact H|]. pose proof (rows_length rows). lia. Qed.

(** ** Blocks *)
Lemma blocks_plain : forall ls rest b bs, Forall ordinary ls -> blocks_from (ls ++ rest) (b :: bs) = blocks_from rest ((rev ls ++ b) :: bs).
Proof.
  induction ls as [|l ls IH]; intros rest b bs H; [reflexivity|]. inversion H as [|? ? [H1 H2] H']; subst. cbn [List.app blocks_from].
  rewrite (contains_not _ _ H1), (contains_not _ _ H2), IH by exact H'. cbn [rev]. now rewrite <- app_assoc.
Qed.
Lemma rows_ordinary : forall rows, Forall good_row rows -> Forall ordinary (List.concat (map (row_lines "") rows)).
Proof.
  induction 1 as [|fs rows Hf H IH]; [constructor|]. cbn [map List.concat]. apply Forall_app. split; [apply Hf|exact IH].
Qed.
Lemma title_table : forall n, within "TABLE:" (title_line n).
Proof. intros n. exists "", ("  " ++ dquote ++ n ++ dquote ++ line_end)%string. reflexivity. Qed.
Lemma blocks_table : forall t ls rest bs, good_table t -> Forall ordinary ls ->
  blocks_from ((title_line (fst t) :: ls) ++ rest) bs = blocks_from rest (rev (title_line (fst t) :: ls) :: bs).
Proof.
  intros t ls rest bs [_ [_ [H _]]] O. cbn [List.app blocks_from]. rewrite (contains_not _ _ H).
  rewrite (proj2 (contains_iff _ _) (title_table (fst t))). rewrite blocks_plain by exact O. reflexivity.
Qed.
Lemma blocks_tables : forall gap ts rest bs, good_gap gap -> Forall good_table ts ->
  blocks_from (List.concat (map (table_lines gap) ts) ++ rest) bs = blocks_from rest (rev (map (@rev string) (map (table_lines gap) ts)) ++ bs).
Proof.
  intros gap ts rest bs G H. revert bs. induction H as [|t ts Ht H IH]; intros bs; [reflexivity|]. cbn [map List.concat]. rewrite <- app_assoc.
  unfold table_lines at 1. rewrite blocks_table; [|exact Ht|].
  - rewrite IH. cbn [rev]. rewrite <- app_assoc. reflexivity.
  - apply Forall_app. split; [apply rows_ordinary; apply Ht|]. constructor; [apply G|constructor].
Qed.
Lemma end_blocks : forall bs, blocks_from [end_line] bs = Some (rev (map (@rev string) bs)).
Proof. reflexivity. Qed.
Lemma rev_blocks : forall bs : list (list string), rev (map (@rev string) (rev (map (@rev string) bs))) = bs.
Proof.
  intros bs. rewrite <- map_rev, rev_involutive, map_map. rewrite <- (map_id bs) at 2. apply map_ext. intros a. apply rev_involutive.
Qed.
Lemma upto_name : forall n s, ~ occurs quote n -> upto_quote (n ++ String quote s)%string = n.
Proof.
  induction n as [|c n IH]; intros s H; [reflexivity|]. cbn in H. cbn [append upto_quote].
  destruct (Ascii.eqb c quote) eqn:E; [apply Ascii.eqb_eq in E; tauto|]. now rewrite IH by tauto.
Qed.
Lemma title_name : forall n, ~ occurs quote n -> title (title_line n) = Some n.
Proof. intros n H. unfold title_line. cbn. f_equal. apply (upto_name n line_end H). Qed.
Definition told (t : table) : string * option (list (dict string)) := (fst t, Some (table_says t)).
Lemma tables_told : forall (bl : table -> list string) ts bs attrs, Forall good_table ts -> NoDup (map fst attrs ++ map fst ts) ->
  (forall t, In t ts -> hd "" (bl t) = title_line (fst t) /\ inner (bl t) = List.concat (map (row_lines "") (snd t))) ->
  tables_from (map bl ts ++ bs) attrs = tables_from bs (attrs ++ map told ts).
Proof.
  intros bl ts bs. induction ts as [|t ts IH]; intros attrs H N B; [cbn; now rewrite app_nil_r|]. inversion H as [|? ? Ht H']; subst.
  destruct (B t (or_introl eq_refl)) as [B1 B2]. cbn [map List.app tables_from]. rewrite B1, B2, parse_table by apply Ht. cbn [bindO].
  rewrite title_name by apply Ht. cbn [bindO]. cbn [map] in N.
  rewrite dset_fresh.
  - rewrite IH; [|exact H'| |intros u Hu; apply B; now right].
    + cbn [map]. unfold told at 2. rewrite <- app_assoc. reflexivity.
    + rewrite map_app. cbn. rewrite <- app_assoc. exact N.
  - apply NoDup_remove_2 in N. intros I. apply N. apply in_or_app. now left.
Qed.
Lemma inner_table : forall gap t, inner (table_lines gap t) = List.concat (map (row_lines "") (snd t)).
Proof. intros gap t. unfold inner, table_lines. cbn [tl]. apply removelast_last. Qed.

(** ** The text *)
Lemma ended_line : forall b, ~ occurs newline b -> ended (b ++ line_end)%string.
Proof. intros b H. now exists b. Qed.
Lemma entry_plain : forall f, good_field f -> ~ occurs newline (entry_text f).
Proof.
  intros f [HK [_ [HV _]]] H. unfold entry_text, entry in H. apply occurs_app in H. destruct H as [H|H]; [cbn in H; intuition discriminate|].
  apply occurs_app in H. destruct H as [H|H]; [exact (HK newline ltac:(cbn; tauto) H)|]. apply occurs_app in H.
  destruct H as [H|H]; [cbn in H; intuition discriminate|]. destruct (quoted f); [|contradiction].
  apply occurs_app in H. destruct H as [H|H]; [cbn in H; intuition discriminate|]. apply occurs_app in H.
  destruct H as [H|H]; [contradiction|cbn in H; intuition discriminate].
Qed.
Lemma row_ended : forall fs cur, ~ occurs newline cur -> Forall good_field fs -> Forall ended (row_lines cur fs).
Proof.
  induction fs as [|f fs IH]; intros cur C H; cbn [row_lines]; [constructor; [now apply ended_line|constructor]|].
  inversion H as [|? ? Hf H']; subst. pose proof (entry_plain f Hf) as P. destruct (broken f).
  - constructor; [|apply IH; [tauto|exact H']].
    replace (cur ++ entry_text f ++ " _" ++ line_end)%string with ((cur ++ entry_text f ++ " _") ++ line_end)%string by now rewrite !sapp_assoc.
    apply ended_line. rewrite !occurs_app. intros [K|[K|K]]; [tauto|tauto|]. cbn in K. intuition discriminate.
  - apply IH; [rewrite occurs_app; tauto|exact H'].
Qed.
Lemma rows_ended : forall rows, Forall good_row rows -> Forall ended (List.concat (map (row_lines "") rows)).
Proof.
  induction 1 as [|fs rows Hf H IH]; [constructor|]. cbn [map List.concat]. apply Forall_app. split; [|exact IH].
  apply row_ended; [cbn; tauto|apply Hf].
Qed.
Lemma open_ended : forall t, good_table t -> Forall ended (open_table_lines t).
Proof.
  intros t [_ [H [_ R]]]. unfold open_table_lines. constructor; [|now apply rows_ended]. unfold title_line.
  replace ("TABLE:  " ++ dquote ++ fst t ++ dquote ++ line_end)%string with (("TABLE:  " ++ dquote ++ fst t ++ dquote) ++ line_end)%string
    by now rewrite !sapp_assoc.
  apply ended_line. rewrite !occurs_app. cbn. intuition discriminate.
Qed.
Lemma tables_ended : forall gap ts, good_gap gap -> Forall good_table ts -> Forall ended (List.concat (map (table_lines gap) ts)).
Proof.
  intros gap ts G. induction 1 as [|t ts Ht H IH]; [constructor|]. cbn [map List.concat]. apply Forall_app. split; [|exact IH].
  change (table_lines gap t) with (open_table_lines t ++ [(gap ++ line_end)%string]). apply Forall_app. split; [now apply open_ended|].
  constructor; [apply ended_line; apply G|constructor].
Qed.
Lemma end_ended : ended end_line.
Proof. apply (ended_line "END TABLE DATA"). cbn. intuition discriminate. Qed.

Lemma c102_reads : forall h1 h2 gap ts, ~ occurs line_char h1 -> ~ occurs line_char h2 -> good_gap gap -> Forall good_table ts -> NoDup (map fst ts) ->
  read_tables (text (all_lines h1 h2 gap ts)) = Some (map (fun t => (fst t, Some (table_says t))) ts).
Proof.
  intros h1 h2 gap ts H1 H2 G H N. unfold read_tables. rewrite lines_text.
  - unfold all_lines. cbn [List.app skipn]. rewrite blocks_tables by assumption. rewrite app_nil_r, end_blocks. cbn [bindO]. rewrite rev_blocks.
    rewrite <- (app_nil_r (map (table_lines gap) ts)).
    rewrite (tables_told (table_lines gap) ts [] []); [reflexivity|exact H|exact N|].
    intros t _. split; [reflexivity|apply inner_table].
  - unfold all_lines. constructor; [now apply ended_line|]. constructor; [now apply ended_line|]. apply Forall_app.
    split; [now apply tables_ended|]. constructor; [apply end_ended|constructor].
Qed.

(** without a line between the last table and the end, the last row is lost *)
Lemma c102_last : forall h1 h2 gap ts n rows fs, ~ occurs line_char h1 -> ~ occurs line_char h2 -> good_gap gap -> Forall good_table ts ->
  good_table (n, rows ++ [fs]) -> NoDup (map fst ts ++ [n]) -> (forall f, In f fs -> broken f = false) ->
  read_tables (text (short_lines h1 h2 gap ts (n, rows ++ [fs])))
  = Some (map (fun t => (fst t, Some (table_says t))) ts ++ [(n, Some (map row_says rows))]).
Proof.
  intros h1 h2 gap ts n rows fs H1 H2 G H T N F. unfold read_tables.
  assert (ONE : forall l cur, (forall f, In f l -> broken f = false) -> exists x, row_lines cur l = [x]).
  { induction l as [|f l IH]; intros cur K; cbn [row_lines]; [now eexists|]. rewrite (K f (or_introl eq_refl)). apply IH. intros g Hg. apply K. now right. }
  destruct (ONE fs "" F) as [x X].
  assert (GR : Forall good_row rows). { destruct T as [_ [_ [_ T]]]. cbn in T. apply Forall_app in T. apply T. }
  rewrite lines_text.
  - unfold short_lines. cbn [List.app skipn]. rewrite blocks_tables by assumption. unfold open_table_lines. cbn [fst snd].
    rewrite (blocks_table (n, rows ++ [fs])); [|exact T|apply rows_ordinary; apply T]. rewrite app_nil_r, end_blocks. cbn [bindO].
    cbn [map]. cbn [rev]. rewrite rev_blocks. rewrite rev_app_distr, rev_involutive. cbn [rev List.app].
    rewrite (tables_told (table_lines gap) ts); [|exact H| |intros t _; split; [reflexivity|apply inner_table]].
    + cbn [List.app tables_from fst hd]. unfold inner. cbn [tl]. rewrite map_app, concat_app. cbn [map List.concat]. rewrite X. cbn [List.app].
      rewrite removelast_last. rewrite parse_table by exact GR. cbn [bindO]. rewrite title_name by apply T. cbn [bindO].
      rewrite dset_fresh; [reflexivity|]. rewrite map_map. cbn. apply NoDup_remove_2 in N. now rewrite app_nil_r in N.
    + cbn. apply NoDup_remove_1 in N. now rewrite app_nil_r in N.
  - unfold short_lines. constructor; [now apply ended_line|]. constructor; [now apply ended_line|]. apply Forall_app.
    split; [now apply tables_ended|]. apply Forall_app. split; [now apply open_ended|]. constructor; [apply end_ended|constructor].
Qed.

(** ** Quotes *)
Definition bare (s : string) : Prop := forall r, s <> String quote r.
Lemma lstrip_bare : forall s, bare (lstrip s).
Proof.
  induction s as [|c s IH]; cbn; [discriminate|]. destruct (Ascii.eqb c quote) eqn:E; [exact IH|]. intros r F. injection F as -> _.
  now rewrite Ascii.eqb_refl in E.
Qed.
Lemma rstrip_bare : forall s, bare s -> bare (rstrip s).
Proof.
  intros [|c s] H r E; [discriminate|]. cbn in E. destruct (rstrip s); [destruct (Ascii.eqb c quote); [discriminate|]|]; injection E as -> _;
    exact (H s eq_refl).
Qed.
Lemma strip_bare : forall s, bare (strip s).
Proof. intros s. apply rstrip_bare. apply lstrip_bare. Qed.
Definition bare_dict (d : dict string) : Prop := forall k v, In (k, v) d -> bare k /\ bare v.
Lemma bare_dset : forall k v d, bare k -> bare v -> bare_dict d -> bare_dict (dset k v d).
Proof.
  intros k v d Hk Hv. induction d as [|[k' v'] d IH]; intros H a b I; cbn in I.
  - destruct I as [E|[]]. injection E as <- <-. now split.
  - destruct (String.eqb k k').
    + destruct I as [E|I]; [injection E as <- <-; split; [apply (H k' v'); now left|exact Hv]|apply (H a b); now right].
    + destruct I as [E|I]; [apply (H a b); now left|]. apply IH; [|exact I]. intros x y J. apply (H x y). now right.
Qed.
Lemma row_dict_bare : forall toks d e, bare_dict d -> row_dict toks d = Some e -> bare_dict e.
Proof.
  induction toks as [|t toks IH]; intros d e H E; cbn in E; [now injection E as <-|]. destruct (cut_equal t) as [[a b]|]; [|discriminate]. cbn in E.
  apply (IH _ _ (bare_dset _ _ _ (strip_bare a) (strip_bare b) H) E).
Qed.
Lemma parse_bare : forall fuel lines data rows, Forall bare_dict data -> parse_from fuel lines data = Some (Some rows) -> Forall bare_dict rows.
Proof.
  induction fuel as [|fuel IH]; intros lines data rows H E; cbn [parse_from] in E; [discriminate|].
  destruct lines as [|p rest]; [now injection E as <-|]. destruct (join_lines p rest) as [| |row rest']; [now injection E as <-|discriminate|].
  destruct (split_row row) as [|t toks]; [discriminate|]. destruct (row_dict (t :: toks) []) as [d|] eqn:D; [|discriminate]. cbn [bindO] in E.
  apply (IH _ _ _ (proj2 (Forall_app _ _ _) (conj H (Forall_cons _ (row_dict_bare _ [] d ltac:(intros ? ? []) D) (Forall_nil _)))) E).
Qed.
Lemma dset_keeps : forall (A : Type) (P : A -> Prop) k v d, P v -> (forall x, In x d -> P (snd x)) -> forall x, In x (dset k v d) -> P (snd x).
Proof.
  intros A P k v d Hv. induction d as [|[k' v'] d IH]; intros H x I; cbn in I.
  - destruct I as [<-|[]]. exact Hv.
  - destruct (String.eqb k k').
    + destruct I as [<-|I]; [exact Hv|apply H; now right].
    + destruct I as [<-|I]; [apply (H (k', v')); now left|]. apply IH; [intros y J; apply H; now right|exact I].
Qed.
Lemma tables_bare : forall bs attrs e, (forall x, In x attrs -> forall rows, snd x = Some rows -> Forall bare_dict rows) ->
  tables_from bs attrs = Some e -> forall x, In x e -> forall rows, snd x = Some rows -> Forall bare_dict rows.
Proof.
  induction bs as [|b bs IH]; intros attrs e H E; cbn [tables_from] in E; [injection E as <-; exact H|].
  destruct (parse_lines (inner b)) as [o|] eqn:P; [|discriminate]. cbn [bindO] in E. destruct (title (hd "" b)) as [n|]; [|discriminate]. cbn [bindO] in E.
  apply (IH _ _ (dset_keeps _ (fun o => forall rows, o = Some rows -> Forall bare_dict rows) n o attrs
    ltac:(intros rows ->; exact (parse_bare _ _ [] _ (Forall_nil _) P)) H) E).
Qed.
Lemma c102_unquoted : forall t attrs n rows r k v, read_tables t = Some attrs -> In (n, Some rows) attrs -> In r rows -> In (k, v) r ->
  (forall s, k <> (dquote ++ s)%string) /\ (forall s, v <> (dquote ++ s)%string).
Proof.
  intros t attrs n rows r k v H I J K. unfold read_tables in H. destruct (blocks_from (skipn 2 (lines_of t)) []) as [bs|]; [|discriminate]. cbn [bindO] in H.
  assert (B := tables_bare bs [] attrs ltac:(intros ? []) H _ I rows eq_refl). rewrite Forall_forall in B. exact (B r J k v K).
Qed.

(** ** Witnesses *)
Definition joints : table :=
  ("JOINT COORDINATES", [[Field "Joint" "1" false false; Field "CoordSys" "GLOBAL SYSTEM" true true; Field "X" "0" false false];
                         [Field "Joint" "2" false false; Field "CoordSys" "" true false; Field "X" "6.5" false false]]).
Definition frames : table := ("CONNECTIVITY - FRAME", [[Field "Frame" "1" false false; Field "JointI" "1" false false; Field "JointJ" "2" false false]]).
Fixpoint occursb (c : ascii) (s : string) : bool := match s with EmptyString => false | String d r => (Ascii.eqb d c || occursb c r)%bool end.
Lemma occursb_not : forall c s, occursb c s = false -> ~ occurs c s.
Proof.
  intros c s. induction s as [|d s IH]; intros H; cbn in *; [tauto|]. apply orb_false_iff in H. destruct H as [H1 H2].
  intros [->|K]; [now rewrite Ascii.eqb_refl in H1|now apply IH].
Qed.
Lemma ordinary_by : forall l, contains "TABLE:" l = false -> contains "END TABLE DATA" l = false -> ordinary l.
Proof. intros l H1 H2. split; intros H; apply contains_iff in H; congruence. Qed.
Lemma end_by : forall fs f, last fs f = f -> (forall d, last fs d = f) -> (forall v, value f <> (v ++ "_")%string) -> good_end fs.
Proof. intros fs f _ H K a g E _ _ v. specialize (H g). rewrite E, last_last in H. subst g. apply K. Qed.
Lemma not_underscore : forall s, (forall a c, s = (a ++ one_char c)%string -> c <> "_"%char) -> forall v, s <> (v ++ "_")%string.
Proof. intros s H v E. exact (H v "_"%char E eq_refl). Qed.
(** the last character *)
Fixpoint final_char (d : ascii) (s : string) : ascii := match s with EmptyString => d | String c r => final_char c r end.
Lemma final_app : forall a d c, final_char d (a ++ one_char c)%string = c.
Proof. induction a as [|x a IH]; intros d c; [reflexivity|]. cbn. apply IH. Qed.
Lemma final_not : forall s, final_char " " s <> "_"%char -> forall v, s <> (v ++ "_")%string.
Proof. intros s H v E. apply H. rewrite E. apply final_app. Qed.
Ltac no_occurs := apply occursb_not; reflexivity.
Ltac field_good := split; [intros c Hc; cbn in Hc; destruct Hc as [<-|[<-|[<-|[<-|[]]]]]; no_occurs|
  split; [no_occurs|split; [no_occurs|intros Q; first [discriminate Q|no_occurs]]]].
Ltac fields_good := repeat (apply Forall_cons; [field_good|]); apply Forall_nil.
Ltac keys_good := cbn; repeat (apply NoDup_cons; [cbn; intuition discriminate|]); apply NoDup_nil.
Ltac row_good := split; [discriminate|split; [fields_good|split; [keys_good|split;
  [eapply end_by; [reflexivity|reflexivity|apply final_not; discriminate]|cbn [row_lines broken]; repeat (apply Forall_cons; [apply ordinary_by; reflexivity|]); apply Forall_nil]]]].
Lemma joints_good : good_table joints.
Proof.
  split; [no_occurs|]. split; [no_occurs|]. split; [intros H; apply contains_iff in H; discriminate|]. unfold joints. cbn [snd].
  apply Forall_cons; [row_good|]. apply Forall_cons; [row_good|]. apply Forall_nil.
Qed.
Lemma frames_good : good_table frames.
Proof.
  split; [no_occurs|]. split; [no_occurs|]. split; [intros H; apply contains_iff in H; discriminate|]. unfold frames. cbn [snd].
  apply Forall_cons; [row_good|]. apply Forall_nil.
Qed.
Lemma gap_good : good_gap " ".
Proof. split; [no_occurs|]. split; intros H; apply contains_iff in H; discriminate. Qed.
(** nothing is imported although the tables are read *)
Lemma c102_import_refuted : exists t attrs, read_tables t = Some attrs /\ attrs <> [] /\ import_s2k (Some t) = None.
Proof.
  exists (text (all_lines "File" "" " " [joints; frames])). eexists. split; [|split].
  - apply c102_reads; [no_occurs|no_occurs|exact gap_good| |keys_good].
    apply Forall_cons; [exact joints_good|]. apply Forall_cons; [exact frames_good|]. apply Forall_nil.
  - discriminate.
  - reflexivity.
Qed.
(** a row that ends in an underscore is run into the next one *)
Lemma c102_underscore_refuted : exists (t : table) rows, ~ occurs quote_char (fst t) /\ Forall (fun fs => fs <> [] /\ Forall good_field fs /\ NoDup (map key fs)) (snd t)
  /\ List.length (snd t) = 2%nat /\ read_tables (text (all_lines "File" "" " " [t])) = Some [(fst t, Some rows)] /\ List.length rows = 1%nat.
Proof.
  exists ("GROUPS", [[Field "GroupName" "A_" false false]; [Field "Color" "Red" false false]]). eexists. split; [no_occurs|]. split.
  - apply Forall_cons; [split; [discriminate|split; [fields_good|keys_good]]|]. apply Forall_cons; [split; [discriminate|split; [fields_good|keys_good]]|]. apply Forall_nil.
  - split; [reflexivity|]. split; [vm_compute; reflexivity|reflexivity].
Qed.
(** a second empty line after a table: the table is None instead of its rows *)
Lemma c102_gaps_refuted : exists t : table, good_table t /\ snd t <> []
  /\ read_tables (text ([("File" ++ line_end)%string; line_end] ++ table_lines " " t ++ [(" " ++ line_end)%string; end_line])) = Some [(fst t, None)].
Proof. exists frames. split; [exact frames_good|]. split; [discriminate|]. vm_compute. reflexivity. Qed.
