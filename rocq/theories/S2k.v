(** The reader of SAP2000 text files, hyperstatic/app/general/io/s2k.py: the tables (lines 22-74)
    and the order of the load cases (lines 263-280, 348-366, 379-400, 433-452).  Strings are lists
    of characters of one byte. *)
From Coq Require Import List String Ascii Bool Arith.
From Verif Require Import Base.
Import ListNotations.
Local Open Scope string_scope.
Local Open Scope list_scope.

(** ** Text *)
Definition quote : ascii := "034"%char.
Definition newline : ascii := "010"%char.
Definition blank : ascii := " "%char.
Definition one_char (c : ascii) : string := String c EmptyString.
(** python's [p in s] *)
Fixpoint contains (p s : string) : bool :=
  (String.prefix p s || match s with EmptyString => false | String _ r => contains p r end)%bool.
(** iterating over a text file: the lines with their line ends; the last one may lack it *)
Fixpoint lines_from (cur s : string) : list string :=
  match s with
  | EmptyString => if String.eqb cur "" then [] else [cur]
  | String c r => if Ascii.eqb c newline then (cur ++ one_char c)%string :: lines_from "" r else lines_from (cur ++ one_char c)%string r
  end.
Definition lines_of (s : string) : list string := lines_from "" s.

(** ** Rows *)
(** s2k.py:22-34 [split_row]; a token that no blank or line end follows is dropped *)
Fixpoint split_from (flag : bool) (temp s : string) : list string :=
  match s with
  | EmptyString => []
  | String c r =>
      let flag' := if Ascii.eqb c quote then negb flag else flag in
      if (flag' || (negb (Ascii.eqb c blank) && negb (Ascii.eqb c newline)))%bool then split_from flag' (temp ++ one_char c)%string r
      else if String.eqb temp "" then split_from flag' "" r
      else temp :: split_from flag' "" r
  end.
Definition split_row (s : string) : list string := split_from false "" s.
(** s.split('=', 1): None if there is no '=' *)
Fixpoint cut_equal (s : string) : option (string * string) :=
  match s with
  | EmptyString => None
  | String c r => if Ascii.eqb c "=" then Some ("", r) else bindO (cut_equal r) (fun p => Some (String c (fst p), snd p))
  end.
(** [strip] of the quote character at both ends of a string *)
Fixpoint lstrip (s : string) : string := match s with String c r => if Ascii.eqb c quote then lstrip r else s | EmptyString => s end.
Fixpoint rstrip (s : string) : string :=
  match s with
  | EmptyString => EmptyString
  | String c r => match rstrip r with
                  | EmptyString => if Ascii.eqb c quote then EmptyString else one_char c
                  | t => String c t
                  end
  end.
Definition strip (s : string) : string := rstrip (lstrip s).
(** s2k.py:46-47: the dictionary of one row; ValueError for a token without '=' *)
Fixpoint row_dict (toks : list string) (d : dict string) : option (dict string) :=
  match toks with
  | [] => Some d
  | t :: r => bindO (cut_equal t) (fun p => row_dict r (dset (strip (fst p)) (strip (snd p)) d))
  end.

(** params[-2]; IndexError for shorter lines *)
Fixpoint second_last (s : string) : option ascii :=
  match s with
  | String c (String _ EmptyString) => Some c
  | String _ r => second_last r
  | EmptyString => None
  end.
(** params[:-2] *)
Fixpoint but_two (s : string) : string :=
  match s with
  | String c ((String _ (String _ _)) as r) => String c (but_two r)
  | _ => EmptyString
  end.
(** what the lines 41-43 and 49-51 leave: StopIteration, another exception, or a row *)
Inductive joined : Type := JStop | JRaise | JRow (row : string) (rest : list string).
Fixpoint join_lines (p : string) (rest : list string) : joined :=
  match second_last p with
  | None => JRaise
  | Some c => if Ascii.eqb c "_"
              then match rest with [] => JStop | q :: r => join_lines (but_two p ++ q)%string r end
              else JRow p rest
  end.
(** s2k.py:37-54 [parse_lines].  Outer None: an exception; inner None: the function ends without
    [return], at a row without tokens.  [fuel] only bounds the recursion: one more than the lines. *)
Fixpoint parse_from (fuel : nat) (lines : list string) (data : list (dict string)) : option (option (list (dict string))) :=
  match fuel with
  | O => None
  | S k =>
      match lines with
      | [] => Some (Some data)
      | p :: rest =>
          match join_lines p rest with
          | JStop => Some (Some data)
          | JRaise => None
          | JRow row rest' =>
              match split_row row with
              | [] => Some None
              | toks => bindO (row_dict toks []) (fun d => parse_from k rest' (data ++ [d]))
              end
          end
      end
  end.
Definition parse_lines (lines : list string) : option (option (list (dict string))) := parse_from (S (List.length lines)) lines [].

(** ** Tables *)
(** s2k.py:61-68; IndexError for a line before the first table.  The blocks are kept in reverse
    order, each in reverse order, as they are appended to at the end. *)
Fixpoint blocks_from (lines : list string) (bs : list (list string)) : option (list (list string)) :=
  match lines with
  | [] => Some (rev (map (@rev string) bs))
  | l :: r =>
      if contains "END TABLE DATA" l then blocks_from r bs
      else if contains "TABLE:" l then blocks_from r ([l] :: bs)
      else match bs with [] => None | b :: bs' => blocks_from r ((l :: b) :: bs') end
  end.
(** s2k.py:74: what stands after the first quote of the first line, up to the next one; IndexError
    without a quote *)
Fixpoint upto_quote (s : string) : string :=
  match s with String c r => if Ascii.eqb c quote then EmptyString else String c (upto_quote r) | EmptyString => EmptyString end.
Fixpoint title (s : string) : option string :=
  match s with EmptyString => None | String c r => if Ascii.eqb c quote then Some (upto_quote r) else title r end.
(** block[1:-1] *)
Definition inner (b : list string) : list string := removelast (tl b).
(** s2k.py:72-74 *)
Fixpoint tables_from (bs : list (list string)) (attrs : dict (option (list (dict string)))) : option (dict (option (list (dict string)))) :=
  match bs with
  | [] => Some attrs
  | b :: r => bindO (parse_lines (inner b)) (fun rows => bindO (title (hd "" b)) (fun n => tables_from r (dset n rows attrs)))
  end.
(** s2k.py:57-74: the tables of a file, given as its text *)
Definition read_tables (text : string) : option (dict (option (list (dict string)))) :=
  bindO (blocks_from (skipn 2 (lines_of text)) []) (fun bs => tables_from bs []).
(** s2k.py:12-78 [import_s2k], None if there is no such file: line 78 opens a file whose name is
    not defined, so that nothing after it is reached. *)
Definition import_s2k (text : option string) : option bool :=
  bindO text (fun t => bindO (read_tables t) (fun _ => None)).

(** ** Load cases *)
(** Rows of the table LOAD CASE DEFINITIONS as far as they are read: Case, Type, InitialCond. *)
Record lrow : Type := LRow { lr_case : string; lr_type : string; lr_init : string }.
Definition mem (s : string) (l : list string) : bool := existsb (String.eqb s) l.
(** s2k.py:264-272 [split] *)
Definition is_ready (known : list string) (x : lrow) : bool := (negb (String.eqb (lr_type x) "NonStatic") || mem (lr_init x) known)%bool.
Definition split_cases (block : list lrow) (known : list string) : list lrow * list lrow :=
  (filter (is_ready known) block, filter (fun x => negb (is_ready known x)) block).
(** s2k.py:276-279; None when the loop has not ended after [fuel] passes *)
Fixpoint sort_loop (fuel total : nat) (a b : list lrow) : option (list lrow) :=
  if Nat.ltb (List.length a) total then
    match fuel with
    | O => None
    | S k => let s := split_cases b (map lr_case a) in sort_loop k total (a ++ fst s) (snd s)
    end
  else Some a.
(** s2k.py:263-280 [sort_load_case] *)
Definition sort_load_case (fuel : nat) (block : list lrow) : option (list lrow) :=
  let s := split_cases block ["Zero"] in sort_loop fuel (List.length block) (fst s) (snd s).

(** s2k.py:350-366: the cases by name with what they start from; response spectra are left out *)
Fixpoint case_dict (block : list lrow) (d : dict string) : dict string :=
  match block with
  | [] => d
  | x :: r => if String.eqb (lr_type x) "LinRespSpec" then case_dict r d else case_dict r (dset (lr_case x) (lr_init x) d)
  end.
(** s2k.py:382-391 [recursionSort] with its cache; [limit] is the interpreter's bound on nested
    calls.  None: RecursionError, or KeyError for a case that is not there. *)
Fixpoint depth_of (limit : nat) (d : dict string) (n former : string) (cache : dict nat) : option (nat * dict nat) :=
  match limit with
  | O => None
  | S k =>
      match dget n cache with
      | Some r => Some (r, cache)
      | None =>
          if String.eqb former "Zero" then Some (1%nat, dset n 1%nat cache)
          else bindO (dget former d) (fun ff =>
               bindO (depth_of k d former ff cache) (fun rc =>
               Some (S (fst rc), dset n (S (fst rc)) (snd rc))))
      end
  end.
(** s2k.py:394-395 *)
Fixpoint depths_from (limit : nat) (d : dict string) (l : list (string * string)) (cache : dict nat) : option (list (string * string * nat)) :=
  match l with
  | [] => Some []
  | (n, f) :: r => bindO (depth_of limit d n f cache) (fun rc =>
                   bindO (depths_from limit d r (snd rc)) (fun t => Some ((n, f, fst rc) :: t)))
  end.
Definition give_depth (limit : nat) (d : dict string) : option (list (string * string * nat)) := depths_from limit d d [].
(** the depths as entries of the cases *)
Definition depth_dict (l : list (string * string * nat)) : dict nat := map (fun x => (fst (fst x), snd x)) l.
(** s2k.py:433: [sorted] keeps the order of equal depths *)
Fixpoint insert_case (x : string * string * nat) (l : list (string * string * nat)) : list (string * string * nat) :=
  match l with
  | [] => [x]
  | y :: r => if Nat.leb (snd x) (snd y) then x :: l else y :: insert_case x r
  end.
Definition sorted_cases (l : list (string * string * nat)) : list (string * string * nat) := fold_right insert_case [] l.
(** s2k.py:439-452 and 588: from the chosen case to one that starts from zero, turned round.
    [fuel] bounds the loop; KeyError for a case that is not there. *)
Fixpoint chain_from (fuel : nat) (d : dict string) (depth : dict nat) (n : string) : option (list string) :=
  match fuel with
  | O => None
  | S k =>
      bindO (dget n d) (fun former => bindO (dget n depth) (fun h =>
      if Nat.eqb h 1 then Some [n]
      else bindO (chain_from k d depth former) (fun l => Some (n :: l))))
  end.
Definition case_chain (fuel : nat) (d : dict string) (depth : dict nat) (n : string) : option (list string) :=
  bindO (chain_from fuel d depth n) (fun l => Some (rev l)).
