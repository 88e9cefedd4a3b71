(** The exchange of drawings with dxf files (app/general/io/dxf.py).  A file is the list of its entities; reading and writing it is
    ezdxf and not modelled.  Points are exact triples. *)
From Coq Require Import Reals List String Bool.
From Verif Require Import Base General.
Import ListNotations.
Local Open Scope R_scope.

(** ** dxf *)
Inductive entity : Type :=
| ELine (layer : string) (p q : point)
| EFace (layer : string) (v0 v1 v2 v3 : point)
| EOther (layer : string).
Definition layer_of (e : entity) : string := match e with ELine l _ _ | EFace l _ _ _ _ | EOther l => l end.
Definition same_point (p q : point) : bool :=
  match p, q with ((x, y), z), ((x', y'), z') => (Reqb x x' && Reqb y y' && Reqb z z')%bool end.
(** io/dxf.py:36-37 *)
Definition wanted (layers : list string) (e : entity) : bool :=
  match layers with [] => true | _ => existsb (String.eqb (layer_of e)) layers end.
(** io/dxf.py:35-39 *)
Definition dxf_lines (layers : list string) (frames : bool) (es : list entity) : list (point * point) :=
  flat_map (fun e => if wanted layers e then match e with ELine _ p q => if frames then [(p, q)] else [] | _ => [] end else []) es.
(** io/dxf.py:40-48 *)
Definition dxf_faces (layers : list string) (areas : bool) (es : list entity) : list (point * point * point * option point) :=
  flat_map (fun e => if wanted layers e then match e with
     | EFace _ a b c d => if areas then [(a, b, c, if same_point c d then None else Some d)] else []
     | _ => [] end else []) es.

(** What [import_dxf] answers: False, or True with a dictionary of names. *)
Inductive imported : Type := IFalse | ITrue (frames areas : option (list string)).
(** io/dxf.py:13-61 [import_dxf] of a file of the right extension that can be read.  The first name
    of [get_frame_section_names] and [get_area_section_names] is taken to be that of the first
    section stored.  [res,frames=False]
    raises; exceptions are answered by False without rollback. *)
Definition import_dxf (uuid : nat -> string) (es : list entity) (layers : list string) (frames areas : bool)
    (frm_sec area_sec : option string) (s : session) : session * imported :=
  match (match frm_sec with Some n => Some n | None => hd_error (dkeys (d_secs (s_db s))) end),
        (match area_sec with Some n => Some n | None => hd_error (dkeys (d_asecs (s_db s))) end) with
  | Some fsec, Some asec =>
      let ls := dxf_lines layers frames es in
      let fs := dxf_faces layers areas es in
      let (s1, r1) := match ls with [] => (s, Some None) | _ =>
        let (s1, a) := add_frame_batch uuid ls fsec s in
        (s1, match a with GNames names => Some (Some names) | _ => None end) end in
      match r1 with
      | None => (s1, IFalse)
      | Some fn =>
          match fs with
          | [] => (s1, ITrue fn None)
          | _ => let (s2, a) := add_area_batch fs asec s1 in
                 (s2, match a with GNames names => ITrue fn (Some names) | _ => IFalse end)
          end
      end
  | _, _ => (s, IFalse)
  end.

(** io/dxf.py:83: the ends of all frames, one call after the other *)
Fixpoint end_coors (names : list string) (s : session) : session * list answer :=
  match names with
  | [] => (s, [])
  | n :: r => let (s1, a) := get_frame_end_coors n s in let (s2, l) := end_coors r s1 in (s2, a :: l)
  end.
(** io/dxf.py:84-85: None cannot be sliced; lines are drawn on layer "0" *)
Definition line_of (a : answer) : option entity :=
  match a with GVals [x; y; z; x'; y'; z'] => Some (ELine "0" ((x, y), z) ((x', y'), z')) | _ => None end.
(** io/dxf.py:63-90 [export_dxf] to a path that exists; [clash]: the file exists and is not to be
    overwritten.  The file written, or False. *)
Definition export_dxf (clash : bool) (s : session) : session * option (list entity) :=
  if clash then (s, None)
  else let (s1, l) := end_coors (map fr_name (d_frames (s_db s))) s in (s1, mapM line_of l).
