(** The elements with the compiled kernels: what [integrate_K] computes from the C code. *)
From Coq Require Import Reals List Arith String Bool.
From Verif Require Import Base Csys Sections Element Kernels CText CTextT9 CTextDKT CTextGQ12 CTextDKQ.
Import ListNotations.
Local Open Scope R_scope.

(** DKGQ.py:31-41 and :45-54, DKT.py:28-37: [scheme.integrate] calls the kernel at every point and adds
    the weighted matrices; one that is no number spoils the sum. *)
Fixpoint integrate_c (q : scheme) (f : R -> R -> option mat) : option mat :=
  match q with
  | [] => Some zero_mat
  | p :: q' => match f (fst (fst p)) (snd (fst p)), integrate_c q' f with
               | Some A, Some B => Some (fun i j => snd p * A i j + B i j)
               | _, _ => None
               end
  end.

(** DKGQ.py:15-64 with meta/membranes/GQ12/metaGQ12.pyx and meta/plates/metaDKQ/metaDKQ.pyx *)
Definition quad_K_c (c2 : scheme) (s : shell) : option mat :=
  let E := m_E (ss_mat (sh_sec s)) in
  let mu := m_mu (ss_mat (sh_sec s)) in
  let t := ss_t (sh_sec s) in
  let xl := flat_map (fun n => local_xy (sh_csys s) (vsub (n_loc n) (cs_O (sh_csys s)))) (sh_nodes s) in
  let ty := ss_type (sh_sec s) in
  let Km := if (String.eqb ty "membrane" || String.eqb ty "shell")%bool
            then integrate_c c2 (fun xi eta => autofunc_c 12 cgq_code (call_with E mu t xi eta xl)) else Some zero_mat in
  let Kp := if (String.eqb ty "plate" || String.eqb ty "shell")%bool
            then integrate_c c2 (fun xi eta => autofunc_c 12 cdkq_code (call_with E mu t xi eta xl)) else Some zero_mat in
  match Km, Kp with
  | Some A, Some B => Some (place_quad A B)
  | _, _ => None
  end.

(** DKT.py:17-55 with meta/plates/metaDKT/metaDKT.pyx and meta/membranes/T9/metaT9.pyx *)
Definition tria_K_c (t2 : scheme) (s : shell) : option mat :=
  let E := m_E (ss_mat (sh_sec s)) in
  let mu := m_mu (ss_mat (sh_sec s)) in
  let t := ss_t (sh_sec s) in
  let xl := flat_map (fun n => local_xy (sh_csys s) (n_loc n)) (sh_nodes s) in
  match integrate_c t2 (fun xi eta => autofunc_c 9 cdkt_code (call_with E mu t xi eta xl)),
        autofunc_c 6 ct9_code (call_with E mu t 0 0 xl) with
  | Some P, Some M => Some (place_tria (fun i j => 2 * t * sh_area s * M i j) (fun i j => 2 * sh_area s * P i j))
  | _, _ => None
  end.

(** model.py:327-329, as [shell_K] *)
Definition shell_K_c (c2 t2 : scheme) (s : shell) : option mat :=
  if Nat.eqb (List.length (sh_nodes s)) 4 then quad_K_c c2 s else tria_K_c t2 s.
