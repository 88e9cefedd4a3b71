(** Viewers: C97-C100.
    Only statements, each closed by a lemma proved elsewhere, with the assumptions it
    rests on and an instance of its hypotheses. *)
From Coq Require Import Reals Lra Lia List String Arith Bool ZArith Sorting.Permutation Sorting.Sorted.
From Verif Require Import Base BaseFacts Csys Sections Element Load FeModel Assembly Solver Post Api SpecApi ApiFacts CsysFacts Demo SolveDemo
  Viewer SpecViewer ViewerProofs ViewerProofs2 ViewerProofs3 ViewDemo.
Import ListNotations.
Local Open Scope string_scope.
Local Open Scope list_scope.
Local Open Scope R_scope.

(** C97. The viewer reads the file that [save] writes if the directory is absolute. *)
Theorem C97_file_partial wp fn : is_abs wp = true -> viewer_path wp fn = saved_path wp fn.
Proof. exact (c97_file wp fn). Qed.
Print Assumptions C97_file_partial.
Example C97_file_example : viewer_path "/home/me/work" "bridge" = "/home/me/work/bridge.sep".
Proof. rewrite C97_file_partial by reflexivity. reflexivity. Qed.

(** C97 is false of relative directories: the directory is put before the name twice. *)
Theorem C97_file_refuted : exists wp fn, wp <> ""%string /\ viewer_path wp fn <> saved_path wp fn.
Proof. exact c97_file_refuted. Qed.
Print Assumptions C97_file_refuted.


(** C97. The viewer opens exactly the models that have a node and no triangle. *)
Theorem C97_opens ext ops nodes shells :
  let w := final ext init ops in
  nodes_are ext w nodes -> shells_are ext w shells ->
  ((exists pic, open_view ext w = Some pic) <->
   (nodes <> [] /\ forall s, In s shells -> answer ext w (OpShellNodeNames s) <> RNone)).
Proof. exact (c97_opens ext ops nodes shells). Qed.
Print Assumptions C97_opens.
Example C97_opens_example : exists pic, open_view tip_solver (final tip_solver init seen_ops) = Some pic.
Proof.
  apply (C97_opens tip_solver seen_ops ["A"; "B"] []); try (rewrite seen_final; reflexivity).
  split; [discriminate|]. intros s [].
Qed.

(** C97 is false: a model with a triangle of three nodes is not opened. *)
Theorem C97_opens_refuted : exists ext ops l, answer ext (final ext init ops) OpNodeNames = RNames l /\ l <> []
  /\ answer ext (final ext init ops) OpShellNames = RNames ["t"] /\ open_view ext (final ext init ops) = None.
Proof. exact c97_opens_refuted. Qed.
Print Assumptions C97_opens_refuted.


(** C97. In an opened picture nodes, beams and shells are all there, at the places the interface gives for their nodes; the scale is half the largest extent; there is one cone for each restraint. *)
Theorem C97_picture ext ops pic :
  let w := final ext init ops in
  open_view ext w = Some pic ->
  drawn_at ext w (v_pts pic) (v_lines pic) (v_faces pic) (stands ext w)
  /\ half_extent ext w (v_scale pic)
  /\ (forall c, In c (v_cones pic) <->
        exists n p i, stands ext w n p /\ (i < 6)%nat /\ restrained ext w n i /\ cone_of (v_scale pic / 100) p i c).
Proof. exact (c97_picture ext ops pic). Qed.
Print Assumptions C97_picture.
Example C97_picture_example : exists pic, open_view tip_solver (final tip_solver init seen_ops) = Some pic /\ v_scale pic = 1 / 2
  /\ In (Cone (V3 (- 1 / 200) 0 0) (V3 1 0 0) false) (v_cones pic).
Proof.
  destruct C97_opens_example as (pic & O). exists pic. split; [exact O|].
  destruct (C97_picture tip_solver seen_ops pic O) as (_ & HE & CN).
  rewrite seen_final in *. assert (S : v_scale pic = 1 / 2).
  { destruct HE as [H (m & n & p & q & Hm & Hn & E)].
    assert (PL : forall k x, stands tip_solver seen_world k x -> x = V3 0 0 0 \/ x = V3 1 0 0).
    { intros k x Hx. apply places_get, dget_some_in in Hx. destruct Hx as [Hx|[Hx|[]]]; inversion Hx; auto. }
    destruct (H "A" "B" (V3 0 0 0) (V3 1 0 0) eq_refl eq_refl) as [X _]. cbn [vx] in X. rewrite Rabs_left in X by lra.
    destruct (PL _ _ Hm) as [-> | ->], (PL _ _ Hn) as [-> | ->]; cbn [vx vy vz] in E; destruct E as [E|[E|E]]; lra. }
  split; [exact S|]. apply CN. exists "A", (V3 0 0 0), 0%nat. split; [reflexivity|]. split; [lia|]. split.
  - exists [("A", list6 all_fixed)], (list6 all_fixed). repeat split.
  - rewrite S. unfold cone_of, vsub, vscale, unit_axis; cbn [vx vy vz Nat.ltb Nat.leb]. f_equal. apply vec3_eq; cbn [vx vy vz]; field.
Qed.

(** C97. The line of a beam is where the interface says that the beam is, if no node was added a second time. *)
Theorem C97_beams_partial ext ops pic b p q :
  never_readds_nodes ext ops -> open_view ext (final ext init ops) = Some pic ->
  answer ext (final ext init ops) (OpBeamLocation b) = RVec3s p q -> lookup b (v_lines pic) = Some (p, q).
Proof. exact (c97_beams ext ops pic b p q). Qed.
Print Assumptions C97_beams_partial.
Example C97_beams_example : exists pic, open_view tip_solver (final tip_solver init seen_ops) = Some pic
  /\ lookup "b" (v_lines pic) = Some (V3 0 0 0, V3 1 0 0).
Proof.
  destruct C97_opens_example as (pic & O). exists pic. split; [exact O|].
  apply (C97_beams_partial tip_solver seen_ops pic "b"); [apply seen_fresh|exact O|rewrite seen_final; reflexivity].
Qed.

(** C97 is false once a node was added a second time: the beam is drawn to the new place, the interface gives the old one. *)
Theorem C97_beams_refuted : exists ext ops pic b p q, open_view ext (final ext init ops) = Some pic
  /\ answer ext (final ext init ops) (OpBeamLocation b) = RVec3s p q /\ exists q', lookup b (v_lines pic) = Some (p, q') /\ q' <> q.
Proof. exact c97_beams_refuted. Qed.
Print Assumptions C97_beams_refuted.


(** C98. A deformation is shown exactly if every node has a displacement in "case1". *)
Theorem C98_shows ext ops pic k a :
  let w := final ext init ops in
  open_view ext w = Some pic ->
  ((exists g, show_deformation ext w pic k a = Some g) <-> all_displaced ext w).
Proof. exact (c98_shows ext ops pic k a). Qed.
Print Assumptions C98_shows.
Example C98_shows_example : exists pic g, open_view tip_solver (final tip_solver init seen_solved) = Some pic
  /\ show_deformation tip_solver (final tip_solver init seen_solved) pic 10 AZ = Some g.
Proof.
  destruct seen_open as (r & cones & O). destruct seen_solved_world as (K & F).
  eexists.
  destruct (proj2 (C98_shows tip_solver seen_solved _ 10 AZ O) seen_displaced) as (g & G). exists g. split; [exact O|exact G].
Qed.

(** C98. What is shown is the model with each node moved by its displacement times the scale, its lines and faces between the moved nodes, coloured by the component asked for. *)
Theorem C98_deformed ext ops pic k a g :
  let w := final ext init ops in
  open_view ext w = Some pic -> show_deformation ext w pic k a = Some g -> deformed ext w k a g.
Proof. exact (c98_deformed ext ops pic k a g). Qed.
Print Assumptions C98_deformed.
Example C98_deformed_example : exists pic g, open_view tip_solver (final tip_solver init seen_solved) = Some pic
  /\ show_deformation tip_solver (final tip_solver init seen_solved) pic 10 AX = Some g /\ lookup "B" (g_pts g) = Some (V3 21 0 0).
Proof.
  destruct seen_open as (r & cones & O). destruct seen_solved_world as (K & F).
  eexists. eexists.
  pose proof (seen_bent 10 r cones) as B. split; [exact O|]. split; [exact B|].
  apply (proj1 (C98_deformed tip_solver seen_solved _ 10 AX _ O B)). exists (V3 1 0 0), (V3 2 0 0). split; [|split].
  - rewrite F. reflexivity.
  - rewrite F. exists [2;0;0;0;0;0], [0;0;0]. split; reflexivity.
  - unfold vadd, vscale; cbn [vx vy vz]. apply vec3_eq; cbn [vx vy vz]; ring.
Qed.

(** C98. Whatever buttons were pressed, the drawing is the one asked for last and the buttons say so. *)
Theorem C98_window ext ops pic l s :
  let w := final ext init ops in
  open_view ext w = Some pic -> presses ext w pic (open_window pic) l = Some s ->
  match wanted l 0 None with
  | None => plain_drawing ext w (r_shown s) /\ (forall b, is_on b s = false)
  | Some (a, k) => deformed ext w k a (r_shown s) /\ (forall b, is_on b s = true <-> b = a)
  end.
Proof. exact (c98_window ext ops pic l s). Qed.
Print Assumptions C98_window.
Example C98_window_example : exists pic s, open_view tip_solver (final tip_solver init seen_solved) = Some pic
  /\ presses tip_solver (final tip_solver init seen_solved) pic (open_window pic) [PSlide 3; PDeform AX; PDeform AX; PSlide 10; PDeform AX; PNode] = Some s
  /\ deformed tip_solver (final tip_solver init seen_solved) 10 AX (r_shown s).
Proof.
  destruct seen_open as (r & cones & O). destruct seen_solved_world as (K & F).
  assert (P : presses tip_solver (final tip_solver init seen_solved) (Picture seen_pts [("A", 0%nat); ("B", 1%nat)] [("b", (V3 0 0 0, V3 1 0 0))] [] r cones)
    (open_window (Picture seen_pts [("A", 0%nat); ("B", 1%nat)] [("b", (V3 0 0 0, V3 1 0 0))] [] r cones)) [PSlide 3; PDeform AX; PDeform AX; PSlide 10; PDeform AX; PNode] <> None).
  { cbn [presses handle bindO open_window r_x r_y r_z r_node r_old r_new r_shown negb fst snd is_on r_scale]. rewrite seen_bent.
    cbn [presses handle bindO switch redraw r_x r_y r_z r_node r_old r_new r_shown negb fst snd is_on r_scale]. rewrite seen_bent. discriminate. }
  destruct (presses _ _ _ _ _) as [s|] eqn:E; [|congruence]. eexists. exists s. split; [exact O|]. split; [exact E|]. exact (proj1 (C98_window tip_solver seen_solved _ _ s O E)).
Qed.

(** C98. If the node button was not pressed before the first deformation, the nodes seen are those of the drawing, or none. *)
Theorem C98_nodes_partial ext w pic l s : nodes_later l -> presses ext w pic (open_window pic) l = Some s ->
  seen_nodes s = [] \/ seen_nodes s = map snd (g_pts (r_shown s)).
Proof. exact (c98_nodes ext w pic l s). Qed.
Print Assumptions C98_nodes_partial.
Example C98_nodes_example : exists pic s, open_view tip_solver (final tip_solver init seen_solved) = Some pic
  /\ presses tip_solver (final tip_solver init seen_solved) pic (open_window pic) [PSlide 10; PDeform AX; PNode] = Some s
  /\ nodes_later [PSlide 10; PDeform AX; PNode] /\ seen_nodes s = map snd (bent_pts 10).
Proof.
  destruct seen_open as (r & cones & O). destruct seen_solved_world as (K & F).
  eexists. eexists. split; [exact O|]. split; [|split; [exact I|]].
  - cbn [presses handle bindO open_window r_x r_y r_z r_node r_old r_new r_shown negb fst snd is_on r_scale]. rewrite seen_bent. reflexivity.
  - reflexivity.
Qed.

(** C98 is false: pressed before, the undeformed nodes stay visible beside the deformed drawing. *)
Theorem C98_nodes_refuted : exists ext ops pic l s n o u, let w := final ext init ops in
  open_view ext w = Some pic /\ presses ext w pic (open_window pic) l = Some s
  /\ stands ext w n o /\ displaced_by ext w n u /\ u <> V3 0 0 0 /\ r_scale s <> 0
  /\ wanted l 0 None = Some (AX, r_scale s) /\ In o (seen_nodes s) /\ ~ In o (map snd (g_pts (r_shown s))).
Proof. exact c98_nodes_refuted. Qed.
Print Assumptions C98_nodes_refuted.


(** C98 is false: after a reset no nodes are seen though the button offers to hide them. *)
Theorem C98_label_refuted : exists ext ops pic l s, let w := final ext init ops in
  open_view ext w = Some pic /\ presses ext w pic (open_window pic) l = Some s
  /\ nodes_later l /\ r_node s = true /\ seen_nodes s = [].
Proof. exact c98_label_refuted. Qed.
Print Assumptions C98_label_refuted.


(** C99. The arrows can be drawn exactly if a node of the model has a load in "pat1". *)
Theorem C99_opens ext ops pic : let w := final ext init ops in
  (exists arrows, load_arrows ext w pic = Some arrows) <-> (exists n f, force_on ext w n f).
Proof. exact (c99_opens ext ops pic). Qed.
Print Assumptions C99_opens.
Example C99_opens_example : exists pic arrows, open_view tip_solver (final tip_solver init seen_ops) = Some pic
  /\ load_arrows tip_solver (final tip_solver init seen_ops) pic = Some arrows.
Proof.
  destruct C97_opens_example as (pic & O). exists pic.
  destruct (proj2 (C99_opens tip_solver seen_ops pic)) as (arrows & A); [|exists arrows; split; [exact O|exact A]].
  exists "B", (V3 1 0 0). rewrite seen_final. apply seen_force.
Qed.

(** C99. Each loaded node has one arrow; it ends at the node and runs along the force, all to one scale, the longest a fifth of the half extent of the model. *)
Theorem C99_arrows ext ops pic arrows : let w := final ext init ops in
  open_view ext w = Some pic -> load_arrows ext w pic = Some arrows ->
  exists k ns, 0 <= k /\ NoDup ns /\ (forall n, In n ns <-> exists f, force_on ext w n f)
    /\ Forall2 (arrow_of ext w k) ns arrows
    /\ ((exists n f, force_on ext w n f /\ f <> V3 0 0 0) ->
        (forall ar, In ar arrows -> arrow_length ar <= v_scale pic / 5)
        /\ exists ar, In ar arrows /\ arrow_length ar = v_scale pic / 5).
Proof. exact (c99_arrows ext ops pic arrows). Qed.
Print Assumptions C99_arrows.
Example C99_arrows_example : exists pic arrows ar, open_view tip_solver (final tip_solver init seen_ops) = Some pic
  /\ load_arrows tip_solver (final tip_solver init seen_ops) pic = Some arrows /\ In ar arrows /\ arrow_length ar = 1 / 10.
Proof.
  destruct C99_opens_example as (pic & arrows & O & A).
  destruct (C99_arrows tip_solver seen_ops pic arrows O A) as (k & ns & _ & _ & _ & _ & L).
  destruct L as (_ & ar & Har & E). { exists "B", (V3 1 0 0). rewrite seen_final. split; [apply seen_force|]. intros H. injection H. lra. }
  exists pic, arrows, ar. repeat split; auto. rewrite E.
  destruct C97_picture_example as (pic' & O' & S & _). rewrite O in O'. injection O' as <-. rewrite S. field.
Qed.

(** C99 is false of moments: a node loaded by a moment alone gets an arrow of length zero. *)
Theorem C99_moment_refuted : exists ext ops pic arrows n v, let w := final ext init ops in
  open_view ext w = Some pic /\ load_arrows ext w pic = Some arrows
  /\ answer ext w (OpGetNodalLoad "pat1" n) = RVec v /\ nth 5 v 0 <> 0 /\ map arrow_length arrows = [0].
Proof. exact c99_moment_refuted. Qed.
Print Assumptions C99_moment_refuted.


(** C99 is false of other patterns: loads of a pattern of another name are not drawn, and the viewer raises. *)
Theorem C99_pattern_refuted : exists ext ops pic n v, let w := final ext init ops in
  open_view ext w = Some pic /\ answer ext w (OpGetNodalLoad "P" n) = RVec v /\ nth 0 v 0 <> 0 /\ load_arrows ext w pic = None.
Proof. exact c99_pattern_refuted. Qed.
Print Assumptions C99_pattern_refuted.


(** C100. In the basic viewer a press of a button changes what it names and nothing else, and the buttons say what is seen. *)
Theorem C100_basic l : let s := fold_left (fun s t => basic_toggle t s) l open_toggles in
  s_node s = negb (pressed_even TNode l) /\ s_beam s = pressed_even TBeam l /\ s_shell s = pressed_even TShell l
  /\ b_node s = s_node s /\ b_beam s = s_beam s /\ b_shell s = s_shell s.
Proof. exact (c100_basic l). Qed.
Print Assumptions C100_basic.
Example C100_basic_example : let s := fold_left (fun s t => basic_toggle t s) [TBeam; TNode; TBeam; TShell; TBeam] open_toggles in
  s_node s = true /\ s_beam s = false /\ s_shell s = false.
Proof. destruct (C100_basic [TBeam; TNode; TBeam; TShell; TBeam]) as (-> & -> & -> & _). repeat split. Qed.

(** C100, partial: in the load viewer this holds of nodes always, and of shells until the button of the beams is pressed.  Missing: beams, which are never seen again once hidden. *)
Theorem C100_load_partial l : let s := load_state l in
  s_node s = negb (pressed_even TNode l) /\ b_node s = s_node s
  /\ b_beam s = pressed_even TBeam l
  /\ (s_beam s = true <-> ~ In TBeam l)
  /\ (~ In TBeam l -> s_shell s = pressed_even TShell l /\ b_shell s = s_shell s).
Proof. exact (c100_load l). Qed.
Print Assumptions C100_load_partial.
Example C100_load_example : s_node (load_state [TNode; TShell]) = true /\ s_beam (load_state [TNode; TShell]) = true /\ s_shell (load_state [TNode; TShell]) = false.
Proof.
  destruct (C100_load_partial [TNode; TShell]) as (-> & _ & _ & B & S). assert (~ In TBeam [TNode; TShell]) by (intros [X|[X|[]]]; discriminate).
  split; [reflexivity|]. split; [apply B; assumption|]. destruct S as [-> _]; [assumption|reflexivity].
Qed.

(** C100 is false of the load viewer: shells hidden, beams hidden and shown again, the shells are seen, the beams are not, and both buttons say the opposite. *)
Theorem C100_load_refuted : exists l, let s := load_state l in
  pressed_even TBeam l = true /\ pressed_even TShell l = false /\ s_beam s = false /\ b_beam s = true /\ s_shell s = true /\ b_shell s = false.
Proof. exact c100_load_refuted. Qed.
Print Assumptions C100_load_refuted.

