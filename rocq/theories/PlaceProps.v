(** C66 and C67: headings of diagrams, their places on the slide, mind maps and quadrant charts. *)
From Coq Require Import String Ascii List Bool Arith NArith Permutation.
From Verif Require Import Str Num ShapeModel ConnectorModel FlowModel FlowSpec FlowRefute DiagramModel DiagramSpec DiagramCommon DiagramTime DiagramRefute GraphSpec GraphRefute PlaceSpec PlaceThms PlaceRefute.
Import ListNotations.
Open Scope nat_scope.
Open Scope string_scope.

Theorem C66_title : forall (o : outside) (title h : string) (body : list string) (code : string), announces title h -> lines code = h :: body -> snd (place o code) = title.
Proof. exact titled. Qed.
Print Assumptions C66_title.
Example C66_title_example : announces "State Diagram" "   STATEdiagram-V2  " /\ announces "Pie Chart" "pie showData" /\ announces "ER Diagram" "erDiagram".
Proof. exact headed. Qed.
Theorem C66_heading : forall (o : outside) (title h1 h2 : string) (body : list string) (c1 c2 : string), announces title h1 -> announces title h2 -> title <> "Flowchart" -> lines c1 = h1 :: body -> lines c2 = h2 :: body -> draw o c1 = draw o c2.
Proof. exact same_drawing. Qed.
Print Assumptions C66_heading.
Theorem C66_unknown : forall (o : outside) (h : string) (body : list string) (code : string), lines code = h :: body -> forallb (fun w => negb (starts_with w (lowercase (trim h)))) beginnings = true ->
  exists s, place o code = ([s], [], "Diagram") /\ sh_text s = Some ("Diagram: " ++ h).
Proof. exact unknown_box. Qed.
Print Assumptions C66_unknown.
Example C66_unknown_example : forallb (fun w => negb (starts_with w (lowercase (trim "  sankey-beta")))) beginnings = true.
Proof. exact unknown_heading. Qed.
(** Any word that begins alike is taken for a heading. *)
Theorem C66_lookalike_refuted : snd (place out0 (doc ["Eruption of 1883"])) = "ER Diagram" /\ snd (place out0 (doc ["stately homes"])) = "State Diagram".
Proof. exact lookalike. Qed.
Print Assumptions C66_lookalike_refuted.
(** A remark before the heading hides it. *)
Theorem C66_remark_refuted : place out0 (doc ["%% a remark"; "pie"; """A"" : 1"]) = place out0 (doc ["%% a remark"]) /\ snd (place out0 (doc ["%% a remark"; "pie"; """A"" : 1"])) = "Diagram".
Proof. exact hidden_heading. Qed.
Print Assumptions C66_remark_refuted.
Theorem C66_moved : forall (o : outside) (code : string), small (d_shapes (draw o code)) (d_connectors (draw o code)) ->
  exists dx dy, place o code = (map (mv dx dy) (d_shapes (draw o code)), map (mvc dx dy) (d_connectors (draw o code)), snd (place o code)) /\ (dx <= 4572000 /\ dy <= 4029000)%N.
Proof. exact moved. Qed.
Print Assumptions C66_moved.
Example C66_moved_example : small (d_shapes (draw out0 state_code)) (d_connectors (draw out0 state_code)).
Proof. exact state_small. Qed.
Theorem C66_centred : forall (o : outside) (code : string) (l r t b : N), snd (place o code) <> "Flowchart" -> small (d_shapes (draw o code)) (d_connectors (draw o code)) ->
  spans sh_x right_of (d_shapes (draw o code)) l r -> spans sh_y bottom_of (d_shapes (draw o code)) t b ->
  exists l' r' t' b', spans sh_x right_of (fst (fst (place o code))) l' r' /\ spans sh_y bottom_of (fst (fst (place o code))) t' b' /\ (r' - l' = r - l /\ b' - t' = b - t)%N
  /\ ((l + r <= slide_width)%N -> centred 0 slide_width l' r')
  /\ ((b - t <= slide_height - title_height)%N -> (t + b <= title_height + slide_height)%N -> centred title_height slide_height t' b').
Proof. exact centred_all. Qed.
Print Assumptions C66_centred.
Example C66_centred_example : spans sh_x right_of (d_shapes (draw out0 state_code)) 1000000 6900000 /\ spans sh_y bottom_of (d_shapes (draw out0 state_code)) 1800000 3500000 /\ snd (place out0 state_code) <> "Flowchart".
Proof. exact state_spans. Qed.
(** A diagram is never moved up: one that would fit runs off the slide. *)
Theorem C66_runs_off_refuted : Forall (fun s => (1800000 <= sh_y s /\ bottom_of s <= 1800000 + (slide_height - title_height))%N) (d_shapes (draw out0 tall)) /\ exists s, In s (fst (fst (place out0 tall))) /\ (slide_height < bottom_of s)%N.
Proof. exact runs_off. Qed.
Print Assumptions C66_runs_off_refuted.
(** Wide diagrams run off the slide. *)
Theorem C66_wide_refuted : exists s, In s (fst (fst (place out0 wide))) /\ (slide_width < right_of s)%N.
Proof. exact too_wide. Qed.
Print Assumptions C66_wide_refuted.

Theorem C67_mindmap : forall (o : outside) (d : mind_doc) (code : string), near_rings o -> mind_ok d = true -> writes_mind d code ->
  d_connectors (draw o code) = [] /\ exists boxes labels, mind_drawn (o_ring1 o) (o_ring2 o) d (d_shapes (draw o code)) boxes labels.
Proof. exact mind_all. Qed.
Print Assumptions C67_mindmap.
Example C67_mindmap_example : mind_ok mind0 = true /\ writes_mind mind0 mind_code.
Proof. exact mind_fine. Qed.
Example C67_mindmap_rings : near_rings out1.
Proof. exact rings_near. Qed.
Example C67_mindmap_texts : texts (draw out1 mind_code) = [None; Some "Our plan"; None; Some "Research"; None; Some "Build"; None; Some "Sell & tell"; None; Some "Papers"; None; Some "Talks"; None; Some "Shop"].
Proof. exact mind_shown. Qed.
(** The leaves of a branch cover each other. *)
Theorem C67_leaves_refuted : forall (o : outside) (d : mind_doc) (code : string), near_rings o -> mind_ok d = true -> writes_mind d code ->
  forall i j k a b, nth_error (leaves_of d) i = Some (k, a) -> nth_error (leaves_of d) j = Some (k, b) -> exists s t, In s (d_shapes (draw o code)) /\ In t (d_shapes (draw o code)) /\ sh_text s = Some a /\ sh_text t = Some b /\ sh_x s = sh_x t /\ sh_y s = sh_y t.
Proof. exact leaves_covered. Qed.
Print Assumptions C67_leaves_refuted.
(** With two blanks to a level leaves are taken for branches. *)
Theorem C67_blanks_refuted : forall (o : outside), draw o (doc ["mindmap"; "  Plan"; "    Research"; "      Papers"]) = draw o (doc ["mindmap"; "  Plan"; "    Research"; "    Papers"]).
Proof. exact two_blanks. Qed.
Print Assumptions C67_blanks_refuted.
(** The name of a node and its inner brackets are shown. *)
Theorem C67_root_refuted : drawn_texts ["mindmap"; "  root((Plan))"] = [None; Some "root((Plan"].
Proof. exact root_name. Qed.
Print Assumptions C67_root_refuted.
(** A second root, and leaves without a branch, are lost. *)
Theorem C67_second_root_refuted : drawn_texts ["mindmap"; "Plan"; "Other"; "          deep"] = [None; Some "Plan"].
Proof. exact second_root. Qed.
Print Assumptions C67_second_root_refuted.

Theorem C67_quadrant : forall (o : outside) (doc : list quad_item) (code : string), forallb quad_ok doc = true -> marks doc <> [] -> Forall (spot_fits (o_spot o)) (marks doc) -> writes "quadrantChart" (map quad_text doc) code ->
  d_connectors (draw o code) = [] /\ exists tiles dots notes, quad_drawn (o_spot o) doc (d_shapes (draw o code)) tiles dots notes.
Proof. exact quad_all. Qed.
Print Assumptions C67_quadrant.
Example C67_quadrant_example : forallb quad_ok quad0 = true /\ marks quad0 <> [] /\ Forall (spot_fits (o_spot out1)) (marks quad0) /\ writes "quadrantChart" (map quad_text quad0) quad_code.
Proof. exact quad_fine. Qed.
(** Titles and the names of axes and quadrants are never drawn. *)
Theorem C67_quadrant_names_refuted : forall (o : outside) (d1 d2 : list quad_item) (c1 c2 : string), forallb quad_ok d1 = true -> forallb quad_ok d2 = true -> marks d1 = marks d2 -> writes "quadrantChart" (map quad_text d1) c1 -> writes "quadrantChart" (map quad_text d2) c2 -> draw o c1 = draw o c2.
Proof. exact names_unused. Qed.
Print Assumptions C67_quadrant_names_refuted.
(** With a blank behind it the colon stays in the name. *)
Theorem C67_quadrant_colon_refuted : drawn_texts ["quadrantChart"; "Campaign A: [0.3, 0.6]"] = [None; None; None; None; None; Some "Campaign A:"].
Proof. exact colon_kept. Qed.
Print Assumptions C67_quadrant_colon_refuted.
