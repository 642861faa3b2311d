(** C63, C64: Mermaid sequence diagrams, time lines, Gantt charts, journeys, git
    graphs and pies are drawn as they read. *)
From Coq Require Import String Ascii List Bool Arith NArith Permutation.
From Verif Require Import Str Num ShapeModel ConnectorModel FlowModel FlowSpec FlowRefute DiagramModel DiagramSpec DiagramSeq DiagramTime DiagramWay DiagramRefute.
Import ListNotations.
Open Scope nat_scope.
Open Scope string_scope.

(** ** C63: sequence diagrams *)
Theorem C63_sequence : forall (o : outside) (doc : list seq_item) (code : string),
  forallb seq_ok doc = true -> few (people doc) -> few (messages doc) -> writes "sequenceDiagram" (map seq_text doc) code ->
  d_connectors (draw o code) = [] /\ exists heads lifes feet arrows notes, seq_drawn doc (d_shapes (draw o code)) heads lifes feet arrows notes.
Proof. exact seq_all. Qed.
Print Assumptions C63_sequence.
Example C63_sequence_example : forallb seq_ok talk0 = true /\ few (people talk0) /\ few (messages talk0) /\ writes "sequenceDiagram" (map seq_text talk0) talk_code.
Proof. exact talk_ok. Qed.
Example C63_sequence_people : people talk0 = [("A", "Alice B."); ("Bob", "Bob"); ("Carol", "Carol")] /\ length (d_shapes (draw out0 talk_code)) = 15.
Proof. exact talk_shown. Qed.
Theorem C63_dashes_refuted : forall (o : outside) (doc : list seq_item) (c1 c2 : string), forallb seq_ok doc = true ->
  writes "sequenceDiagram" (map seq_text doc) c1 -> writes "sequenceDiagram" (map seq_text (all_solid doc)) c2 -> draw o c1 = draw o c2.
Proof. exact dashes_lost. Qed.
Print Assumptions C63_dashes_refuted.
Theorem C63_self_refuted : exists s, In s (d_shapes (draw out0 (doc ["sequenceDiagram"; "A->>A: think"]))) /\ sh_text s = Some "think" /\ sh_w s = 0%N.
Proof. exact self_message. Qed.
Print Assumptions C63_self_refuted.
Theorem C63_remark_refuted : drawn_texts ["sequenceDiagram"; "%% A->>B: old"] = [Some "%% A"; None; Some "%% A"; Some "B"; None; Some "B"; None; Some "old"].
Proof. exact remark_drawn. Qed.
Print Assumptions C63_remark_refuted.
Theorem C63_late_name_refuted : drawn_texts ["sequenceDiagram"; "A->>B: hi"; "participant A as Alice"] = [Some "A"; None; Some "A"; Some "B"; None; Some "B"; None; Some "hi"].
Proof. exact late_name. Qed.
Print Assumptions C63_late_name_refuted.
Theorem C63_seventh_refuted : let d := d_shapes (draw out0 (doc ("sequenceDiagram" :: map (fun k => "A->>B: " ++ decn k) (seq 1 7)))) in
  exists a l, In a d /\ preset (sh_type a) = "rightArrow" /\ In l d /\ sh_text l = None /\ sh_w l = 20000%N /\ (bottom_of l < bottom_of a)%N.
Proof. exact seventh. Qed.
Print Assumptions C63_seventh_refuted.

(** ** C64: time lines, Gantt charts, journeys, git graphs, pies *)
Theorem C64_timeline : forall (o : outside) (doc : list time_item) (code : string),
  forallb time_ok doc = true -> few (events doc) -> writes "timeline" (flat_map time_text doc) code ->
  d_connectors (draw o code) = [] /\ exists titles dates boxes marks axis, time_drawn doc (d_shapes (draw o code)) titles dates boxes marks axis.
Proof. exact time_all. Qed.
Print Assumptions C64_timeline.
Example C64_timeline_example : forallb time_ok time0 = true /\ few (events time0) /\ writes "timeline" (flat_map time_text time0) time_code.
Proof. exact time_fine. Qed.
Example C64_timeline_texts : texts (draw out0 time_code) = [Some "Our story"; None; None; Some "2002"; Some "LinkedIn"; None; Some "2004"; Some ("Facebook : and more" ++ nl ++ "Google" ++ nl ++ "Flickr")].
Proof. exact time_texts. Qed.
Theorem C64_title_refuted : drawn_texts ["timeline"; "titles won : three"] = [Some "s won : three"; None].
Proof. exact title_date. Qed.
Print Assumptions C64_title_refuted.

Theorem C64_gantt : forall (o : outside) (doc : list gantt_item) (code : string),
  forallb gantt_ok doc = true -> few (gantt_rows doc) -> writes "gantt" (flat_map gantt_text doc) code ->
  d_connectors (draw o code) = [] /\ exists titles lines, gantt_drawn doc (d_shapes (draw o code)) titles lines.
Proof. exact gantt_all. Qed.
Print Assumptions C64_gantt.
Example C64_gantt_example : forallb gantt_ok gantt0 = true /\ few (gantt_rows gantt0) /\ writes "gantt" (flat_map gantt_text gantt0) gantt_code.
Proof. exact gantt_fine. Qed.
Example C64_gantt_texts : texts (draw out0 gantt_code) = [Some "Plan"; Some "Design"; Some "Sketch"; None; Some "Review"; None; Some "Build"; Some "Code"; None].
Proof. exact gantt_texts. Qed.
Theorem C64_gantt_times_refuted : forall (o : outside) (doc : list gantt_item) (c1 c2 : string), forallb gantt_ok doc = true ->
  writes "gantt" (flat_map gantt_text doc) c1 -> writes "gantt" (flat_map gantt_text (timeless doc)) c2 -> draw o c1 = draw o c2.
Proof. exact times_lost. Qed.
Print Assumptions C64_gantt_times_refuted.
Theorem C64_gantt_sections_refuted : drawn_texts ["gantt"; "Sketch :a1, 3d"] = []
  /\ drawn_texts ["gantt"; "Sketch :a1, 3d"; "section Build"; "Code :2d"] = [Some "Build"; Some "Sketch"; None; Some "Code"; None].
Proof. exact (conj no_section early_task). Qed.
Print Assumptions C64_gantt_sections_refuted.

Theorem C64_journey : forall (o : outside) (doc : list way_item) (code : string),
  forallb way_ok doc = true -> way_sections doc <> [] -> few (way_sections doc) -> Forall (fun s => few (snd s)) (way_sections doc) -> writes "journey" (flat_map way_text_lines doc) code ->
  d_connectors (draw o code) = [] /\ exists heads columns, way_drawn doc (d_shapes (draw o code)) heads columns.
Proof. exact way_all. Qed.
Print Assumptions C64_journey.
Example C64_journey_example : forallb way_ok way0 = true /\ way_sections way0 <> [] /\ few (way_sections way0) /\ Forall (fun s => few (snd s)) (way_sections way0) /\ writes "journey" (flat_map way_text_lines way0) way_code.
Proof. exact way_fine. Qed.
Example C64_journey_texts : texts (draw out0 way_code) = [Some "Work"; Some "Make tea (5)"; Some "Do work (1)"; Some "Home"; Some "Sit down (9)"].
Proof. exact way_texts. Qed.

Theorem C64_git : forall (o : outside) (doc : list git_item) (code : string),
  forallb git_ok doc = true -> known doc -> commits 0 "main" doc <> [] -> few (branches doc) -> few (commits 0 "main" doc) -> writes "gitGraph" (map git_text doc) code ->
  d_connectors (draw o code) = [] /\ exists names tracks dots notes, git_drawn doc (d_shapes (draw o code)) names tracks dots notes.
Proof. exact git_all. Qed.
Print Assumptions C64_git.
Example C64_git_example : forallb git_ok git0 = true /\ known git0 /\ commits 0 "main" git0 <> [] /\ few (branches git0) /\ few (commits 0 "main" git0) /\ writes "gitGraph" (map git_text git0) git_code.
Proof. exact git_fine. Qed.
Example C64_git_texts : texts (draw out0 git_code) = [Some "main"; None; Some "develop"; None; None; Some "C0"; None; Some "second one"; None; Some "C2"; None; Some "Merge develop"; None; Some "v1"].
Proof. exact git_texts. Qed.
Theorem C64_git_branch_refuted : drawn_texts ["gitGraph"; "branch dev"; "commit"] = drawn_texts ["gitGraph"; "branch dev"; "checkout main"; "commit"]
  /\ spots (draw out0 (doc ["gitGraph"; "branch dev"; "commit"])) <> spots (draw out0 (doc ["gitGraph"; "branch dev"; "checkout dev"; "commit"])).
Proof. exact branch_stays. Qed.
Print Assumptions C64_git_branch_refuted.
Theorem C64_git_unknown_refuted : spots (draw out0 (doc ["gitGraph"; "checkout dev"; "commit"])) = spots (draw out0 (doc ["gitGraph"; "commit"])).
Proof. exact unknown_branch. Qed.
Print Assumptions C64_git_unknown_refuted.
Theorem C64_git_tag_refuted : drawn_texts ["gitGraph"; "commit id: ""one"" tag: ""v1"""] = [Some "main"; None; None; Some "one"" tag: ""v1"].
Proof. exact tag_kept. Qed.
Print Assumptions C64_git_tag_refuted.

Theorem C64_pie : forall (o : outside) (doc : list pie_item) (code : string),
  forallb (pie_ok (o_f64 o)) doc = true -> slices (o_f64 o) doc <> [] -> few (slices (o_f64 o) doc) -> writes "pie" (map pie_text doc) code ->
  d_connectors (draw o code) = [] /\ exists keys notes disc, pie_drawn (o_f64 o) (o_percent o) doc (d_shapes (draw o code)) keys notes disc.
Proof. exact pie_all. Qed.
Print Assumptions C64_pie.
Example C64_pie_example : forallb (pie_ok (o_f64 out0)) pie0 = true /\ slices (o_f64 out0) pie0 <> [] /\ few (slices (o_f64 out0) pie0) /\ writes "pie" (map pie_text pie0) pie_code.
Proof. exact pie_fine. Qed.
Example C64_pie_texts : texts (draw out0 pie_code) = [None; None; Some "Dogs & co (79%)"; None; Some "Cats (17%)"; None; Some "Rats (3%)"].
Proof. exact pie_texts. Qed.
(** One disc for every pie: the sizes of the slices are only in the texts. *)
Theorem C64_pie_disc_refuted : forall (o : outside) (c1 c2 : string), first_line c1 = "pie" -> first_line c2 = "pie" ->
  d_shapes (draw o c1) <> [] -> d_shapes (draw o c2) <> [] -> hd_error (d_shapes (draw o c1)) = hd_error (d_shapes (draw o c2)).
Proof. exact pie_whole. Qed.
Print Assumptions C64_pie_disc_refuted.
