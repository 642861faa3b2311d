(** Diagrams with everything in them, and diagrams that are not drawn as they read. *)
From Coq Require Import String Ascii List Bool Arith NArith Permutation.
From Verif Require Import Str Num ShapeModel ConnectorModel FlowModel FlowSpec FlowRefute DiagramModel DiagramSpec DiagramCommon DiagramSeq DiagramTime DiagramWay.
Import ListNotations.
Open Scope nat_scope.
Open Scope string_scope.

(** Whole numbers for the floating point ones. *)
Definition out0 : outside := {|
  o_alpha := fun s => negb (String.eqb (trim s) ""); o_num := N; o_f64 := parse_uint 1000000;
  o_percent := fun all v => dec (100 * v / N.max 1 (fold_right N.add 0%N all))%N;
  o_ring1 := fun n k => (N.of_nat k * 500000, 0)%N; o_ring2 := fun n k => (N.of_nat k * 900000, 0)%N; o_spot := fun _ _ => (0, 0)%N;
  o_wordy := wordy0; o_order := same; o_entities := fun l => l |}.
Definition drawn_texts (l : list string) : list (option string) := texts (draw out0 (doc l)).

(** ** Sequence diagrams *)
Definition talk0 : list seq_item :=
  [Person "A" (Some "Alice B."); Aside "%% a remark"; Message "A" false "Bob" "Hello: you"; Message "Bob" true "A" "Hi -> there"; Aside ""; Person "Carol" None; Message "Bob" false "Carol" "Go"].
Definition talk_code : string := doc
  ["sequenceDiagram"; "    participant A as Alice B."; "    %% a remark"; "    A->>Bob: Hello: you"; "  Bob-->>A: Hi -> there"; ""; "participant Carol"; "Bob->>Carol: Go"].
Lemma talk_ok : forallb seq_ok talk0 = true /\ few (people talk0) /\ few (messages talk0) /\ writes "sequenceDiagram" (map seq_text talk0) talk_code.
Proof.
  split; [vm_compute; reflexivity|]. split; [apply Nat.leb_le; vm_compute; reflexivity|]. split; [apply Nat.leb_le; vm_compute; reflexivity|]. exists (tl (lines talk_code)). split; vm_compute; reflexivity.
Qed.
Lemma talk_shown : people talk0 = [("A", "Alice B."); ("Bob", "Bob"); ("Carol", "Carol")] /\ length (d_shapes (draw out0 talk_code)) = 15.
Proof. split; vm_compute; reflexivity. Qed.
(** Solid and dashed arrows look the same, whatever else is in the diagram. *)
Definition all_solid (doc : list seq_item) : list seq_item := map (fun it => match it with Message f _ t x => Message f false t x | _ => it end) doc.
Lemma dashes_lost o doc c1 c2 : forallb seq_ok doc = true ->
  writes "sequenceDiagram" (map seq_text doc) c1 -> writes "sequenceDiagram" (map seq_text (all_solid doc)) c2 -> draw o c1 = draw o c2.
Proof.
  intros H W1 W2. apply rows_written in W1 as [R1 L1], W2 as [R2 L2].
  assert (H' : forallb seq_ok (all_solid doc) = true). { unfold all_solid. rewrite forallb_forall in *. intros it I. apply in_map_iff in I as (it' & <- & I). specialize (H it' I). now destruct it'. }
  assert (P : people (all_solid doc) = people doc). { unfold people, all_solid. rewrite flat_map_map. f_equal. apply flat_map_ext. now intros []. }
  assert (M : messages (all_solid doc) = messages doc). { unfold messages, all_solid. rewrite flat_map_map. apply flat_map_ext. now intros []. }
  unfold draw, create_diagram_elements, detect_type. rewrite L1, L2. cbn -[seq_shapes]. f_equal. unfold seq_shapes. rewrite R1, R2, !seq_read by assumption. now rewrite P, M.
Qed.
(** A message to oneself has no width. *)
Lemma self_message : exists s, In s (d_shapes (draw out0 (doc ["sequenceDiagram"; "A->>A: think"]))) /\ sh_text s = Some "think" /\ sh_w s = 0%N.
Proof. eexists. split; [vm_compute; do 4 right; left; reflexivity|]. split; reflexivity. Qed.
(** A remark with an arrow in it is drawn. *)
Lemma remark_drawn : drawn_texts ["sequenceDiagram"; "%% A->>B: old"] = [Some "%% A"; None; Some "%% A"; Some "B"; None; Some "B"; None; Some "old"].
Proof. vm_compute. reflexivity. Qed.
(** A name given after the first mention is lost. *)
Lemma late_name : drawn_texts ["sequenceDiagram"; "A->>B: hi"; "participant A as Alice"] = [Some "A"; None; Some "A"; Some "B"; None; Some "B"; None; Some "hi"].
Proof. vm_compute. reflexivity. Qed.
(** The seventh message is drawn below the life lines. *)
Lemma seventh : let d := d_shapes (draw out0 (doc ("sequenceDiagram" :: map (fun k => "A->>B: " ++ decn k) (seq 1 7)))) in
  exists a l, In a d /\ preset (sh_type a) = "rightArrow" /\ In l d /\ sh_text l = None /\ sh_w l = 20000%N /\ (bottom_of l < bottom_of a)%N.
Proof.
  cbv zeta. eexists. eexists. split; [vm_compute; do 18 right; left; reflexivity|]. split; [reflexivity|]. split; [vm_compute; do 1 right; left; reflexivity|]. split; [reflexivity|]. split; [reflexivity|]. vm_compute. reflexivity.
Qed.

(** ** Time lines *)
Definition time0 : list time_item := [TTitle "Our story"; TAside ""; TEvent "2002" "LinkedIn" []; TEvent "2004" "Facebook : and more" ["Google"; "Flickr"]; TAside "%% later"].
Definition time_code : string := doc ["timeline"; "  title Our story"; ""; "2002 : LinkedIn"; "2004 : Facebook : and more"; "     Google"; "     Flickr"; "%% later"].
Lemma time_fine : forallb time_ok time0 = true /\ few (events time0) /\ writes "timeline" (flat_map time_text time0) time_code.
Proof. split; [vm_compute; reflexivity|]. split; [apply Nat.leb_le; vm_compute; reflexivity|]. exists (tl (lines time_code)). split; vm_compute; reflexivity. Qed.
Lemma time_texts : texts (draw out0 time_code) = [Some "Our story"; None; None; Some "2002"; Some "LinkedIn"; None; Some "2004"; Some ("Facebook : and more" ++ nl ++ "Google" ++ nl ++ "Flickr")].
Proof. vm_compute. reflexivity. Qed.
(** A date that begins with "title" is taken for the title. *)
Lemma title_date : drawn_texts ["timeline"; "titles won : three"] = [Some "s won : three"; None].
Proof. vm_compute. reflexivity. Qed.

(** ** Gantt charts *)
Definition gantt0 : list gantt_item := [GTitle "Plan"; GAside "dateFormat YYYY-MM-DD"; GSection "Design" [("Sketch", "a1, 2024-01-01, 3d"); ("Review", "after a1, 2d")]; GSection "Build" [("Code", "2024-01-08, 10d")]].
Definition gantt_code : string := doc ["gantt"; " title Plan"; "dateFormat YYYY-MM-DD"; "section Design"; "  Sketch :a1, 2024-01-01, 3d"; "  Review :after a1, 2d"; "section Build"; "  Code :2024-01-08, 10d"].
Lemma gantt_fine : forallb gantt_ok gantt0 = true /\ few (gantt_rows gantt0) /\ writes "gantt" (flat_map gantt_text gantt0) gantt_code.
Proof. split; [vm_compute; reflexivity|]. split; [apply Nat.leb_le; vm_compute; reflexivity|]. exists (tl (lines gantt_code)). split; vm_compute; reflexivity. Qed.
Lemma gantt_texts : texts (draw out0 gantt_code) = [Some "Plan"; Some "Design"; Some "Sketch"; None; Some "Review"; None; Some "Build"; Some "Code"; None].
Proof. vm_compute. reflexivity. Qed.
(** Dates and durations make no difference. *)
Definition timeless (doc : list gantt_item) : list gantt_item := map (fun it => match it with GSection n l => GSection n (map (fun p => (fst p, "")) l) | _ => it end) doc.
Lemma times_lost o doc c1 c2 : forallb gantt_ok doc = true ->
  writes "gantt" (flat_map gantt_text doc) c1 -> writes "gantt" (flat_map gantt_text (timeless doc)) c2 -> draw o c1 = draw o c2.
Proof.
  intros H W1 W2. apply rows_written in W1 as [R1 L1], W2 as [R2 L2].
  assert (H' : forallb gantt_ok (timeless doc) = true).
  { unfold timeless. rewrite forallb_forall in *. intros it I. apply in_map_iff in I as (it' & <- & I). specialize (H it' I). destruct it' as [t|n l|t]; try exact H. cbn [gantt_ok] in *. apply andb_prop in H as [-> H]. cbn [andb].
    rewrite forallb_forall in *. intros p J. apply in_map_iff in J as (q & <- & J). exact (H q J). }
  assert (S : gantt_sections (timeless doc) = gantt_sections doc). { unfold gantt_sections, timeless. rewrite flat_map_map. apply flat_map_ext. intros [t|n l|t]; try reflexivity. cbn. rewrite map_map. reflexivity. }
  assert (T : gantt_title (timeless doc) = gantt_title doc). { unfold gantt_title, timeless. rewrite flat_map_map. f_equal. apply flat_map_ext. now intros []. }
  unfold draw, create_diagram_elements, detect_type. rewrite L1, L2. cbn -[gantt_shapes]. f_equal. unfold gantt_shapes. rewrite R1, R2. destruct (gantt_read doc H) as [-> ->]. destruct (gantt_read (timeless doc) H') as [-> ->]. now rewrite S, T.
Qed.
(** Without sections nothing is drawn; tasks before the first section go to it. *)
Lemma no_section : drawn_texts ["gantt"; "Sketch :a1, 3d"] = [].
Proof. vm_compute. reflexivity. Qed.
Lemma early_task : drawn_texts ["gantt"; "Sketch :a1, 3d"; "section Build"; "Code :2d"] = [Some "Build"; Some "Sketch"; None; Some "Code"; None].
Proof. vm_compute. reflexivity. Qed.

(** ** Journeys *)
Definition way0 : list way_item := [JAside "title My day"; JSection "Work" [("Make tea", 5%N, Some "Me"); ("Do work", 1%N, Some "Me, Cat")]; JAside ""; JSection "Home" [("Sit down", 9%N, None)]].
Definition way_code : string := doc ["journey"; "title My day"; "section Work"; "  Make tea: 5: Me"; "  Do work: 1: Me, Cat"; ""; "section Home"; "  Sit down: 9"].
Lemma way_fine : forallb way_ok way0 = true /\ way_sections way0 <> [] /\ few (way_sections way0) /\ Forall (fun s => few (snd s)) (way_sections way0) /\ writes "journey" (flat_map way_text_lines way0) way_code.
Proof.
  split; [vm_compute; reflexivity|]. split; [discriminate|]. split; [apply Nat.leb_le; vm_compute; reflexivity|].
  split; [repeat constructor; apply Nat.leb_le; vm_compute; reflexivity|]. exists (tl (lines way_code)). split; vm_compute; reflexivity.
Qed.
Lemma way_texts : texts (draw out0 way_code) = [Some "Work"; Some "Make tea (5)"; Some "Do work (1)"; Some "Home"; Some "Sit down (9)"].
Proof. vm_compute. reflexivity. Qed.

(** ** Git graphs *)
Definition git0 : list git_item := [Commit None; Commit (Some "second one"); Branch "develop"; Checkout "develop"; Commit None; Branch "main"; GitBlank; Checkout "main"; MergeOf "develop"; Commit (Some "v1")].
Definition git_code : string := doc ["gitGraph"; "   commit"; "   commit id: ""second one"""; "   branch develop"; "   checkout develop"; "   commit"; "branch main"; ""; "   checkout main"; "   merge develop"; "   commit id: ""v1"""].
Lemma git_fine : forallb git_ok git0 = true /\ known git0 /\ commits 0 "main" git0 <> [] /\ few (branches git0) /\ few (commits 0 "main" git0) /\ writes "gitGraph" (map git_text git0) git_code.
Proof.
  split; [vm_compute; reflexivity|]. split; [unfold known; repeat (apply Forall_cons || apply Forall_nil); cbn; auto|]. split; [discriminate|]. split; [apply Nat.leb_le; vm_compute; reflexivity|]. split; [apply Nat.leb_le; vm_compute; reflexivity|].
  exists (tl (lines git_code)). split; vm_compute; reflexivity.
Qed.
Lemma git_texts : texts (draw out0 git_code) = [Some "main"; None; Some "develop"; None; None; Some "C0"; None; Some "second one"; None; Some "C2"; None; Some "Merge develop"; None; Some "v1"].
Proof. vm_compute. reflexivity. Qed.
(** A new branch is not switched to, as it is in Mermaid. *)
Lemma branch_stays : drawn_texts ["gitGraph"; "branch dev"; "commit"] = drawn_texts ["gitGraph"; "branch dev"; "checkout main"; "commit"]
  /\ spots (draw out0 (doc ["gitGraph"; "branch dev"; "commit"])) <> spots (draw out0 (doc ["gitGraph"; "branch dev"; "checkout dev"; "commit"])).
Proof. split; [vm_compute; reflexivity|]. vm_compute. discriminate. Qed.
(** Commits on a branch that was never made are drawn on the main track. *)
Lemma unknown_branch : spots (draw out0 (doc ["gitGraph"; "checkout dev"; "commit"])) = spots (draw out0 (doc ["gitGraph"; "commit"])).
Proof. vm_compute. reflexivity. Qed.
(** A tag is kept as part of the label. *)
Lemma tag_kept : drawn_texts ["gitGraph"; "commit id: ""one"" tag: ""v1"""] = [Some "main"; None; None; Some "one"" tag: ""v1"].
Proof. vm_compute. reflexivity. Qed.

(** ** Pies *)
Definition pie0 : list pie_item := [PTitle "Pets: all"; Slice "Dogs & co" "386"; Slice "Cats" "85"; PAside ""; Slice "Rats" "15"].
Definition pie_code : string := doc ["pie"; "title Pets: all"; "    ""Dogs & co"" : 386"; "    ""Cats"" : 85"; ""; "    ""Rats"" : 15"].
Lemma pie_fine : forallb (pie_ok (o_f64 out0)) pie0 = true /\ slices (o_f64 out0) pie0 <> [] /\ few (slices (o_f64 out0) pie0) /\ writes "pie" (map pie_text pie0) pie_code.
Proof. split; [vm_compute; reflexivity|]. split; [discriminate|]. split; [apply Nat.leb_le; vm_compute; reflexivity|]. exists (tl (lines pie_code)). split; vm_compute; reflexivity. Qed.
Lemma pie_texts : texts (draw out0 pie_code) = [None; None; Some "Dogs & co (79%)"; None; Some "Cats (17%)"; None; Some "Rats (3%)"].
Proof. vm_compute. reflexivity. Qed.
(** The disc is the same whatever the slices are. *)
Lemma pie_whole o c1 c2 : first_line c1 = "pie" -> first_line c2 = "pie" -> d_shapes (draw o c1) <> [] -> d_shapes (draw o c2) <> [] -> hd_error (d_shapes (draw o c1)) = hd_error (d_shapes (draw o c2)).
Proof.
  intros L1 L2. assert (D : forall c, first_line c = "pie" -> draw o c = from_shapes (pie_shapes (o_num o) (o_f64 o) (o_percent o) c)).
  { intros c L. unfold draw, create_diagram_elements, detect_type. rewrite L. reflexivity. }
  rewrite (D c1 L1), (D c2 L2). cbn. unfold pie_shapes. destruct (flat_map _ (rows c1)); [congruence|]. destruct (flat_map _ (rows c2)); [congruence|]. reflexivity.
Qed.
