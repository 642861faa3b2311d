(** C43: what a package without reported errors is known to have. *)
From Coq Require Import String Ascii List Bool.
From Verif Require Import Str XmlSpec OpcSpec ResolveSpec DeckModel ValidModel ValidSpec ValidProofs ValidRefute.
Import ListNotations.
Open Scope string_scope.

(** In all that follows, [files] are the entries of any archive, [names] any order
    of its parts, and validation reports nothing. *)
(** Every required part is there. *)
Theorem C43_required_parts (files : list (string * string)) (is_dir utf8 : string -> bool) (names : list string) :
  archive_names files is_dir names -> validate_package files utf8 names = [] ->
  Forall (present is_dir files)
    ["[Content_Types].xml"; "_rels/.rels"; "ppt/presentation.xml"; "ppt/_rels/presentation.xml.rels"; "ppt/presProps.xml"; "ppt/viewProps.xml";
     "ppt/tableStyles.xml"; "ppt/theme/theme1.xml"; "ppt/slideMasters/slideMaster1.xml"; "ppt/slideLayouts/slideLayout1.xml"; "docProps/core.xml"; "docProps/app.xml"].
Proof. intros N V. exact (proj2 (Forall_forall _ _) (required files is_dir utf8 names N V)). Qed.
Print Assumptions C43_required_parts.
(** Every internal relationship, of every part, points at a part. *)
Theorem C43_relationships (files : list (string * string)) (is_dir utf8 : string -> bool) (names : list string) (d : list string) (f n c : string) :
  archive_names files is_dir names -> validate_package files utf8 names = [] -> rels_part d f n -> holds is_dir utf8 files n c ->
  forall l id t e, written c l -> In (id, t, false) l -> refers d t e -> present is_dir files (path e).
Proof. intros N V. exact (all_targets files is_dir utf8 names N V d f n c). Qed.
Print Assumptions C43_relationships.
(** Every reference in a slide has a relationship, and its part is there. *)
Theorem C43_slide_references (files : list (string * string)) (is_dir utf8 : string -> bool) (names : list string) (f s id a b p : string) :
  archive_names files is_dir names -> validate_package files utf8 names = [] ->
  sforall (fun c => negb (Ascii.eqb c "/")) f = true -> holds is_dir utf8 files ("ppt/slides/slide" ++ f ++ ".xml") s ->
  p = "r:embed=""" \/ p = "r:id=""" -> unquoted id -> starts_with "rId" id = true -> s = a ++ p ++ id ++ """" ++ b ->
  has_rel is_dir utf8 files ("ppt/slides/_rels/slide" ++ f ++ ".xml.rels") id
    (fun t external => external = false -> forall e, refers ["ppt"; "slides"] t e -> present is_dir files (path e)).
Proof. intros N V. exact (slide_refs files is_dir utf8 names N V f s id a b p). Qed.
Print Assumptions C43_slide_references.
(** No two shapes of a slide have the same id. *)
Theorem C43_shape_ids (files : list (string * string)) (is_dir utf8 : string -> bool) (names : list string) (f s : string) (l : list string) :
  archive_names files is_dir names -> validate_package files utf8 names = [] ->
  sforall (fun c => negb (Ascii.eqb c "/")) f = true -> holds is_dir utf8 files ("ppt/slides/slide" ++ f ++ ".xml") s ->
  values "<p:cNvPr" "id=""" s l -> List.NoDup l.
Proof. intros N V F (I & W & U). exact (shape_ids files is_dir utf8 names N V f s l I F W U). Qed.
Print Assumptions C43_shape_ids.
(** Every entry of the slide list leads to a slide, and there are as many slides as entries. *)
Theorem C43_slide_list (files : list (string * string)) (is_dir utf8 : string -> bool) (names : list string) (pres : string) :
  archive_names files is_dir names -> validate_package files utf8 names = [] -> holds is_dir utf8 files "ppt/presentation.xml" pres ->
  (forall l id, values "<p:sldId" "r:id=""" pres l -> In id l ->
     has_rel is_dir utf8 files "ppt/_rels/presentation.xml.rels" id (fun t _ => forall e, refers ["ppt"] t e -> exists a b, path e = a ++ "/slides/slide" ++ b))
  /\ (forall l k, occurs "<p:sldId " pres k -> List.NoDup l -> (forall n, In n l <-> present is_dir files n /\ slide_name n) -> List.length l = k).
Proof.
  intros N V H. exact (conj (fun l id => listed files is_dir utf8 names N V pres l id H) (fun l k => slide_count files is_dir utf8 names N V pres l k H)).
Qed.
Print Assumptions C43_slide_list.
(** Every part has an entry in the content types, for its name or its extension. *)
Theorem C43_content_types (files : list (string * string)) (is_dir utf8 : string -> bool) (names : list string) (ct n : string) :
  archive_names files is_dir names -> validate_package files utf8 names = [] -> holds is_dir utf8 files "[Content_Types].xml" ct ->
  present is_dir files n -> ends_with ".rels" n = false -> n <> "[Content_Types].xml" -> typed_by ct n.
Proof. intros N V (_ & W & U). exact (content_types files is_dir utf8 names N V ct n W U). Qed.
Print Assumptions C43_content_types.
(** Every chart has a relationship to an embedded file, and its workbook is there. *)
Theorem C43_charts (files : list (string * string)) (is_dir utf8 : string -> bool) (names : list string) (f : string) :
  archive_names files is_dir names -> validate_package files utf8 names = [] -> present is_dir files ("ppt/charts/chart" ++ f ++ ".xml") ->
  sforall (fun c => negb (Ascii.eqb c "/")) f = true -> ends_with ".xml" f = false ->
  (exists id, has_rel is_dir utf8 files ("ppt/charts/_rels/chart" ++ f ++ ".xml.rels") id (fun t _ => exists a b, t = a ++ "embeddings/" ++ b))
  /\ present is_dir files ("ppt/embeddings/Microsoft_Excel_Sheet" ++ f ++ ".xlsx").
Proof. intros N V. exact (charts files is_dir utf8 names N V f). Qed.
Print Assumptions C43_charts.
(** A generated deck with three slides, charts, notes, images and fonts is accepted;
    a relationship part and a presentation of the forms above. *)
Example C43_case : archive_names package0 no_dir names0 /\ validate_package package0 any_text names0 = [] /\ List.length package0 = 59
  /\ rels_part ["ppt"; "slides"] "slide1.xml" "ppt/slides/_rels/slide1.xml.rels"
  /\ written "<R><r Id=""rId1"" Type=""t"" Target=""../a.xml""/> <r Id=""rId2"" Target=""http://x"" TargetMode=""External""/></R>" [("rId1", "../a.xml", false); ("rId2", "http://x", true)]
  /\ refers ["ppt"; "slides"] "../a.xml" ["ppt"; "a.xml"]
  /\ values "<p:sldId" "r:id=""" "<p:sldIdLst><p:sldId id=""256"" r:id=""rId2""/><p:sldId id=""257"" r:id=""rId3""/></p:sldIdLst>" ["rId2"; "rId3"].
Proof.
  split; [exact archive0|]. split; [exact valid0|]. split; [vm_compute; reflexivity|].
  split; [right; repeat split; try discriminate; repeat constructor; discriminate|].
  split.
  { apply (one_more "<R><r " "rId1" " Type=""t"" " "../a.xml" "/" " <r Id=""rId2"" Target=""http://x"" TargetMode=""External""/></R>" [("rId2", "http://x", true)] false);
      [apply split_once_none; reflexivity|reflexivity|apply split_once_none; reflexivity|reflexivity|reflexivity| |].
    { split; [discriminate|]. intros (a & b & E). exfalso. apply (proj1 (split_once_none "TargetMode=""External""" "/") eq_refl a b E). }
    apply (one_more " <r " "rId2" " " "http://x" " TargetMode=""External""/" "</R>" [] true);
      [apply split_once_none; reflexivity|reflexivity|apply split_once_none; reflexivity|reflexivity|reflexivity| |apply no_more, split_once_none; reflexivity].
    split; [intros _; now exists " ", "/"|reflexivity]. }
  split.
  { left. split; [reflexivity|]. exists [".."; "a.xml"]. split; [apply (more ".." "a.xml"); [reflexivity|now apply one]|].
    apply (up ["ppt"]). apply down; [repeat split; discriminate|]. apply done. }
  apply (one_tag "<p:sldId" "r:id=""" "" "Lst><p:sldId id=""256"" " "rId2" "" "<p:sldId id=""257"" r:id=""rId3""/></p:sldIdLst>" ["rId3"]);
    [apply split_once_none; reflexivity|apply split_once_none; reflexivity|reflexivity|apply split_once_none; reflexivity|].
  apply (one_tag "<p:sldId" "r:id=""" "" " id=""257"" " "rId3" "" "</p:sldIdLst>" []);
    [apply split_once_none; reflexivity|apply split_once_none; reflexivity|reflexivity|apply split_once_none; reflexivity|apply no_tag, split_once_none; reflexivity].
Qed.

(** False beyond that: a relationship that gives its target before its id is not
    seen, so its part may be missing. *)
Theorem C43_attribute_order_refuted : exists files names rels,
  archive_names files no_dir names /\ validate_package files any_text names = []
  /\ In ("ppt/_rels/presProps.xml.rels", rels) files /\ rels_of rels = Some [OpcSpec.Rel "rId1" "t" "missing.xml" ""] /\ ~ present no_dir files "ppt/missing.xml".
Proof.
  exact (ex_intro _ _ (ex_intro _ _ (ex_intro _ bad_rels (conj (proj1 attribute_order) (conj (proj1 (proj2 attribute_order))
    (conj (entry_in _ _) (proj2 (proj2 attribute_order)))))))).
Qed.
Print Assumptions C43_attribute_order_refuted.
(** A relationship part that is no UTF-8 is passed over, though its text would be refused. *)
Theorem C43_unreadable_refuted : exists files names utf8,
  archive_names files no_dir names /\ validate_package files utf8 names = [] /\ validate_package files any_text names <> [].
Proof. exact (ex_intro _ _ (ex_intro _ _ (ex_intro _ _ unreadable))). Qed.
Print Assumptions C43_unreadable_refuted.
(** An XML part need not be well-formed. *)
Theorem C43_malformed_refuted : exists files names,
  archive_names files no_dir names /\ validate_package files any_text names = [] /\ In ("ppt/x.xml", "<a") files /\ xml_read "<a" = None.
Proof.
  exact (ex_intro _ _ (ex_intro _ _ (conj (proj1 malformed) (conj (proj1 (proj2 malformed)) (conj (entry_in _ _) (proj2 (proj2 malformed))))))).
Qed.
Print Assumptions C43_malformed_refuted.
(** A part whose name begins another's has no content type, unnoticed. *)
Theorem C43_untyped_refuted : exists files names n ct defaults overrides,
  archive_names files no_dir names /\ validate_package files any_text names = [] /\ present no_dir files n /\ n = "ppt/slides/slide1.xm"
  /\ newest files "[Content_Types].xml" ct /\ types_of ct = Some (defaults, overrides) /\ ~ In "xm" (map fst defaults) /\ ~ In ("/" ++ n) (map fst overrides).
Proof. exact untyped_case. Qed.
Print Assumptions C43_untyped_refuted.
(** And a deck this library generates can be reported: text in a code block is taken for a reference. *)
Theorem C43_false_alarm_refuted : exists slides, let files := create_pptx_with_settings statics0 "T" slides no_settings in
  archive_names files no_dir (map fst files) /\ validate_package files any_text (map fst files) <> [].
Proof. exact (ex_intro _ [quoting] (conj (proj1 false_alarm) false_alarm_nonempty)). Qed.
Print Assumptions C43_false_alarm_refuted.
