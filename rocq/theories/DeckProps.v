(** C13, C14, C15, C17, C45, C51, C52: whole generated decks. *)
From Coq Require Import String Ascii List Bool Arith NArith ZArith Permutation.
From Verif Require Import Str Num XmlSpec XmlProofs XmlPath OpcSpec FontsModel FontsSpec ChartModel ShapeModel SlideModel SlideSpec SlideInput DeckModel ResolveSpec DeckSpec DeckInput DeckKindSpec DeckWhole DeckLinks DeckClosed DeckLazy DeckRefute.
Import ListNotations.
Open Scope nat_scope.
Open Scope string_scope.
Local Open Scope list_scope.

(** C13: the chart parts are chart1.xml, chart2.xml, ... with the charts of all
    slides in order. *)
Theorem C13_chart_parts X title slides st :
  family "ppt/charts/chart" (create_pptx_with_settings X title slides st) = numbered "ppt/charts/chart" ".xml" (map chart_part_xml (flat_map s_charts slides)).
Proof. exact (deck_chart_parts X title (length slides) (Some slides) st). Qed.
Print Assumptions C13_chart_parts.
Example C13_chart_parts_case : length (flat_map s_charts deck0) = 3.
Proof. reflexivity. Qed.

(** C13: the [i]-th slide shows its charts in order, each by the id of a
    relationship to the part holding that chart; it has no other chart
    relationship. *)
Theorem C13_slide_charts X title slides st i s : nth_error slides i = Some s -> deck_slide_ok s = true -> stored s = true ->
  exists x rels, shows (create_pptx_with_settings X title slides st) ("ppt/slides/slide" ++ decn (i + 1) ++ ".xml") x
    /\ relations (create_pptx_with_settings X title slides st) ["ppt"; "slides"] ("slide" ++ decn (i + 1) ++ ".xml") rels
    /\ map rel_id (rels_kind "chart" rels) = flat_map chart_ids (slide_frames x) /\ length (flat_map chart_ids (slide_frames x)) = length (s_charts s)
    /\ forall j c, nth_error (s_charts s) j = Some c -> exists r, nth_error (flat_map chart_ids (slide_frames x)) j = Some r
         /\ linked (create_pptx_with_settings X title slides st) ["ppt"; "slides"] ("slide" ++ decn (i + 1) ++ ".xml") r "chart"
              ("ppt/charts/chart" ++ decn (charts_before slides i + j + 1) ++ ".xml") (chart_part_xml c).
Proof. exact (slide_charts X title slides st i s). Qed.
Print Assumptions C13_slide_charts.
Example C13_slide_charts_case : forallb deck_slide_ok deck0 = true /\ forallb stored deck0 = true /\ charts_before deck0 2 = 1 /\ option_map (fun s => length (s_charts s)) (nth_error deck0 2) = Some 2.
Proof. repeat split. Qed.

(** C13: the notes parts are numbered 1, 2, ...; a slide with notes has one link
    to a notes part that holds its text and links back; one without has none. *)
Theorem C13_notes_parts X title slides st :
  map fst (family "ppt/notesSlides/notesSlide" (create_pptx_with_settings X title slides st)) = map (fun k => ("ppt/notesSlides/notesSlide" ++ decn k ++ ".xml")%string) (seq 1 (length (filter noted slides))).
Proof. exact (notes_names X title slides st). Qed.
Print Assumptions C13_notes_parts.
Theorem C13_notes X title slides st i s t : nth_error slides i = Some s -> deck_slide_ok s = true -> stored s = true -> s_notes s = Some t -> text_ok t = true ->
  exists rels n x m, relations (create_pptx_with_settings X title slides st) ["ppt"; "slides"] ("slide" ++ decn (i + 1) ++ ".xml") rels /\ length (rels_kind "notesSlide" rels) = 1
    /\ xml_read n = Some x /\ page_texts "body" x = [[t]]
    /\ linked (create_pptx_with_settings X title slides st) ["ppt"; "slides"] ("slide" ++ decn (i + 1) ++ ".xml") "rId2" "notesSlide" ("ppt/notesSlides/notesSlide" ++ decn (notes_before slides i + 1) ++ ".xml") n
    /\ linked (create_pptx_with_settings X title slides st) ["ppt"; "notesSlides"] ("notesSlide" ++ decn (notes_before slides i + 1) ++ ".xml") "rId1" "slide" ("ppt/slides/slide" ++ decn (i + 1) ++ ".xml") m.
Proof. intros A B C. exact (slide_notes X title slides st i s A B C t). Qed.
Print Assumptions C13_notes.
Theorem C13_no_notes X title slides st i s : nth_error slides i = Some s -> deck_slide_ok s = true -> stored s = true -> s_notes s = None ->
  exists rels, relations (create_pptx_with_settings X title slides st) ["ppt"; "slides"] ("slide" ++ decn (i + 1) ++ ".xml") rels /\ rels_kind "notesSlide" rels = [].
Proof. exact (slide_no_notes X title slides st i s). Qed.
Print Assumptions C13_no_notes.
Example C13_notes_case : length (filter noted deck0) = 2 /\ notes_before deck0 2 = 1 /\ option_map s_notes (nth_error deck0 2) = Some (Some "and this") /\ text_ok "Say < this" = true.
Proof. repeat split. Qed.

(** C14: the media parts are the different (bytes, extension) pairs of the deck,
    in order of first use, numbered from 1. *)
Theorem C14_media_parts X title slides st : let media := uniques media_eqb (all_media slides) in
  family "ppt/media/" (create_pptx_with_settings X title slides st)
  = map (fun p => (("ppt/media/image" ++ decn (fst p) ++ "." ++ snd (snd p))%string, fst (snd p))) (combine (seq 1 (length media)) media).
Proof. exact (media_family X title slides st). Qed.
Print Assumptions C14_media_parts.
(** C14: each image of each slide is linked to a part with its bytes, and two
    images share a part exactly when bytes and extension are equal. *)
Theorem C14_images X title slides st i s k m b i' s' k' m' b' :
  nth_error slides i = Some s -> deck_slide_ok s = true -> stored s = true -> nth_error (s_images s) k = Some m -> im_bytes m = Some b -> sforall (fun c => negb (Ascii.eqb c "/")) (im_ext m) = true ->
  nth_error slides i' = Some s' -> deck_slide_ok s' = true -> stored s' = true -> nth_error (s_images s') k' = Some m' -> im_bytes m' = Some b' -> sforall (fun c => negb (Ascii.eqb c "/")) (im_ext m') = true ->
  exists x p r n x' p' r' n',
    shows (create_pptx_with_settings X title slides st) ("ppt/slides/slide" ++ decn (i + 1) ++ ".xml") x /\ nth_error (slide_pictures x) k = Some p /\ picture_info p = ([(im_name m, im_alt m)], [r])
    /\ linked (create_pptx_with_settings X title slides st) ["ppt"; "slides"] ("slide" ++ decn (i + 1) ++ ".xml") r "image" n b
    /\ shows (create_pptx_with_settings X title slides st) ("ppt/slides/slide" ++ decn (i' + 1) ++ ".xml") x' /\ nth_error (slide_pictures x') k' = Some p' /\ picture_info p' = ([(im_name m', im_alt m')], [r'])
    /\ linked (create_pptx_with_settings X title slides st) ["ppt"; "slides"] ("slide" ++ decn (i' + 1) ++ ".xml") r' "image" n' b'
    /\ (n = n' <-> b = b' /\ im_ext m = im_ext m').
Proof. exact (shared X title slides st i s k m b i' s' k' m' b'). Qed.
Print Assumptions C14_images.
Example C14_case : uniques media_eqb (all_media deck0) = [("one", "png"); ("two", "jpg"); ("one", "gif")] /\ length (all_media deck0) = 4.
Proof. split; reflexivity. Qed.

(** C15: the relationship ids used in the [i]-th slide are those of its
    hyperlinks, pictures, charts and ink; each is in the relationship part with
    the right kind; all ids of the part differ. *)
Theorem C15_slide_relationships X title slides st i s : nth_error slides i = Some s -> deck_slide_ok s = true -> stored s = true -> link_ids_free s ->
  exists x rels P C K, shows (create_pptx_with_settings X title slides st) ("ppt/slides/slide" ++ decn (i + 1) ++ ".xml") x
    /\ relations (create_pptx_with_settings X title slides st) ["ppt"; "slides"] ("slide" ++ decn (i + 1) ++ ".xml") rels /\ NoDup (map rel_id rels)
    /\ rel_ids_used x = map snd (slide_links s) ++ P ++ C ++ K
    /\ length P = length (s_images s) /\ Forall (of_kind rels "image") P
    /\ length C = length (s_charts s) /\ Forall (of_kind rels "chart") C
    /\ length K = (if s_ink s then 1 else 0) /\ Forall (of_kind rels "ink") K
    /\ (forall h r, In (h, r) (slide_links s) -> In (Rel r (doc_rel "hyperlink") (fst (destination (h_action h))) (snd (destination (h_action h)))) rels).
Proof. exact (slide_rel_ids X title slides st i s). Qed.
Print Assumptions C15_slide_relationships.
Example C15_case : exists s, nth_error deck0 0 = Some s /\ deck_slide_ok s = true /\ stored s = true /\ link_ids_free s /\ length (s_images s) = 2 /\ length (s_charts s) = 1 /\ s_ink s = true /\ length (slide_links s) = 1.
Proof.
  eexists. split; [reflexivity|]. split; [vm_compute; reflexivity|]. split; [reflexivity|]. split; [|repeat split].
  split; [repeat constructor; intros []|]. intros r k [<-|[]] _. discriminate.
Qed.
(** An image that cannot be loaded shifts the ids of the slide but not those of
    its relationships. *)
Theorem C15_unloadable_image_refuted X title st : exists s, deck_slide_ok s = true /\ link_ids_free s
  /\ exists x rels, shows (create_pptx_with_settings X title [s] st) "ppt/slides/slide1.xml" x /\ relations (create_pptx_with_settings X title [s] st) ["ppt"; "slides"] "slide1.xml" rels
     /\ flat_map chart_ids (slide_frames x) = ["rId3"] /\ ~ In "rId3" (map rel_id rels).
Proof. exact (ex_intro _ _ (unloadable X title st)). Qed.
Print Assumptions C15_unloadable_image_refuted.
(** A hyperlink id chosen by the caller can be one already taken. *)
Theorem C15_taken_id_refuted X title st : exists s, deck_slide_ok s = true /\ stored s = true
  /\ exists rels, relations (create_pptx_with_settings X title [s] st) ["ppt"; "slides"] "slide1.xml" rels /\ ~ NoDup (map rel_id rels).
Proof. exact (ex_intro _ _ (taken_id X title st)). Qed.
Print Assumptions C15_taken_id_refuted.

(** C17, C51: when the images are jpg, png or gif, every part has the content
    type its kind must have, and every override names a part of the deck. *)
Theorem C51_content_types X title slides st : (forall b e, In (b, e) (all_media slides) -> In e ["jpg"; "png"; "gif"]) ->
  exists xml types, In ("[Content_Types].xml", xml) (create_pptx_with_settings X title slides st) /\ types_of xml = Some types
    /\ (forall n c, In (n, c) (create_pptx_with_settings X title slides st) -> n <> "[Content_Types].xml" -> content_type types n = wanted_type n /\ wanted_type n <> None)
    /\ (forall o, In o (snd types) -> exists n c, fst o = ("/" ++ n)%string /\ In (n, c) (create_pptx_with_settings X title slides st)).
Proof. exact (typed_all X title slides st). Qed.
Print Assumptions C51_content_types.
Example C51_content_types_case : all_media deck0 = [("one", "png"); ("two", "jpg"); ("one", "gif"); ("one", "png")].
Proof. reflexivity. Qed.
Theorem C17_media_types X title slides st : (forall b e, In (b, e) (all_media slides) -> In e ["jpg"; "png"; "gif"]) ->
  exists xml types, In ("[Content_Types].xml", xml) (create_pptx_with_settings X title slides st) /\ types_of xml = Some types
    /\ forall n c, In (n, c) (family "ppt/media/" (create_pptx_with_settings X title slides st)) -> exists t, In (extension_of n, t) image_types /\ content_type types n = Some t.
Proof. exact (typed_media X title slides st). Qed.
Print Assumptions C17_media_types.
(** Any other format is stored in a part without content type. *)
Theorem C17_other_formats_refuted X title st b e : lowercase e = e -> sforall (fun c => negb (Ascii.eqb c ".")) e = true -> ~ In e ["jpg"; "png"; "gif"; "rels"; "xml"; "xlsx"; "sigs"; "fntdata"] ->
  exists slides xml types, In ("[Content_Types].xml", xml) (create_pptx_with_settings X title slides st) /\ types_of xml = Some types
    /\ In (("ppt/media/image1." ++ e)%string, b) (create_pptx_with_settings X title slides st) /\ content_type types ("ppt/media/image1." ++ e) = None.
Proof. intros A B C. exact (ex_intro _ _ (untyped X title st b e A B C)). Qed.
Print Assumptions C17_other_formats_refuted.
Example C17_case : Forall (fun e => lowercase e = e /\ sforall (fun c => negb (Ascii.eqb c ".")) e = true /\ ~ In e ["jpg"; "png"; "gif"; "rels"; "xml"; "xlsx"; "sigs"; "fntdata"]) ["jpeg"; "bmp"; "tiff"; "svg"; "webp"].
Proof. repeat (constructor; [split; [reflexivity|split; [reflexivity|cbn; intuition discriminate]]|]). constructor. Qed.

(** C45: adding slides and presentations in any order gives the deck of all
    their slides in that order; without slides there is no deck. *)
Theorem C45_merge X title st ops :
  build X (with_settings (fold_left (fun p o => match o with inl s => add_slide p s | inr q => add_presentation p q end) ops (with_title title)) st)
  = match flat_map (fun o => match o with inl s => [s] | inr q => p_slides q end) ops with [] => None | l => Some (create_pptx_with_settings X title l st) end.
Proof. exact (build_ops X title st ops). Qed.
Print Assumptions C45_merge.
Example C45_case X : build X (with_title "T") = None
  /\ build X (add_slide (add_presentation (with_title "T") (add_slide new_presentation inked)) (slide_new "x")) = Some (create_pptx_with_settings X "T" [inked; slide_new "x"] no_settings).
Proof. split; reflexivity. Qed.

(** C51: no two parts of a deck have the same name. *)
Theorem C51_names_distinct X title slides st : NoDup (map part_name (st_fonts st)) -> NoDup (map fst (create_pptx_with_settings X title slides st)).
Proof. exact (deck_NoDup X title (length slides) (Some slides) st). Qed.
Print Assumptions C51_names_distinct.
Theorem C51_font_names_refuted X title slides : exists st, length (st_fonts st) = 2 /\ NoDup (map f_typeface (st_fonts st)) /\ ~ NoDup (map fst (create_pptx_with_settings X title slides st)).
Proof. exact (ex_intro _ _ (same_fonts X title slides)). Qed.
Print Assumptions C51_font_names_refuted.
(** C51: every relationship inside the package leads to a part that exists,
    from whichever relationship part. *)
Theorem C51_closed X title slides st dir f xml : deck_ok slides st = true -> Forall name dir -> sforall (fun c => negb (Ascii.eqb c "/")) f = true ->
  In (path (dir ++ ["_rels"; (f ++ ".rels")%string]), xml) (create_pptx_with_settings X title slides st) -> closed_at (create_pptx_with_settings X title slides st) dir xml.
Proof. exact (deck_closed X title slides st dir f xml). Qed.
Print Assumptions C51_closed.
Example C51_case : deck_ok deck0 settings0 = true /\ NoDup (map part_name (st_fonts settings0)).
Proof. split; [reflexivity|]. repeat constructor; cbn; intuition discriminate. Qed.
(** A deck of empty slides is closed and typed for every number of slides. *)
Theorem C51_plain_closed X title count dir f xml : Forall name dir -> sforall (fun c => negb (Ascii.eqb c "/")) f = true ->
  In (path (dir ++ ["_rels"; (f ++ ".rels")%string]), xml) (create_pptx X title count) -> closed_at (create_pptx X title count) dir xml.
Proof. exact (plain_closed X title count dir f xml). Qed.
Print Assumptions C51_plain_closed.
Theorem C51_plain_content_types X title count :
  exists xml types, In ("[Content_Types].xml", xml) (create_pptx X title count) /\ types_of xml = Some types
    /\ (forall n c, In (n, c) (create_pptx X title count) -> n <> "[Content_Types].xml" -> content_type types n = wanted_type n /\ wanted_type n <> None)
    /\ (forall o, In o (snd types) -> exists n c, fst o = ("/" ++ n)%string /\ In (n, c) (create_pptx X title count)).
Proof. exact (typed_plain X title count). Qed.
Print Assumptions C51_plain_content_types.
(** A shape that jumps to the first slide has a relationship that leads nowhere. *)
Theorem C51_jump_refuted X title st : exists s, deck_slide_ok s = true /\ stored s = true /\ link_ids_free s
  /\ has_rel (create_pptx_with_settings X title [s] st) ["ppt"; "slides"] "slide1.xml" (Rel "jump" (doc_rel "hyperlink") "ppaction://hlinkshowjump?jump=firstslide" "")
  /\ forall n c, leads ["ppt"; "slides"] "ppaction://hlinkshowjump?jump=firstslide" n -> ~ In (n, c) (create_pptx_with_settings X title [s] st).
Proof. exact (ex_intro _ _ (jump X title st)). Qed.
Print Assumptions C51_jump_refuted.

(** C52: from a lazy source that gives all its slides, the same parts are
    written as from the list of slides, in another order, and without signature,
    fonts and ink the same content types are declared. *)
Theorem C52_lazy X title src slides st : slide_count src = length slides -> (forall i, i < length slides -> generate_slide src i = nth_error slides i) -> forallb stored slides = true ->
  exists ct1 ct2 rest1 rest2, write_package_files_lazy X title src st = ("[Content_Types].xml", ct1) :: rest1 /\ create_pptx_with_settings X title slides st = ("[Content_Types].xml", ct2) :: rest2
    /\ Permutation rest1 rest2
    /\ (st_signature st = false -> st_fonts st = [] -> forallb (fun s => negb (s_ink s)) slides = true ->
        exists df ov1 ov2, types_of ct1 = Some (df, ov1) /\ types_of ct2 = Some (df, ov2) /\ Permutation ov1 ov2).
Proof. exact (lazy_deck X title src slides st). Qed.
Print Assumptions C52_lazy.
Example C52_case : forallb stored deck0 = true /\ forallb (fun s => negb (s_ink s)) (tl deck0) = true /\ (forall i, i < 3 -> generate_slide (Source 3 (fun i => nth_error deck0 i)) i = nth_error deck0 i).
Proof. split; [reflexivity|]. split; [reflexivity|]. intros. reflexivity. Qed.
(** Signature, fonts and ink of a lazy deck are left without content type. *)
Theorem C52_content_types_refuted X title : exists src st xml types, In ("[Content_Types].xml", xml) (write_package_files_lazy X title src st) /\ types_of xml = Some types
    /\ (exists c, In ("_xmlsignatures/origin.sigs", c) (write_package_files_lazy X title src st)) /\ content_type types "_xmlsignatures/origin.sigs" = None
    /\ (exists c, In ("ppt/fonts/A-regular.fntdata", c) (write_package_files_lazy X title src st)) /\ content_type types "ppt/fonts/A-regular.fntdata" = None
    /\ (exists c, In ("ppt/ink/ink1.xml", c) (write_package_files_lazy X title src st)) /\ content_type types "ppt/ink/ink1.xml" = Some "application/xml".
Proof. exact (ex_intro _ _ (ex_intro _ _ (lazy_untyped X title))). Qed.
Print Assumptions C52_content_types_refuted.
(** A source that does not give one of its slides: the presentation still lists
    it. *)
Theorem C52_missing_slide_refuted X title : exists src,
  has_rel (write_package_files_lazy X title src no_settings) ["ppt"] "presentation.xml" (Rel "rId3" (doc_rel "slide") "slides/slide2.xml" "")
  /\ forall n c, leads ["ppt"] "slides/slide2.xml" n -> ~ In (n, c) (write_package_files_lazy X title src no_settings).
Proof. exact (ex_intro _ _ (lazy_missing X title)). Qed.
Print Assumptions C52_missing_slide_refuted.
