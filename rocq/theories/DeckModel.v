(** Model of src/generator/builder.rs: the zip entries of a generated deck, in
    the order in which they are written, for the eager and the lazy writer; of
    media_registry.rs and of notes_xml.rs. *)
From Coq Require Import String Ascii List Bool Arith NArith.
From Verif Require Import Str Num EscapeModel GenModel FontsModel DocPropsModel ChartModel ShapeModel SlideModel.
Import ListNotations.
Open Scope nat_scope.
Open Scope string_scope.

(** notes_xml.rs:7-97 [generate_field_guid] (for slide numbers below 16^12) and
    [create_notes_xml] *)
Definition field_guid (slide_num : nat) : string := "{B0E4A5D7-2C3F-4A8B-9E1D-" ++ hexw 12 (N.of_nat slide_num) ++ "}".
Definition create_notes_xml (slide_num : nat) (notes_text : string) : string :=
  ("<?xml version=""1.0"" encoding=""UTF-8"" standalone=""yes""?>
<p:notes xmlns:a=""http://schemas.openxmlformats.org/drawingml/2006/main"" xmlns:r=""http://schemas.openxmlformats.org/officeDocument/2006/relationships"" xmlns:p=""http://schemas.openxmlformats.org/presentationml/2006/main"">
<p:cSld>
<p:spTree>
<p:nvGrpSpPr>
<p:cNvPr id=""1"" name=""""/>
<p:cNvGrpSpPr/>
<p:nvPr/>
</p:nvGrpSpPr>
<p:grpSpPr>
<a:xfrm>
<a:off x=""0"" y=""0""/>
<a:ext cx=""0"" cy=""0""/>
<a:chOff x=""0"" y=""0""/>
<a:chExt cx=""0"" cy=""0""/>
</a:xfrm>
</p:grpSpPr>
<p:sp>
<p:nvSpPr>
<p:cNvPr id=""2"" name=""Slide Image Placeholder 1""/>
<p:cNvSpPr>
<a:spLocks noGrp=""1"" noRot=""1"" noChangeAspect=""1""/>
</p:cNvSpPr>
<p:nvPr>
<p:ph type=""sldImg""/>
</p:nvPr>
</p:nvSpPr>
<p:spPr/>
</p:sp>
<p:sp>
<p:nvSpPr>
<p:cNvPr id=""3"" name=""Notes Placeholder 2""/>
<p:cNvSpPr>
<a:spLocks noGrp=""1""/>
</p:cNvSpPr>
<p:nvPr>
<p:ph type=""body"" idx=""1""/>
</p:nvPr>
</p:nvSpPr>
<p:spPr/>
<p:txBody>
<a:bodyPr/>
<a:lstStyle/>
<a:p>
<a:r>
<a:rPr lang=""en-US"" dirty=""0""/>
<a:t>" ++ escape_xml notes_text ++ "</a:t>
</a:r>
</a:p>
</p:txBody>
</p:sp>
<p:sp>
<p:nvSpPr>
<p:cNvPr id=""4"" name=""Slide Number Placeholder 3""/>
<p:cNvSpPr>
<a:spLocks noGrp=""1""/>
</p:cNvSpPr>
<p:nvPr>
<p:ph type=""sldNum"" sz=""quarter"" idx=""10""/>
</p:nvPr>
</p:nvSpPr>
<p:spPr/>
<p:txBody>
<a:bodyPr/>
<a:lstStyle/>
<a:p>
<a:fld id=""" ++ field_guid slide_num ++ """ type=""slidenum"">
<a:rPr lang=""en-US""/>
<a:t>" ++ decn slide_num ++ "</a:t>
</a:fld>
<a:endParaRPr lang=""en-US""/>
</a:p>
</p:txBody>
</p:sp>
</p:spTree>
</p:cSld>
<p:clrMapOvr>
<a:masterClrMapping/>
</p:clrMapOvr>
</p:notes>").

(** media_registry.rs:5-38 [MediaRegistry]: entries are (bytes, extension). *)
Definition registry := list (string * string).
Definition same_media (b e : string) (x : string * string) : bool := String.eqb (fst x) b && String.eqb (snd x) e.
Fixpoint position {A} (f : A -> bool) (l : list A) : option nat :=
  match l with [] => None | x :: r => if f x then Some 0 else option_map S (position f r) end.
Definition lookup_number (r : registry) (bytes ext : string) : option nat := option_map (fun i => i + 1) (position (same_media bytes ext) r).
Definition image_number (r : registry) (bytes ext : string) : registry * nat :=
  match lookup_number r bytes ext with Some n => (r, n) | None => ((r ++ [(bytes, ext)])%list, length (r ++ [(bytes, ext)])%list) end.
Definition extensions (r : registry) : list string := map snd r.

(** builder.rs:49-59 [build_media_registry].  [get_bytes] of an image gives the
    same bytes each time it is called (files do not change meanwhile). *)
Definition register_image (r : registry) (i : image) : registry :=
  match im_bytes i with Some b => fst (image_number r b (im_ext i)) | None => r end.
Definition build_media_registry (slides : list slide) : registry :=
  fold_left (fun r s => fold_left register_image (s_images s) r) slides [].
(** builder.rs:75-84 [slide_image_rel_targets] *)
Definition slide_image_rel_targets (r : registry) (s : slide) : list (nat * string) :=
  flat_map (fun i => match im_bytes i with
    | Some b => match lookup_number r b (im_ext i) with Some n => [(n, im_ext i)] | None => [] end
    | None => [] end) (s_images s).
(** builder.rs:90-102 [slide_hyperlink_relationships] *)
Definition slide_hyperlink_relationships (s : slide) : list string :=
  flat_map (fun t => match sh_link t with Some h => match h_rid h with Some r => [hyperlink_relationship_xml h r] | None => [] end | None => [] end) (s_shapes s).
(** builder.rs:45-47 [slide_content_rel_start]; has_notes is [slide.notes.is_some()] *)
Definition has_notes (s : slide) : bool := match s_notes s with Some _ => true | None => false end.
Definition slide_content_rel_start (notes : bool) (image_count : nat) : nat := 2 + (if notes then 1 else 0) + image_count.
(** layout.rs:24-34 [layout_number] (no template deck is modelled). *)
Definition layout_number (l : layout) : nat :=
  match l with CenteredTitle => 1 | TitleAndContent => 2 | TwoColumn => 3 | SectionHeader => 4 | Blank => 5 | TitleOnly => 6 | TitleAndBigContent => 7 end.

(** builder.rs:386-402 [collect_chart_info]: the first chart number of each
    slide, and the number of charts. *)
Fixpoint chart_starts (total : nat) (counts : list nat) : list nat :=
  match counts with [] => [] | c :: r => (total + 1) :: chart_starts (total + c) r end.
Definition chart_total (counts : list nat) : nat := fold_left Nat.add counts 0.
Definition chart_counts (slides : list slide) : list nat := map (fun s => length (s_charts s)) slides.

(** Paths: builder.rs:104-109, 360-376, 1019-1033 and the literals where used. *)
Definition slide_path (i : nat) : string := "ppt/slides/slide" ++ decn i ++ ".xml".
Definition slide_rels_path (i : nat) : string := "ppt/slides/_rels/slide" ++ decn i ++ ".xml.rels".
Definition notes_path (k : nat) : string := "ppt/notesSlides/notesSlide" ++ decn k ++ ".xml".
Definition notes_rels_path (k : nat) : string := "ppt/notesSlides/_rels/notesSlide" ++ decn k ++ ".xml.rels".
Definition ink_path (k : nat) : string := "ppt/ink/ink" ++ decn k ++ ".xml".
Definition chart_path (k : nat) : string := "ppt/charts/chart" ++ decn k ++ ".xml".
Definition chart_rels_path (k : nat) : string := "ppt/charts/_rels/chart" ++ decn k ++ ".xml.rels".
Definition embedding_path (k : nat) : string := "ppt/embeddings/" ++ chart_embedding_filename k.
Definition media_path (k : nat) (ext : string) : string := "ppt/media/image" ++ decn k ++ "." ++ ext.
Definition layout_path (n : nat) : string := "ppt/slideLayouts/slideLayout" ++ decn n ++ ".xml".
Definition layout_rels_path (n : nat) : string := "ppt/slideLayouts/_rels/slideLayout" ++ decn n ++ ".xml.rels".

(** An entry of the archive: its name and its bytes. *)
Definition entry := (string * string)%type.

(** What the model does not look into: the text of parts that refer to nothing
    (masters, layouts, themes, view settings, ink, the embedded workbook, the
    signature) and the time of writing. *)
Record statics := Statics {
  x_pres_props : string; x_view_props : string; x_table_styles : string; x_handout : string; x_notes_master : string;
  x_layout : nat -> string; x_master : string; x_theme1 : string; x_theme : string;
  x_ink : slide -> string; x_workbook : string; x_origin : string; x_signature : string; x_now : string }.
(** presentation_settings.rs, as far as it changes which parts there are: whether
    handouts are printed (builder.rs:426-431), whether there is a signature
    (434-438), the embedded fonts (441-451).  No template deck. *)
Record settings := Settings { st_handout : bool; st_signature : bool; st_fonts : list font }.
Definition no_settings : settings := Settings false false [].
Definition has_fonts (s : settings) : bool := match st_fonts s with [] => false | _ => true end.

Section DECK.
  Context (X : statics).

  (** builder.rs:379-384 [push_chart_rid], in the loops over a slide's charts *)
  Definition chart_rids (start n : nat) : list string := map (fun j => "rId" ++ decn (start + j)) (seq 0 n).
  (** builder.rs:1148-1198, [write_slides] with slides: [i] slides, [nn] notes and
      [kn] ink parts have been written. *)
  Fixpoint write_slides_from (i nn kn : nat) (l : list slide) : list entry :=
    match l with
    | [] => []
    | s :: r =>
        let start := slide_content_rel_start (has_notes s) (length (s_images s)) in
        let rids := chart_rids start (length (s_charts s)) in
        let kn' := if s_ink s then kn + 1 else kn in
        let ink := if s_ink s then Some ("rId" ++ decn (start + length (s_charts s))) else None in
        let nn' := if has_notes s then nn + 1 else nn in
        ((if s_ink s then [(ink_path kn', x_ink X s)] else [])
         ++ [(slide_path (i + 1), slide_xml s rids ink)]
         ++ match s_notes s with Some n => [(notes_path nn', create_notes_xml (i + 1) n)] | None => [] end
         ++ write_slides_from (i + 1) nn' kn' r)%list
    end.
  (** builder.rs:1199-1208, without slides *)
  Definition write_plain_slides (count : nat) : list entry := map (fun i => (slide_path i, simple_slide_xml (N.of_nat i) "Presentation")) (seq 1 count).

  (** builder.rs:1240-1249 and 1097-1106: the chart relationships of a slide *)
  Definition chart_rels (start_rid start_chart n : nat) : list (string * string) :=
    map (fun j => ("rId" ++ decn (start_rid + j), "../charts/chart" ++ decn (start_chart + j) ++ ".xml")) (seq 0 n).
  (** builder.rs:1211-1287 [write_slide_relationships_extended]; [starts] has one
      element per slide. *)
  Fixpoint write_slide_rels_from (reg : registry) (i nn kn : nat) (starts : list nat) (l : list slide) : list entry :=
    match l, starts with
    | s :: r, start_chart :: starts =>
        let images := slide_image_rel_targets reg s in
        let nn' := if has_notes s then nn + 1 else nn in
        let start := slide_content_rel_start (has_notes s) (length images) in
        let kn' := if s_ink s then kn + 1 else kn in
        (slide_rels_path (i + 1),
         create_slide_rels_xml_with_images (layout_number (s_layout s)) (has_notes s) (if has_notes s then nn' else 1)
           (chart_rels start start_chart (length (s_charts s))) images (slide_hyperlink_relationships s)
           (if s_ink s then Some (start + length (s_charts s), kn') else None))
        :: write_slide_rels_from reg (i + 1) nn' kn' starts r
    | _, _ => []
    end.
  Definition write_plain_slide_rels (count : nat) : list entry := map (fun i => (slide_rels_path i, create_slide_rels_xml)) (seq 1 count).

  (** builder.rs:1006-1024 [write_chart_package] *)
  Definition write_chart_package (k : nat) (c : chart) : list entry :=
    [(chart_path k, chart_part_xml c); (chart_rels_path k, create_chart_rels_xml (chart_embedding_filename k)); (embedding_path k, x_workbook X)].
  (** builder.rs:1290-1306 [write_charts] *)
  Fixpoint write_slide_charts (k : nat) (l : list chart) : list entry :=
    match l with [] => [] | c :: r => (write_chart_package k c ++ write_slide_charts (k + 1) r)%list end.
  Definition write_charts (starts : list nat) (l : list slide) : list entry :=
    flat_map (fun p => write_slide_charts (fst p) (s_charts (snd p))) (combine starts l).
  (** builder.rs:1309-1328 [write_notes_relationships] *)
  Fixpoint write_notes_rels_from (i nn : nat) (l : list slide) : list entry :=
    match l with
    | [] => []
    | s :: r =>
        if has_notes s then (notes_rels_path (nn + 1), create_notes_rels_xml (i + 1)) :: write_notes_rels_from (i + 1) (nn + 1) r
        else write_notes_rels_from (i + 1) nn r
    end.
  (** builder.rs:1343-1358 [write_images] *)
  Definition write_images (reg : registry) : list entry :=
    map (fun p => (media_path (fst p + 1) (snd (snd p)), fst (snd p))) (enumerate reg).
  (** builder.rs:603-621 [write_notes_master] *)
  Definition write_notes_master : list entry :=
    [("ppt/notesMasters/notesMaster1.xml", x_notes_master X); ("ppt/theme/theme2.xml", x_theme X);
     ("ppt/notesMasters/_rels/notesMaster1.xml.rels", create_notes_master_rels_xml)].
  (** builder.rs:580-601 [write_handout_master] *)
  Definition write_handout_master : list entry :=
    [("ppt/handoutMasters/handoutMaster1.xml", x_handout X); ("ppt/theme/theme3.xml", x_theme X);
     ("ppt/handoutMasters/_rels/handoutMaster1.xml.rels", create_handout_master_rels_xml)].
  (** builder.rs:561-578 [write_standard_package_parts] *)
  Definition write_standard : list entry :=
    [("ppt/presProps.xml", x_pres_props X); ("ppt/viewProps.xml", x_view_props X); ("ppt/tableStyles.xml", x_table_styles X)].
  (** builder.rs:623-689 [write_theme_and_layouts], no template *)
  Definition write_theme_and_layouts : list entry :=
    (flat_map (fun n => [(layout_path n, x_layout X n); (layout_rels_path n, layout_rels_xml)]) (seq 1 standard_layout_count)
     ++ [("ppt/slideMasters/slideMaster1.xml", x_master X); ("ppt/slideMasters/_rels/slideMaster1.xml.rels", create_master_rels_xml standard_layout_count);
         ("ppt/theme/theme1.xml", x_theme1 X)])%list.
  (** builder.rs:691-710 [write_document_properties] *)
  Definition write_document_properties (title : string) (count notes_count : nat) (titles : list string) : list entry :=
    [("docProps/core.xml", core_props_xml (x_now X) title); ("docProps/app.xml", app_props_xml count notes_count titles)].
  (** builder.rs:1330-1341 [write_embedded_font_parts], 1360-1379 [write_digital_signature_parts] *)
  Definition write_fonts (fonts : list font) : list entry := map (fun f => (part_name f, f_data f)) fonts.
  Definition write_signature : list entry := [("_xmlsignatures/origin.sigs", x_origin X); ("_xmlsignatures/sig1.xml", x_signature X)].

  Definition count_if {A} (f : A -> bool) (l : list A) : nat := length (filter f l).

  (** builder.rs:713-807 [write_package_files]; [custom] are the slides, without
      them [count] placeholder slides are written. *)
  Definition write_package_files (title : string) (count : nat) (custom : option (list slide)) (st : settings) : list entry :=
    let slides := match custom with Some l => l | None => [] end in
    let notes := existsb has_notes slides in
    let handout := st_handout st in
    let starts := chart_starts 0 (chart_counts slides) in
    let charts := chart_total (chart_counts slides) in
    let reg := build_media_registry slides in
    ([("[Content_Types].xml", content_types_eager count (count_if has_notes slides) charts handout (extensions reg) (st_signature st) (has_fonts st) (count_if s_ink slides));
      ("_rels/.rels", create_rels_xml_with_signature (st_signature st));
      ("ppt/_rels/presentation.xml.rels", presentation_rels count notes handout (st_fonts st));
      ("ppt/presentation.xml", presentation_xml count notes handout (st_fonts st))]
     ++ write_standard
     ++ (if handout then write_handout_master else [])
     ++ match custom with Some l => write_slides_from 0 0 0 l | None => write_plain_slides count end
     ++ match custom with Some l => write_slide_rels_from reg 0 0 0 starts l | None => write_plain_slide_rels count end
     ++ (if notes then write_notes_rels_from 0 0 slides ++ write_notes_master else [])
     ++ write_theme_and_layouts
     ++ write_document_properties title count (count_if has_notes slides) (collect_slide_titles (option_map (map s_title) custom) count)
     ++ (if Nat.ltb 0 charts then write_charts starts slides else [])
     ++ write_images reg
     ++ write_fonts (st_fonts st)
     ++ (if st_signature st then write_signature else []))%list.
  (** builder.rs:122-136 [create_pptx], 138-185 [create_pptx_with_content/settings],
      204-250 the same to a writer: the entries of the archive. *)
  Definition create_pptx (title : string) (slides : nat) : list entry := write_package_files title slides None no_settings.
  Definition create_pptx_with_settings (title : string) (slides : list slide) (st : settings) : list entry :=
    write_package_files title (length slides) (Some slides) st.

  (** ** Lazy slides: builder.rs:285-318 [LazySlideSource], a count and a generator
      that gives the same slide each time; [slide_features] and what depends on
      it are the default methods. *)
  Record source := Source { slide_count : nat; generate_slide : nat -> option slide }.
  Definition slide_features (src : source) (i : nat) : option (bool * nat) :=
    option_map (fun s => (has_notes s, length (s_charts s))) (generate_slide src i).
  Definition notes_at (src : source) (i : nat) : bool := match slide_features src i with Some (n, _) => n | None => false end.
  Definition charts_at (src : source) (i : nat) : nat := match slide_features src i with Some (_, c) => c | None => 0 end.
  Definition ink_at (src : source) (i : nat) : bool := match generate_slide src i with Some s => s_ink s | None => false end.
  Definition indices (src : source) : list nat := seq 0 (slide_count src).
  (** builder.rs:61-73 [build_media_registry_lazy] *)
  Definition build_media_registry_lazy (src : source) : registry :=
    fold_left (fun r i => match generate_slide src i with Some s => fold_left register_image (s_images s) r | None => r end) (indices src) [].
  (** builder.rs:1027-1122 [write_slide_packages_lazy]; [l] are the slide indices
      still to do with their first chart numbers. *)
  Fixpoint write_slides_lazy (src : source) (reg : registry) (nn kn : nat) (l : list (nat * nat)) : list entry :=
    match l with
    | [] => []
    | (i, start_chart) :: r =>
        match generate_slide src i with
        | None => write_slides_lazy src reg nn kn r
        | Some s =>
            let images := slide_image_rel_targets reg s in
            let start := slide_content_rel_start (has_notes s) (length images) in
            let n := length (s_charts s) in
            let kn' := if s_ink s then kn + 1 else kn in
            let ink := if s_ink s then Some ("rId" ++ decn (start + n)) else None in
            let nn' := if has_notes s then nn + 1 else nn in
            ((if s_ink s then [(ink_path kn', x_ink X s)] else [])
             ++ [(slide_path (i + 1), slide_xml s (chart_rids start n) ink)]
             ++ match s_notes s with Some t => [(notes_path nn', create_notes_xml (i + 1) t)] | None => [] end
             ++ [(slide_rels_path (i + 1),
                  create_slide_rels_xml_with_images (layout_number (s_layout s)) (has_notes s) (if has_notes s then nn' else 1)
                    (chart_rels start start_chart n) images (slide_hyperlink_relationships s)
                    (if s_ink s then Some (start + n, kn') else None))]
             ++ write_slide_charts start_chart (s_charts s)
             ++ write_slides_lazy src reg nn' kn' r)%list
        end
    end.
  (** builder.rs:1125-1145 [write_notes_relationships_lazy] *)
  Fixpoint write_notes_rels_lazy (src : source) (nn : nat) (l : list nat) : list entry :=
    match l with
    | [] => []
    | i :: r =>
        if notes_at src i then (notes_rels_path (nn + 1), create_notes_rels_xml (i + 1)) :: write_notes_rels_lazy src (nn + 1) r
        else write_notes_rels_lazy src nn r
    end.
  (** builder.rs:810-903 [write_package_files_lazy] *)
  Definition write_package_files_lazy (title : string) (src : source) (st : settings) : list entry :=
    let count := slide_count src in
    let notes := existsb (notes_at src) (indices src) in
    let handout := st_handout st in
    let counts := map (charts_at src) (indices src) in
    let starts := chart_starts 0 counts in
    let reg := build_media_registry_lazy src in
    ([("[Content_Types].xml", content_types_lazy count (count_if (notes_at src) (indices src)) (chart_total counts) handout (extensions reg)
         (st_signature st) (has_fonts st) (count_if (ink_at src) (indices src)));
      ("_rels/.rels", create_rels_xml_with_signature (st_signature st));
      ("ppt/_rels/presentation.xml.rels", presentation_rels count notes handout (st_fonts st));
      ("ppt/presentation.xml", presentation_xml count notes handout (st_fonts st))]
     ++ write_standard
     ++ (if handout then write_handout_master else [])
     ++ write_slides_lazy src reg 0 0 (enumerate starts)
     ++ (if notes then write_notes_rels_lazy src 0 (indices src) ++ write_notes_master else [])
     ++ write_theme_and_layouts
     ++ write_document_properties title count (count_if (notes_at src) (indices src))
          (collect_slide_titles_lazy (fun i => option_map s_title (generate_slide src i)) count)
     ++ write_images reg
     ++ write_fonts (st_fonts st)
     ++ (if st_signature st then write_signature else []))%list.
End DECK.

(** ** src/api.rs:24-95 [Presentation]: a title, slides and settings *)
Record presentation := Presentation { p_title : string; p_slides : list slide; p_settings : settings }.
Definition new_presentation : presentation := Presentation "" [] no_settings.
Definition with_title (t : string) : presentation := Presentation t [] no_settings.
Definition add_slide (p : presentation) (s : slide) : presentation := Presentation (p_title p) (p_slides p ++ [s])%list (p_settings p).
Definition add_presentation (p q : presentation) : presentation := Presentation (p_title p) (p_slides p ++ p_slides q)%list (p_settings p).
Definition with_settings (p : presentation) (s : settings) : presentation := Presentation (p_title p) (p_slides p) s.
(** api.rs:87-95 [build]: [None] is the error. *)
Definition build (X : statics) (p : presentation) : option (list entry) :=
  match p_slides p with [] => None | l => Some (create_pptx_with_settings X (p_title p) l (p_settings p)) end.
