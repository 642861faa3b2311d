(** The parts of a package as objects of their own (src/parts): each can be
    written with [to_xml] and read with [from_xml]. *)
From Coq Require Import String Ascii List Bool Arith NArith.
From Verif Require Import Str Num EscapeModel XmlTreeModel DocPropsModel ShapeModel SlideModel ReaderModel RelsModel.
Import ListNotations.
Open Scope string_scope.

(** ** Core properties *)
(** coreprops.rs:41-53 [CorePropertiesPart]; the path is constant. *)
Record core := Core { k_title : option string; k_subject : option string; k_creator : option string; k_keywords : option string; k_description : option string;
  k_by : option string; k_revision : option N; k_created : option string; k_modified : option string }.
(** coreprops.rs:56-72 [new]; coreprops.rs:11-37 [current_timestamp] is the same
    function as in props_xml.rs (DocPropsModel.timestamp). *)
Definition core_new (secs : N) : core :=
  Core None None (Some "pptx-rs") None None (Some "pptx-rs") (Some 1%N) (Some (timestamp secs)) (Some (timestamp secs)).
(** coreprops.rs:74-102 the setters *)
Definition set_title (s : string) (c : core) : core := Core (Some s) (k_subject c) (k_creator c) (k_keywords c) (k_description c) (k_by c) (k_revision c) (k_created c) (k_modified c).
Definition set_subject (s : string) (c : core) : core := Core (k_title c) (Some s) (k_creator c) (k_keywords c) (k_description c) (k_by c) (k_revision c) (k_created c) (k_modified c).
Definition set_creator (s : string) (c : core) : core := Core (k_title c) (k_subject c) (Some s) (k_keywords c) (k_description c) (k_by c) (k_revision c) (k_created c) (k_modified c).
Definition set_keywords (s : string) (c : core) : core := Core (k_title c) (k_subject c) (k_creator c) (Some s) (k_description c) (k_by c) (k_revision c) (k_created c) (k_modified c).
Definition set_description (s : string) (c : core) : core := Core (k_title c) (k_subject c) (k_creator c) (k_keywords c) (Some s) (k_by c) (k_revision c) (k_created c) (k_modified c).
(** coreprops.rs:104-110 [touch] *)
Definition touch (secs : N) (c : core) : core :=
  Core (k_title c) (k_subject c) (k_creator c) (k_keywords c) (k_description c) (k_by c) (match k_revision c with Some r => Some (wadd u32_max r 1) | None => None end) (k_created c) (Some (timestamp secs)).
(** coreprops.rs:141-190 the elements of [to_xml]; the escape function is
    coreprops.rs:112-118. *)
Definition core_el (n : string) (o : option string) : list string := match o with Some s => ["<" ++ n ++ ">" ++ chained_escape s ++ "</" ++ n ++ ">"] | None => [] end.
Definition core_rev (o : option N) : list string := match o with Some r => ["<cp:revision>" ++ dec r ++ "</cp:revision>"] | None => [] end.
Definition core_stamp (n : string) (o : option string) : list string := match o with Some s => ["<" ++ n ++ " xsi:type=""dcterms:W3CDTF"">" ++ s ++ "</" ++ n ++ ">"] | None => [] end.
Definition core_elements (c : core) : list string :=
  (core_el "dc:title" (k_title c) ++ core_el "dc:subject" (k_subject c) ++ core_el "dc:creator" (k_creator c) ++ core_el "cp:keywords" (k_keywords c)
   ++ core_el "dc:description" (k_description c) ++ core_el "cp:lastModifiedBy" (k_by c) ++ core_rev (k_revision c)
   ++ core_stamp "dcterms:created" (k_created c) ++ core_stamp "dcterms:modified" (k_modified c))%list.
(** coreprops.rs:192-200 *)
Definition core_xml (c : core) : string := ("<?xml version=""1.0"" encoding=""UTF-8"" standalone=""yes""?>
<cp:coreProperties xmlns:cp=""http://schemas.openxmlformats.org/package/2006/metadata/core-properties"" xmlns:dc=""http://purl.org/dc/elements/1.1/"" xmlns:dcterms=""http://purl.org/dc/terms/"" xmlns:dcmitype=""http://purl.org/dc/dcmitype/"" xmlns:xsi=""http://www.w3.org/2001/XMLSchema-instance"">
" ++ sjoin nl (core_elements c) ++ "
</cp:coreProperties>").
(** coreprops.rs:203-249 [from_xml] *)
Definition core_field (n : string) (root : xel) : option string :=
  match find_descendant n root with Some e => let t := text_content e in if String.eqb t "" then None else Some t | None => None end.
Definition core_from (xml : string) : option core :=
  match parse_str xml with
  | None => None
  | Some root => Some (Core (core_field "title" root) (core_field "subject" root) (core_field "creator" root) (core_field "keywords" root) (core_field "description" root) (core_field "lastModifiedBy" root)
      (match find_descendant "revision" root with Some e => parse_uint u32_max (text_content e) | None => None end) (core_field "created" root) (core_field "modified" root))
  end.

(** ** Application properties *)
(** app_props.rs:9-28 [AppPropertiesPart] *)
Record aprops := AProps { a_application : string; a_version : string; a_company : option string; a_format : string; a_slides : N; a_paragraphs : N; a_words : N; a_notes : N; a_hidden : N; a_clips : N;
  a_scale : bool; a_links : bool; a_shared : bool; a_changed : bool; a_xml : option string }.
(** app_props.rs:32-51 [new] *)
Definition app_new : aprops := AProps "Microsoft Office PowerPoint" "16.0000" None "On-screen Show (4:3)" 0 0 0 0 0 0 false false false false None.
(** app_props.rs:53-71 the setters *)
Definition app_set_application (s : string) (a : aprops) : aprops := AProps s (a_version a) (a_company a) (a_format a) (a_slides a) (a_paragraphs a) (a_words a) (a_notes a) (a_hidden a) (a_clips a) (a_scale a) (a_links a) (a_shared a) (a_changed a) (a_xml a).
Definition app_set_company (s : string) (a : aprops) : aprops := AProps (a_application a) (a_version a) (Some s) (a_format a) (a_slides a) (a_paragraphs a) (a_words a) (a_notes a) (a_hidden a) (a_clips a) (a_scale a) (a_links a) (a_shared a) (a_changed a) (a_xml a).
Definition app_set_slides (n : N) (a : aprops) : aprops := AProps (a_application a) (a_version a) (a_company a) (a_format a) n (a_paragraphs a) (a_words a) (a_notes a) (a_hidden a) (a_clips a) (a_scale a) (a_links a) (a_shared a) (a_changed a) (a_xml a).
Definition app_set_format (s : string) (a : aprops) : aprops := AProps (a_application a) (a_version a) (a_company a) s (a_slides a) (a_paragraphs a) (a_words a) (a_notes a) (a_hidden a) (a_clips a) (a_scale a) (a_links a) (a_shared a) (a_changed a) (a_xml a).
(** [Display] of [bool] *)
Definition show_bool (b : bool) : string := if b then "true" else "false".
(** app_props.rs:73-112 [generate_xml]: nothing is escaped. *)
Definition app_generate (a : aprops) : string :=
  ("<?xml version=""1.0"" encoding=""UTF-8"" standalone=""yes""?>
<Properties xmlns=""http://schemas.openxmlformats.org/officeDocument/2006/extended-properties"" xmlns:vt=""http://schemas.openxmlformats.org/officeDocument/2006/docPropsVTypes"">
  <Application>" ++ a_application a ++ "</Application>
  <AppVersion>" ++ a_version a ++ "</AppVersion>
  " ++ (match a_company a with Some c => "<Company>" ++ c ++ "</Company>" | None => "" end) ++ "
  <PresentationFormat>" ++ a_format a ++ "</PresentationFormat>
  <Slides>" ++ dec (a_slides a) ++ "</Slides>
  <Paragraphs>" ++ dec (a_paragraphs a) ++ "</Paragraphs>
  <Words>" ++ dec (a_words a) ++ "</Words>
  <Notes>" ++ dec (a_notes a) ++ "</Notes>
  <HiddenSlides>" ++ dec (a_hidden a) ++ "</HiddenSlides>
  <MMClips>" ++ dec (a_clips a) ++ "</MMClips>
  <ScaleCrop>" ++ show_bool (a_scale a) ++ "</ScaleCrop>
  <LinksUpToDate>" ++ show_bool (a_links a) ++ "</LinksUpToDate>
  <SharedDoc>" ++ show_bool (a_shared a) ++ "</SharedDoc>
  <HyperlinksChanged>" ++ show_bool (a_changed a) ++ "</HyperlinksChanged>
</Properties>").
(** app_props.rs:134-145 [to_xml], [from_xml] *)
Definition app_xml (a : aprops) : string := match a_xml a with Some x => x | None => app_generate a end.
Definition app_from (xml : string) : aprops := let a := app_new in AProps (a_application a) (a_version a) (a_company a) (a_format a) (a_slides a) (a_paragraphs a) (a_words a) (a_notes a) (a_hidden a) (a_clips a) (a_scale a) (a_links a) (a_shared a) (a_changed a) (Some xml).

(** ** The presentation *)
(** presentation.rs:10-26 [SlideRef], [PresentationPart] *)
Record pres := Pres { p_slides : list (N * string); p_master : option string; p_theme : option string; p_width : N; p_height : N }.
(** presentation.rs:30-39 [new] *)
Definition pres_new : pres := Pres [] None None 9144000 6858000.
(** presentation.rs:41-49 [set_slide_master], [set_theme]; 72-75 [set_dimensions] *)
Definition set_master (r : string) (p : pres) : pres := Pres (p_slides p) (Some r) (p_theme p) (p_width p) (p_height p).
Definition set_theme (r : string) (p : pres) : pres := Pres (p_slides p) (p_master p) (Some r) (p_width p) (p_height p).
Definition set_dimensions (w h : N) (p : pres) : pres := Pres (p_slides p) (p_master p) (p_theme p) w h.
(** presentation.rs:51-60 [add_slide]; the id is a u32. *)
Definition pres_add (r : string) (p : pres) : N * pres :=
  let i := wadd u32_max (wadd u32_max 256 (N.of_nat (length (p_slides p)) mod (u32_max + 1))) 1 in
  (i, Pres (p_slides p ++ [(i, r)])%list (p_master p) (p_theme p) (p_width p) (p_height p)).
(** presentation.rs:77-111 [create_relationships] *)
Definition pres_rels (p : pres) : rels :=
  let s := match p_master p with Some r => add_with_id r SlideMaster "slideMasters/slideMaster1.xml" rels_new | None => snd (add SlideMaster "slideMasters/slideMaster1.xml" rels_new) end in
  let s := match p_theme p with Some r => add_with_id r Theme "theme/theme1.xml" s | None => snd (add Theme "theme/theme1.xml" s) end in
  snd (fold_left (fun '(i, s) (x : N * string) => (S i, add_with_id (snd x) Slide ("slides/slide" ++ decn (i + 1) ++ ".xml") s)) (p_slides p) (0, s)).
(** presentation.rs:133-165 [to_xml] *)
Definition pres_xml (p : pres) : string :=
  let ids := sconcat (map (fun x : N * string => ("
<p:sldId id=""" ++ dec (fst x) ++ """ r:id=""" ++ snd x ++ """/>")) (p_slides p)) in
  ("<?xml version=""1.0"" encoding=""UTF-8"" standalone=""yes""?>
<p:presentation xmlns:a=""http://schemas.openxmlformats.org/drawingml/2006/main"" xmlns:r=""http://schemas.openxmlformats.org/officeDocument/2006/relationships"" xmlns:p=""http://schemas.openxmlformats.org/presentationml/2006/main"" saveSubsetFonts=""1"">
<p:sldMasterIdLst>
<p:sldMasterId id=""2147483648"" r:id=""" ++ (match p_master p with Some r => r | None => "rId1" end) ++ """/>
</p:sldMasterIdLst>
<p:sldIdLst>" ++ ids ++ "
</p:sldIdLst>
<p:sldSz cx=""" ++ dec (p_width p) ++ """ cy=""" ++ dec (p_height p) ++ """ type=""screen4x3""/>
<p:notesSz cx=""" ++ dec (p_height p) ++ """ cy=""" ++ dec (p_width p) ++ """/>
</p:presentation>").
(** presentation.rs:167-199 [from_xml] *)
Definition pres_from (xml : string) : option pres :=
  match parse_str xml with
  | None => None
  | Some root =>
      let refs := flat_map (fun e => match attr_of "id" e, attr_of "r:id" e with
                                     | Some i, Some r => match parse_uint u32_max i with Some n => [(n, r)] | None => [] end
                                     | _, _ => [] end) (find_all_descendants "sldId" root) in
      let master := match find_descendant "sldMasterId" root with Some e => attr_of "r:id" e | None => None end in
      let size n d := match find_descendant "sldSz" root with
                      | Some e => match attr_of n e with Some v => match parse_uint u32_max v with Some k => k | None => d end | None => d end
                      | None => d end in
      Some (Pres refs master None (size "cx" 9144000%N) (size "cy" 6858000%N))
  end.

(** ** Content types *)
(** content_types.rs:40-46 [ContentTypesPart] *)
Record ctypes := CTypes { t_defaults : list (string * string); t_overrides : list (string * string) }.
(** content_types.rs:50-70 [new] *)
Definition ctypes_new : ctypes := CTypes
  [("rels", "application/vnd.openxmlformats-package.relationships+xml"); ("xml", "application/xml"); ("jpeg", "image/jpeg"); ("jpg", "image/jpeg"); ("png", "image/png"); ("gif", "image/gif");
   ("bmp", "image/bmp"); ("tiff", "image/tiff"); ("svg", "image/svg+xml"); ("mp4", "video/mp4"); ("mp3", "audio/mpeg"); ("wav", "audio/wav")] [].
(** content_types.rs:72-82 [add_default], [add_override] *)
Definition add_default (e t : string) (c : ctypes) : ctypes := CTypes (t_defaults c ++ [(e, t)])%list (t_overrides c).
Definition add_override (n t : string) (c : ctypes) : ctypes := CTypes (t_defaults c) (t_overrides c ++ [(n, t)])%list.
(** content_types.rs:84-154 the named kinds of part *)
Definition add_presentation : ctypes -> ctypes := add_override "/ppt/presentation.xml" "application/vnd.openxmlformats-officedocument.presentationml.presentation.main+xml".
Definition add_slide_type (n : nat) : ctypes -> ctypes := add_override ("/ppt/slides/slide" ++ decn n ++ ".xml") "application/vnd.openxmlformats-officedocument.presentationml.slide+xml".
Definition add_slide_layout (n : nat) : ctypes -> ctypes := add_override ("/ppt/slideLayouts/slideLayout" ++ decn n ++ ".xml") "application/vnd.openxmlformats-officedocument.presentationml.slideLayout+xml".
Definition add_slide_master (n : nat) : ctypes -> ctypes := add_override ("/ppt/slideMasters/slideMaster" ++ decn n ++ ".xml") "application/vnd.openxmlformats-officedocument.presentationml.slideMaster+xml".
Definition add_theme (n : nat) : ctypes -> ctypes := add_override ("/ppt/theme/theme" ++ decn n ++ ".xml") "application/vnd.openxmlformats-officedocument.theme+xml".
Definition add_notes_slide (n : nat) : ctypes -> ctypes := add_override ("/ppt/notesSlides/notesSlide" ++ decn n ++ ".xml") "application/vnd.openxmlformats-officedocument.presentationml.notesSlide+xml".
Definition add_chart (n : nat) : ctypes -> ctypes := add_override ("/ppt/charts/chart" ++ decn n ++ ".xml") "application/vnd.openxmlformats-officedocument.drawingml.chart+xml".
Definition add_core_properties : ctypes -> ctypes := add_override "/docProps/core.xml" "application/vnd.openxmlformats-package.core-properties+xml".
Definition add_app_properties : ctypes -> ctypes := add_override "/docProps/app.xml" "application/vnd.openxmlformats-officedocument.extended-properties+xml".
(** content_types.rs:156-191 [generate_xml] *)
Definition ctypes_xml (c : ctypes) : string :=
  let d := sjoin "
  " (map (fun x : string * string => ("<Default Extension=""" ++ fst x ++ """ ContentType=""" ++ snd x ++ """/>")) (t_defaults c)) in
  let o := sjoin "
  " (map (fun x : string * string => ("<Override PartName=""" ++ fst x ++ """ ContentType=""" ++ snd x ++ """/>")) (t_overrides c)) in
  ("<?xml version=""1.0"" encoding=""UTF-8"" standalone=""yes""?>
<Types xmlns=""http://schemas.openxmlformats.org/package/2006/content-types"">
  " ++ d ++ "
  " ++ o ++ "
</Types>").
(** content_types.rs:217-220 [from_xml]: the text is not looked at. *)
Definition ctypes_from (xml : string) : ctypes := ctypes_new.

(** ** Layouts, masters, themes and notes *)
(** slide_layout.rs:8-62 [LayoutType] *)
Inductive layout_type := LTitle | LTitleAndContent | LSectionHeader | LTwoContent | LComparison | LTitleOnly | LBlank | LContentWithCaption | LPictureWithCaption | LTitleAndVerticalText | LVerticalTitleAndText | LCustom.
Definition layout_name (t : layout_type) : string :=
  match t with
  | LTitle => "Title Slide" | LTitleAndContent => "Title and Content" | LSectionHeader => "Section Header" | LTwoContent => "Two Content" | LComparison => "Comparison" | LTitleOnly => "Title Only" | LBlank => "Blank"
  | LContentWithCaption => "Content with Caption" | LPictureWithCaption => "Picture with Caption" | LTitleAndVerticalText => "Title and Vertical Text" | LVerticalTitleAndText => "Vertical Title and Text" | LCustom => "Custom"
  end.
Definition layout_value (t : layout_type) : string :=
  match t with
  | LTitle => "title" | LTitleAndContent => "obj" | LSectionHeader => "secHead" | LTwoContent => "twoObj" | LComparison => "twoTxTwoObj" | LTitleOnly => "titleOnly" | LBlank => "blank"
  | LContentWithCaption => "objTx" | LPictureWithCaption => "picTx" | LTitleAndVerticalText => "vertTx" | LVerticalTitleAndText => "vertTitleAndTx" | LCustom => "cust"
  end.
(** slide_layout.rs:64-124 [SlideLayoutPart]; the relationship id is never
    written and left out. *)
Record lpart := LPart { l_number : nat; l_type : layout_type; l_name : string; l_xml : option string }.
Definition layout_new (n : nat) (t : layout_type) : lpart := LPart n t (layout_name t) None.
Definition layout_set_name (s : string) (l : lpart) : lpart := LPart (l_number l) (l_type l) s (l_xml l).
Definition layout_path (l : lpart) : string := "ppt/slideLayouts/slideLayout" ++ decn (l_number l) ++ ".xml".
Definition layout_generate (l : lpart) : string := ("<?xml version=""1.0"" encoding=""UTF-8"" standalone=""yes""?>
<p:sldLayout xmlns:a=""http://schemas.openxmlformats.org/drawingml/2006/main"" xmlns:r=""http://schemas.openxmlformats.org/officeDocument/2006/relationships"" xmlns:p=""http://schemas.openxmlformats.org/presentationml/2006/main"" type=""" ++ layout_value (l_type l) ++ """ preserve=""1"">
  <p:cSld name=""" ++ l_name l ++ """>
    <p:spTree>
      <p:nvGrpSpPr>
        <p:cNvPr id=""1"" name=""""/>
        <p:cNvGrpSpPr/>
        <p:nvPr/>
      </p:nvGrpSpPr>
      <p:grpSpPr>
        <a:xfrm>
          <a:off x=""0"" y=""0""/>
          <a:ext cx=""0"" cy=""0""/>
          <a:chOff x=""0"" y=""0""/>
          <a:chExt cx=""0"" cy=""0""/>
        </a:xfrm>
      </p:grpSpPr>
    </p:spTree>
  </p:cSld>
  <p:clrMapOvr>
    <a:masterClrMapping/>
  </p:clrMapOvr>
</p:sldLayout>").
(** slide_layout.rs:163-180 *)
Definition layout_xml (l : lpart) : string := match l_xml l with Some x => x | None => layout_generate l end.
Definition layout_from (xml : string) : lpart := LPart 1 LTitleAndContent "Layout" (Some xml).

(** slide_master.rs:10-66 [SlideMasterPart]; its name and theme are never written. *)
Record master := Master { m_number : nat; m_layouts : list string; m_xml : option string }.
Definition master_new (n : nat) : master := Master n [] None.
Definition add_layout_rel_id (r : string) (m : master) : master := Master (m_number m) (m_layouts m ++ [r])%list (m_xml m).
(** [iter().position(|x| x == id).unwrap()] of an element of the list *)
Fixpoint position (r : string) (l : list string) : nat := match l with [] => 0 | x :: l => if String.eqb x r then 0 else S (position r l) end.
(** slide_master.rs:68-124 [generate_xml]; ids are u64. *)
Definition master_generate (m : master) : string :=
  let ids := sjoin "
      " (map (fun r => ("<p:sldLayoutId id=""" ++ dec (wadd u64_max 2147483649 (N.of_nat (position r (m_layouts m)))) ++ """ r:id=""" ++ r ++ """/>")) (m_layouts m)) in
  let shown := if String.eqb ids "" then "" else ("
      " ++ ids ++ "
  ") in
  ("<?xml version=""1.0"" encoding=""UTF-8"" standalone=""yes""?>
<p:sldMaster xmlns:a=""http://schemas.openxmlformats.org/drawingml/2006/main"" xmlns:r=""http://schemas.openxmlformats.org/officeDocument/2006/relationships"" xmlns:p=""http://schemas.openxmlformats.org/presentationml/2006/main"">
  <p:cSld>
    <p:bg>
      <p:bgRef idx=""1001"">
        <a:schemeClr val=""bg1""/>
      </p:bgRef>
    </p:bg>
    <p:spTree>
      <p:nvGrpSpPr>
        <p:cNvPr id=""1"" name=""""/>
        <p:cNvGrpSpPr/>
        <p:nvPr/>
      </p:nvGrpSpPr>
      <p:grpSpPr>
        <a:xfrm>
          <a:off x=""0"" y=""0""/>
          <a:ext cx=""0"" cy=""0""/>
          <a:chOff x=""0"" y=""0""/>
          <a:chExt cx=""0"" cy=""0""/>
        </a:xfrm>
      </p:grpSpPr>
    </p:spTree>
  </p:cSld>
  <p:clrMap bg1=""lt1"" tx1=""dk1"" bg2=""lt2"" tx2=""dk2"" accent1=""accent1"" accent2=""accent2"" accent3=""accent3"" accent4=""accent4"" accent5=""accent5"" accent6=""accent6"" hlink=""hlink"" folHlink=""folHlink""/>
  <p:sldLayoutIdLst>
    " ++ shown ++ "</p:sldLayoutIdLst>
  <p:txStyles>
    <p:titleStyle/>
    <p:bodyStyle/>
    <p:otherStyle/>
  </p:txStyles>
</p:sldMaster>").
Definition master_xml (m : master) : string := match m_xml m with Some x => x | None => master_generate m end.
Definition master_from (xml : string) : master := Master 1 [] (Some xml).

(** theme.rs:10-125 [ThemePart] *)
Record theme := ThemeP { h_number : nat; h_name : string; h_major : string; h_minor : string; h_colors : list (string * string); h_xml : option string }.
Definition default_colors : list (string * string) :=
  [("dk1", "000000"); ("lt1", "FFFFFF"); ("dk2", "44546A"); ("lt2", "E7E6E6"); ("accent1", "4472C4"); ("accent2", "ED7D31"); ("accent3", "A5A5A5"); ("accent4", "FFC000"); ("accent5", "5B9BD5"); ("accent6", "70AD47"); ("hlink", "0563C1"); ("folHlink", "954F72")].
Definition theme_new (n : nat) : theme := ThemeP n "Office Theme" "Calibri Light" "Calibri" default_colors None.
Definition theme_set_name (s : string) (t : theme) : theme := ThemeP (h_number t) s (h_major t) (h_minor t) (h_colors t) (h_xml t).
Definition theme_set_major (s : string) (t : theme) : theme := ThemeP (h_number t) (h_name t) s (h_minor t) (h_colors t) (h_xml t).
Definition theme_set_minor (s : string) (t : theme) : theme := ThemeP (h_number t) (h_name t) (h_major t) s (h_colors t) (h_xml t).
(** theme.rs:107-115 [set_color]: the first of that name, or a new one *)
Fixpoint put_color (n v : string) (l : list (string * string)) : list (string * string) :=
  match l with [] => [(n, v)] | (m, w) :: l => if String.eqb m n then (m, v) :: l else (m, w) :: put_color n v l end.
Definition theme_set_color (n v : string) (t : theme) : theme := ThemeP (h_number t) (h_name t) (h_major t) (h_minor t) (put_color n v (h_colors t)) (h_xml t).
(** theme.rs:122-184 [generate_xml] *)
Definition theme_generate (t : theme) : string :=
  let colors := sjoin "
        " (map (fun c : string * string => ("<a:" ++ fst c ++ " val=""" ++ fst c ++ """><a:srgbClr val=""" ++ snd c ++ """/></a:" ++ fst c ++ ">")) (h_colors t)) in
  ("<?xml version=""1.0"" encoding=""UTF-8"" standalone=""yes""?>
<a:theme xmlns:a=""http://schemas.openxmlformats.org/drawingml/2006/main"" name=""" ++ h_name t ++ """>
  <a:themeElements>
    <a:clrScheme name=""Office"">
      " ++ colors ++ "
    </a:clrScheme>
    <a:fontScheme name=""Office"">
      <a:majorFont>
        <a:latin typeface=""" ++ h_major t ++ """/>
        <a:ea typeface=""""/>
        <a:cs typeface=""""/>
      </a:majorFont>
      <a:minorFont>
        <a:latin typeface=""" ++ h_minor t ++ """/>
        <a:ea typeface=""""/>
        <a:cs typeface=""""/>
      </a:minorFont>
    </a:fontScheme>
    <a:fmtScheme name=""Office"">
      <a:fillStyleLst>
        <a:solidFill><a:schemeClr val=""phClr""/></a:solidFill>
        <a:gradFill rotWithShape=""1""><a:gsLst><a:gs pos=""0""><a:schemeClr val=""phClr""><a:tint val=""50000""/><a:satMod val=""300000""/></a:schemeClr></a:gs><a:gs pos=""35000""><a:schemeClr val=""phClr""><a:tint val=""37000""/><a:satMod val=""300000""/></a:schemeClr></a:gs><a:gs pos=""100000""><a:schemeClr val=""phClr""><a:tint val=""15000""/><a:satMod val=""350000""/></a:schemeClr></a:gs></a:gsLst><a:lin ang=""16200000"" scaled=""1""/></a:gradFill>
        <a:gradFill rotWithShape=""1""><a:gsLst><a:gs pos=""0""><a:schemeClr val=""phClr""><a:shade val=""51000""/><a:satMod val=""130000""/></a:schemeClr></a:gs><a:gs pos=""80000""><a:schemeClr val=""phClr""><a:shade val=""93000""/><a:satMod val=""130000""/></a:schemeClr></a:gs><a:gs pos=""100000""><a:schemeClr val=""phClr""><a:shade val=""94000""/><a:satMod val=""135000""/></a:schemeClr></a:gs></a:gsLst><a:lin ang=""16200000"" scaled=""0""/></a:gradFill>
      </a:fillStyleLst>
      <a:lnStyleLst>
        <a:ln w=""6350"" cap=""flat"" cmpd=""sng"" algn=""ctr""><a:solidFill><a:schemeClr val=""phClr""/></a:solidFill><a:prstDash val=""solid""/><a:miter lim=""800000""/></a:ln>
        <a:ln w=""12700"" cap=""flat"" cmpd=""sng"" algn=""ctr""><a:solidFill><a:schemeClr val=""phClr""/></a:solidFill><a:prstDash val=""solid""/><a:miter lim=""800000""/></a:ln>
        <a:ln w=""19050"" cap=""flat"" cmpd=""sng"" algn=""ctr""><a:solidFill><a:schemeClr val=""phClr""/></a:solidFill><a:prstDash val=""solid""/><a:miter lim=""800000""/></a:ln>
      </a:lnStyleLst>
      <a:effectStyleLst>
        <a:effectStyle><a:effectLst/></a:effectStyle>
        <a:effectStyle><a:effectLst/></a:effectStyle>
        <a:effectStyle><a:effectLst><a:outerShdw blurRad=""57150"" dist=""19050"" dir=""5400000"" algn=""ctr"" rotWithShape=""0""><a:srgbClr val=""000000""><a:alpha val=""63000""/></a:srgbClr></a:outerShdw></a:effectLst></a:effectStyle>
      </a:effectStyleLst>
      <a:bgFillStyleLst>
        <a:solidFill><a:schemeClr val=""phClr""/></a:solidFill>
        <a:solidFill><a:schemeClr val=""phClr""><a:tint val=""95000""/><a:satMod val=""170000""/></a:schemeClr></a:solidFill>
        <a:gradFill rotWithShape=""1""><a:gsLst><a:gs pos=""0""><a:schemeClr val=""phClr""><a:tint val=""93000""/><a:satMod val=""150000""/><a:shade val=""98000""/><a:lumMod val=""102000""/></a:schemeClr></a:gs><a:gs pos=""50000""><a:schemeClr val=""phClr""><a:tint val=""98000""/><a:satMod val=""130000""/><a:shade val=""90000""/><a:lumMod val=""103000""/></a:schemeClr></a:gs><a:gs pos=""100000""><a:schemeClr val=""phClr""><a:shade val=""63000""/><a:satMod val=""120000""/></a:schemeClr></a:gs></a:gsLst><a:lin ang=""5400000"" scaled=""0""/></a:gradFill>
      </a:bgFillStyleLst>
    </a:fmtScheme>
  </a:themeElements>
  <a:objectDefaults/>
  <a:extraClrSchemeLst/>
</a:theme>").
Definition theme_xml (t : theme) : string := match h_xml t with Some x => x | None => theme_generate t end.
Definition theme_from (xml : string) : theme := ThemeP 1 "Office Theme" "Calibri Light" "Calibri" default_colors (Some xml).

(** notes_slide.rs:9-60 [NotesSlidePart] *)
Record npart := NPart { n_number : nat; n_text : string; n_xml : option string }.
Definition notes_new (n : nat) : npart := NPart n "" None.
Definition notes_with_text (n : nat) (s : string) : npart := NPart n s None.
Definition set_notes_text (s : string) (p : npart) : npart := NPart (n_number p) s None.
(** notes_slide.rs:64-125 [generate_xml] *)
Definition notes_generate (p : npart) : string :=
  let paragraphs := if String.eqb (n_text p) "" then "<a:p><a:endParaRPr lang=""en-US""/></a:p>"
                    else sjoin "
              " (map (fun line => ("<a:p><a:r><a:rPr lang=""en-US""/><a:t>" ++ escape_xml line ++ "</a:t></a:r></a:p>")) (lines (n_text p))) in
  ("<?xml version=""1.0"" encoding=""UTF-8"" standalone=""yes""?>
<p:notes xmlns:a=""http://schemas.openxmlformats.org/drawingml/2006/main"" xmlns:r=""http://schemas.openxmlformats.org/officeDocument/2006/relationships"" xmlns:p=""http://schemas.openxmlformats.org/presentationml/2006/main"">
  <p:cSld>
    <p:spTree>
      <p:nvGrpSpPr>
        <p:cNvPr id=""1"" name=""""/>
        <p:cNvGrpSpPr/>
        <p:nvPr/>
      </p:nvGrpSpPr>
      <p:grpSpPr>
        <a:xfrm>
          <a:off x=""0"" y=""0""/>
          <a:ext cx=""0"" cy=""0""/>
          <a:chOff x=""0"" y=""0""/>
          <a:chExt cx=""0"" cy=""0""/>
        </a:xfrm>
      </p:grpSpPr>
      <p:sp>
        <p:nvSpPr>
          <p:cNvPr id=""2"" name=""Slide Image Placeholder 1""/>
          <p:cNvSpPr><a:spLocks noGrp=""1"" noRot=""1"" noChangeAspect=""1""/></p:cNvSpPr>
          <p:nvPr><p:ph type=""sldImg""/></p:nvPr>
        </p:nvSpPr>
        <p:spPr/>
      </p:sp>
      <p:sp>
        <p:nvSpPr>
          <p:cNvPr id=""3"" name=""Notes Placeholder 2""/>
          <p:cNvSpPr><a:spLocks noGrp=""1""/></p:cNvSpPr>
          <p:nvPr><p:ph type=""body"" idx=""1""/></p:nvPr>
        </p:nvSpPr>
        <p:spPr/>
        <p:txBody>
          <a:bodyPr/>
          <a:lstStyle/>
          " ++ paragraphs ++ "
        </p:txBody>
      </p:sp>
    </p:spTree>
  </p:cSld>
  <p:clrMapOvr><a:masterClrMapping/></p:clrMapOvr>
</p:notes>").
Definition notes_part_xml (p : npart) : string := match n_xml p with Some x => x | None => notes_generate p end.
Definition notes_from (xml : string) : npart := NPart 1 "" (Some xml).

(** ** Slides *)
(** parts/slide.rs:14-72 [SlidePart] *)
Record spart := SPart { sp_number : nat; sp_content : option slide; sp_parsed : option pslide; sp_xml : option string }.
Definition spart_new (n : nat) : spart := SPart n None None None.
Definition spart_of (n : nat) (s : slide) : spart := SPart n (Some s) None None.
Definition set_content (s : slide) (p : spart) : spart := SPart (sp_number p) (Some s) (sp_parsed p) None.
Definition spart_path (p : spart) : string := "ppt/slides/slide" ++ decn (sp_number p) ++ ".xml".
Definition spart_rels_path (p : spart) : string := "ppt/slides/_rels/slide" ++ decn (sp_number p) ++ ".xml.rels".
(** parts/slide.rs:62-78 [title], [body_text] *)
Definition spart_title (p : spart) : option string := match sp_parsed p with Some d => sl_title d | None => None end.
Definition spart_body (p : spart) : list string := match sp_parsed p with Some d => sl_body d | None => [] end.
(** parts/slide.rs:85-96 [create_relationships], [rels_xml] *)
Definition spart_rels (p : spart) : rels := snd (add SlideLayout "../slideLayouts/slideLayout1.xml" rels_new).
(** parts/slide.rs:112-139 [to_xml] *)
Definition spart_xml (p : spart) : string :=
  match sp_xml p with
  | Some x => x
  | None => match sp_content p with
            | Some s => slide_xml s [] None
            | None => "<?xml version=""1.0"" encoding=""UTF-8"" standalone=""yes""?>
<p:sld xmlns:a=""http://schemas.openxmlformats.org/drawingml/2006/main"" xmlns:r=""http://schemas.openxmlformats.org/officeDocument/2006/relationships"" xmlns:p=""http://schemas.openxmlformats.org/presentationml/2006/main"">
<p:cSld>
<p:spTree>
<p:nvGrpSpPr>
<p:cNvPr id=""1"" name=""""/>
<p:cNvGrpSpPr/>
<p:nvPr/>
</p:nvGrpSpPr>
<p:grpSpPr/>
</p:spTree>
</p:cSld>
</p:sld>"
            end
  end.
(** parts/slide.rs:142-171 [from_xml], [parse_slide] *)
Definition spart_from (n : nat) (xml : string) : option spart := match parse_slide xml with Some d => Some (SPart n None (Some d) (Some xml)) | None => None end.
