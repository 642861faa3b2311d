(** Model of src/generator/package_xml.rs, src/generator/layout_parts.rs
    (relationship and content-type helpers) and the static relationship parts.
    [append_usize xml n] (src/core/xml_utils.rs:53) is [xml ++ decn n]. *)
From Coq Require Import String Ascii List Bool Arith NArith.
From Verif Require Import Str EscapeModel.
Import ListNotations.
Open Scope string_scope.

(** [str::rfind] + the two halves around the match. *)
Definition rsplit_once (p s : string) : option (string * string) :=
  match split_once (srev p) (srev s) with
  | Some (x, y) => Some (srev y, srev x)
  | None => None
  end.

(** [if let Some(pos) = xml.rfind(pat) { xml.insert_str(pos, ins) }]. *)
Definition insert_before_last (pat ins xml : string) : string :=
  match rsplit_once pat xml with
  | Some (x, y) => x ++ ins ++ pat ++ y
  | None => xml
  end.

(** src/generator/layout_parts.rs:8 [STANDARD_LAYOUT_COUNT]. *)
Definition standard_layout_count : nat := 7.

(** src/generator/package_xml.rs:12 [SLIDE_MASTER_ID]. *)
Definition slide_master_id : N := 2147483648%N.
(** src/generator/package_xml.rs:14 [SLIDE_LAYOUT_ID]. *)
Definition slide_layout_id : N := (slide_master_id + 1)%N.

(** src/generator/package_xml.rs:104-106 [slide_rel_id]. *)
Definition slide_rel_id (slide_num : nat) (has_notes has_handout : bool) : nat := slide_num + 1.
(** src/generator/package_xml.rs:109-111 [notes_master_rel_id]. *)
Definition notes_master_rel_id (slide_count : nat) : nat := slide_count + 2.
(** src/generator/package_xml.rs:114-116 [handout_master_rel_id]. *)
Definition handout_master_rel_id (slide_count : nat) (has_notes : bool) : nat :=
  slide_count + 2 + Nat.b2n has_notes.
(** src/generator/package_xml.rs:119-121 [pres_props_rel_id]. *)
Definition pres_props_rel_id (slide_count : nat) (has_notes has_handout : bool) : nat :=
  slide_count + 2 + Nat.b2n has_notes + Nat.b2n has_handout.
(** src/generator/package_xml.rs:124-126 [view_props_rel_id]. *)
Definition view_props_rel_id (slide_count : nat) (has_notes has_handout : bool) : nat :=
  pres_props_rel_id slide_count has_notes has_handout + 1.
(** src/generator/package_xml.rs:129-131 [theme_rel_id]. *)
Definition theme_rel_id (slide_count : nat) (has_notes has_handout : bool) : nat :=
  pres_props_rel_id slide_count has_notes has_handout + 2.
(** src/generator/package_xml.rs:134-136 [table_styles_rel_id]. *)
Definition table_styles_rel_id (slide_count : nat) (has_notes has_handout : bool) : nat :=
  pres_props_rel_id slide_count has_notes has_handout + 3.
(** src/generator/package_xml.rs:139-141 [slide_id_value]. *)
Definition slide_id_value (slide_num : nat) : nat := 255 + slide_num.

(** The type URI prefix is spelled out in each literal of the code. *)

(** src/generator/package_xml.rs:154-159 [PACKAGE_RELS_XML]. *)
Definition package_rels_xml : string :=
"<?xml version=""1.0"" encoding=""UTF-8"" standalone=""yes""?>
<Relationships xmlns=""http://schemas.openxmlformats.org/package/2006/relationships"">
<Relationship Id=""rId1"" Type=""http://schemas.openxmlformats.org/officeDocument/2006/relationships/officeDocument"" Target=""ppt/presentation.xml""/>
<Relationship Id=""rId2"" Type=""http://schemas.openxmlformats.org/package/2006/relationships/metadata/core-properties"" Target=""docProps/core.xml""/>
<Relationship Id=""rId3"" Type=""http://schemas.openxmlformats.org/officeDocument/2006/relationships/extended-properties"" Target=""docProps/app.xml""/>
</Relationships>".

(** src/generator/package_xml.rs:167-180 [create_rels_xml_with_signature]. *)
Definition create_rels_xml_with_signature (has_signature : bool) : string :=
  if has_signature then
    insert_before_last "</Relationships>"
      "<Relationship Id=""rId4"" Type=""http://schemas.openxmlformats.org/package/2006/relationships/digital-signature/origin"" Target=""_xmlsignatures/origin.sigs""/>"
      package_rels_xml
  else package_rels_xml.

(** src/generator/package_xml.rs:205-212, one turn of the slide loop. *)
Definition pres_slide_rel (has_notes has_handout : bool) (i : nat) : string :=
  "
<Relationship Id=""rId" ++ decn (slide_rel_id i has_notes has_handout) ++
  """ Type=""http://schemas.openxmlformats.org/officeDocument/2006/relationships/slide"" Target=""slides/slide" ++
  decn i ++ ".xml""/>".

(** src/generator/package_xml.rs:193-243 [create_presentation_rels_xml_full]. *)
Definition create_presentation_rels_xml_full (slides : nat) (has_notes has_handout : bool) : string :=
  "<?xml version=""1.0"" encoding=""UTF-8"" standalone=""yes""?>
<Relationships xmlns=""http://schemas.openxmlformats.org/package/2006/relationships"">
<Relationship Id=""rId1"" Type=""http://schemas.openxmlformats.org/officeDocument/2006/relationships/slideMaster"" Target=""slideMasters/slideMaster1.xml""/>"
  ++ sconcat (map (pres_slide_rel has_notes has_handout) (seq 1 slides))
  ++ (if has_notes then
        "
<Relationship Id=""rId" ++ decn (notes_master_rel_id slides) ++
        """ Type=""http://schemas.openxmlformats.org/officeDocument/2006/relationships/notesMaster"" Target=""notesMasters/notesMaster1.xml""/>"
      else "")
  ++ (if has_handout then
        "
<Relationship Id=""rId" ++ decn (handout_master_rel_id slides has_notes) ++
        """ Type=""http://schemas.openxmlformats.org/officeDocument/2006/relationships/handoutMaster"" Target=""handoutMasters/handoutMaster1.xml""/>"
      else "")
  ++ "
<Relationship Id=""rId" ++ decn (pres_props_rel_id slides has_notes has_handout)
  ++ """ Type=""http://schemas.openxmlformats.org/officeDocument/2006/relationships/presProps"" Target=""presProps.xml""/>"
  ++ "
<Relationship Id=""rId" ++ decn (view_props_rel_id slides has_notes has_handout)
  ++ """ Type=""http://schemas.openxmlformats.org/officeDocument/2006/relationships/viewProps"" Target=""viewProps.xml""/>"
  ++ "
<Relationship Id=""rId" ++ decn (theme_rel_id slides has_notes has_handout)
  ++ """ Type=""http://schemas.openxmlformats.org/officeDocument/2006/relationships/theme"" Target=""theme/theme1.xml""/>"
  ++ "
<Relationship Id=""rId" ++ decn (table_styles_rel_id slides has_notes has_handout)
  ++ """ Type=""http://schemas.openxmlformats.org/officeDocument/2006/relationships/tableStyles"" Target=""tableStyles.xml""/>"
  ++ "
</Relationships>".

(** src/generator/package_xml.rs:184-186 and 189-191. *)
Definition create_presentation_rels_xml (slides : nat) : string :=
  create_presentation_rels_xml_full slides false false.
Definition create_presentation_rels_xml_with_notes (slides : nat) : string :=
  create_presentation_rels_xml_full slides true false.

(** src/generator/package_xml.rs:253-263, the font loop.  [fonts] are the
    pairs (relationship_id, rel_target()) of the embedded fonts. *)
Definition create_presentation_rels_xml_full_with_fonts
    (slides : nat) (has_notes has_handout : bool) (fonts : list (string * string)) : string :=
  fold_left
    (fun xml '(rid, target) =>
       match rsplit_once "</Relationships>" xml with
       | Some (x, y) =>
           x ++ ("<Relationship Id=""" ++ rid ++
                 """ Type=""http://schemas.openxmlformats.org/officeDocument/2006/relationships/font"" Target=""" ++
                 escape_xml target ++ """/>") ++ "</Relationships>" ++ y
       | None =>
           xml ++ ("<Relationship Id=""" ++ rid ++
                 """ Type=""http://schemas.openxmlformats.org/officeDocument/2006/relationships/font"" Target=""" ++
                 escape_xml target ++ """/>")
       end)
    fonts (create_presentation_rels_xml_full slides has_notes has_handout).

(** src/generator/package_xml.rs:20 [DEFAULT_TEXT_STYLE]. *)
Definition default_text_style : string :=
"<p:defaultTextStyle><a:defPPr><a:defRPr lang=""en-US""/></a:defPPr><a:lvl1pPr marL=""0"" algn=""l"" defTabSz=""457200"" rtl=""0"" eaLnBrk=""1"" latinLnBrk=""0"" hangingPunct=""1""><a:defRPr sz=""1800"" kern=""1200""><a:solidFill><a:schemeClr val=""tx1""/></a:solidFill><a:latin typeface=""+mn-lt""/><a:ea typeface=""+mn-ea""/><a:cs typeface=""+mn-cs""/></a:defRPr></a:lvl1pPr><a:lvl2pPr marL=""457200"" algn=""l"" defTabSz=""457200"" rtl=""0"" eaLnBrk=""1"" latinLnBrk=""0"" hangingPunct=""1""><a:defRPr sz=""1800"" kern=""1200""><a:solidFill><a:schemeClr val=""tx1""/></a:solidFill><a:latin typeface=""+mn-lt""/><a:ea typeface=""+mn-ea""/><a:cs typeface=""+mn-cs""/></a:defRPr></a:lvl2pPr><a:lvl3pPr marL=""914400"" algn=""l"" defTabSz=""457200"" rtl=""0"" eaLnBrk=""1"" latinLnBrk=""0"" hangingPunct=""1""><a:defRPr sz=""1800"" kern=""1200""><a:solidFill><a:schemeClr val=""tx1""/></a:solidFill><a:latin typeface=""+mn-lt""/><a:ea typeface=""+mn-ea""/><a:cs typeface=""+mn-cs""/></a:defRPr></a:lvl3pPr><a:lvl4pPr marL=""1371600"" algn=""l"" defTabSz=""457200"" rtl=""0"" eaLnBrk=""1"" latinLnBrk=""0"" hangingPunct=""1""><a:defRPr sz=""1800"" kern=""1200""><a:solidFill><a:schemeClr val=""tx1""/></a:solidFill><a:latin typeface=""+mn-lt""/><a:ea typeface=""+mn-ea""/><a:cs typeface=""+mn-cs""/></a:defRPr></a:lvl4pPr><a:lvl5pPr marL=""1828800"" algn=""l"" defTabSz=""457200"" rtl=""0"" eaLnBrk=""1"" latinLnBrk=""0"" hangingPunct=""1""><a:defRPr sz=""1800"" kern=""1200""><a:solidFill><a:schemeClr val=""tx1""/></a:solidFill><a:latin typeface=""+mn-lt""/><a:ea typeface=""+mn-ea""/><a:cs typeface=""+mn-cs""/></a:defRPr></a:lvl5pPr><a:lvl6pPr marL=""2286000"" algn=""l"" defTabSz=""457200"" rtl=""0"" eaLnBrk=""1"" latinLnBrk=""0"" hangingPunct=""1""><a:defRPr sz=""1800"" kern=""1200""><a:solidFill><a:schemeClr val=""tx1""/></a:solidFill><a:latin typeface=""+mn-lt""/><a:ea typeface=""+mn-ea""/><a:cs typeface=""+mn-cs""/></a:defRPr></a:lvl6pPr><a:lvl7pPr marL=""2743200"" algn=""l"" defTabSz=""457200"" rtl=""0"" eaLnBrk=""1"" latinLnBrk=""0"" hangingPunct=""1""><a:defRPr sz=""1800"" kern=""1200""><a:solidFill><a:schemeClr val=""tx1""/></a:solidFill><a:latin typeface=""+mn-lt""/><a:ea typeface=""+mn-ea""/><a:cs typeface=""+mn-cs""/></a:defRPr></a:lvl7pPr><a:lvl8pPr marL=""3200400"" algn=""l"" defTabSz=""457200"" rtl=""0"" eaLnBrk=""1"" latinLnBrk=""0"" hangingPunct=""1""><a:defRPr sz=""1800"" kern=""1200""><a:solidFill><a:schemeClr val=""tx1""/></a:solidFill><a:latin typeface=""+mn-lt""/><a:ea typeface=""+mn-ea""/><a:cs typeface=""+mn-cs""/></a:defRPr></a:lvl8pPr><a:lvl9pPr marL=""3657600"" algn=""l"" defTabSz=""457200"" rtl=""0"" eaLnBrk=""1"" latinLnBrk=""0"" hangingPunct=""1""><a:defRPr sz=""1800"" kern=""1200""><a:solidFill><a:schemeClr val=""tx1""/></a:solidFill><a:latin typeface=""+mn-lt""/><a:ea typeface=""+mn-ea""/><a:cs typeface=""+mn-cs""/></a:defRPr></a:lvl9pPr></p:defaultTextStyle>".

(** src/generator/package_xml.rs:346-354, one turn of the slide loop. *)
Definition pres_sld_id (has_notes has_handout : bool) (i : nat) : string :=
  "
<p:sldId id=""" ++ decn (slide_id_value i) ++ """ r:id=""rId" ++
  decn (slide_rel_id i has_notes has_handout) ++ """/>".

(** src/generator/package_xml.rs:313-366 [create_presentation_xml]; the
    unused title argument is dropped. *)
Definition create_presentation_xml (slides : nat) (has_notes has_handout : bool) : string :=
  "<?xml version=""1.0"" encoding=""UTF-8"" standalone=""yes""?>
<p:presentation xmlns:a=""http://schemas.openxmlformats.org/drawingml/2006/main"" xmlns:r=""http://schemas.openxmlformats.org/officeDocument/2006/relationships"" xmlns:p=""http://schemas.openxmlformats.org/presentationml/2006/main"" saveSubsetFonts=""1"" autoCompressPictures=""0"">
<p:sldMasterIdLst>
<p:sldMasterId id=""" ++ dec slide_master_id ++ """ r:id=""rId1""/>
</p:sldMasterIdLst>"
  ++ (if has_notes then
        "
<p:notesMasterIdLst>
<p:notesMasterId r:id=""rId" ++ decn (notes_master_rel_id slides) ++
        """/>
</p:notesMasterIdLst>"
      else "")
  ++ (if has_handout then
        "
<p:handoutMasterIdLst>
<p:handoutMasterId r:id=""rId" ++ decn (handout_master_rel_id slides has_notes) ++
        """/>
</p:handoutMasterIdLst>"
      else "")
  ++ "
<p:sldIdLst>"
  ++ sconcat (map (pres_sld_id has_notes has_handout) (seq 1 slides))
  ++ "
</p:sldIdLst>
<p:sldSz cx=""9144000"" cy=""6858000"" type=""screen4x3""/>
<p:notesSz cx=""6858000"" cy=""9144000""/>
"
  ++ default_text_style
  ++ "<p:extLst><p:ext uri=""{EFAFB233-063F-42B5-8137-9DF3F51BA10A}""><p15:sldGuideLst xmlns:p15=""http://schemas.microsoft.com/office/powerpoint/2012/main""/></p:ext></p:extLst></p:presentation>".

(** src/generator/package_xml.rs:369-385 [create_presentation_xml_with_fonts];
    [font_xml] is [fonts.to_xml()]. *)
Definition create_presentation_xml_with_fonts (slides : nat) (has_notes has_handout : bool) (font_xml : string) : string :=
  let xml := create_presentation_xml slides has_notes has_handout in
  if String.eqb font_xml "" then xml else insert_before_last "</p:presentation>" font_xml xml.

(** ** [Content_Types].xml *)

(** src/generator/package_xml.rs:28-49 [append_image_content_type_defaults]. *)
Definition image_content_type_defaults (media_exts : list string) : string :=
  (if existsb (fun e => String.eqb e "jpg" || String.eqb e "jpeg") media_exts
   then "<Default Extension=""jpg"" ContentType=""image/jpeg""/>" else "")
  ++ (if existsb (fun e => String.eqb e "png") media_exts
      then "<Default Extension=""png"" ContentType=""image/png""/>" else "")
  ++ (if existsb (fun e => String.eqb e "gif") media_exts
      then "<Default Extension=""gif"" ContentType=""image/gif""/>" else "").

(** src/generator/package_xml.rs:51-71 [content_types_opening]. *)
Definition content_types_opening (media_exts : list string) (chart_count : nat) : string :=
  "<?xml version=""1.0"" encoding=""UTF-8"" standalone=""yes""?>
<Types xmlns=""http://schemas.openxmlformats.org/package/2006/content-types"">"
  ++ image_content_type_defaults media_exts
  ++ "<Default Extension=""rels"" ContentType=""application/vnd.openxmlformats-package.relationships+xml""/>
<Default Extension=""xml"" ContentType=""application/xml""/>"
  ++ (if Nat.ltb 0 chart_count then
        "<Default Extension=""xlsx"" ContentType=""application/vnd.openxmlformats-officedocument.spreadsheetml.sheet""/>"
      else "")
  ++ "<Override PartName=""/ppt/presentation.xml"" ContentType=""application/vnd.openxmlformats-officedocument.presentationml.presentation.main+xml""/>".

(** src/generator/package_xml.rs:73-81 [CONTENT_TYPES_FOOTER]. *)
Definition content_types_footer : string :=
"
<Override PartName=""/ppt/slideMasters/slideMaster1.xml"" ContentType=""application/vnd.openxmlformats-officedocument.presentationml.slideMaster+xml""/>
<Override PartName=""/ppt/theme/theme1.xml"" ContentType=""application/vnd.openxmlformats-officedocument.theme+xml""/>
<Override PartName=""/ppt/tableStyles.xml"" ContentType=""application/vnd.openxmlformats-officedocument.presentationml.tableStyles+xml""/>
<Override PartName=""/ppt/viewProps.xml"" ContentType=""application/vnd.openxmlformats-officedocument.presentationml.viewProps+xml""/>
<Override PartName=""/ppt/presProps.xml"" ContentType=""application/vnd.openxmlformats-officedocument.presentationml.presProps+xml""/>
<Override PartName=""/docProps/core.xml"" ContentType=""application/vnd.openxmlformats-package.core-properties+xml""/>
<Override PartName=""/docProps/app.xml"" ContentType=""application/vnd.openxmlformats-officedocument.extended-properties+xml""/>
</Types>".

(** src/generator/package_xml.rs:83-94 [append_slide_overrides]. *)
Definition slide_override (i : nat) : string :=
  "
<Override PartName=""/ppt/slides/slide" ++ decn i ++
  ".xml"" ContentType=""application/vnd.openxmlformats-officedocument.presentationml.slide+xml""/>".
Definition slide_overrides (slides : nat) : string := sconcat (map slide_override (seq 1 slides)).

(** src/generator/layout_parts.rs:165-171 [append_layout_content_type_overrides]. *)
Definition layout_override (i : nat) : string :=
  "
<Override PartName=""/ppt/slideLayouts/slideLayout" ++ decn i ++
  ".xml"" ContentType=""application/vnd.openxmlformats-officedocument.presentationml.slideLayout+xml""/>".
Definition layout_overrides (layout_count : nat) : string :=
  sconcat (map layout_override (seq 1 layout_count)).

(** src/generator/package_xml.rs:409-413: the n-th slide with notes. *)
Definition notes_override (i : nat) : string :=
  "
<Override PartName=""/ppt/notesSlides/notesSlide" ++ decn i ++
  ".xml"" ContentType=""application/vnd.openxmlformats-officedocument.presentationml.notesSlide+xml""/>".

(** src/generator/charts/embedding.rs:4-6 [chart_embedding_filename]. *)
Definition chart_embedding_filename (i : nat) : string := "Microsoft_Excel_Sheet" ++ decn i ++ ".xlsx".

(** src/generator/package_xml.rs:423-430, one turn of the chart loop. *)
Definition chart_override (i : nat) : string :=
  "
<Override PartName=""/ppt/charts/chart" ++ decn i ++
  ".xml"" ContentType=""application/vnd.openxmlformats-officedocument.drawingml.chart+xml""/>" ++
  "
<Override PartName=""/ppt/embeddings/" ++ chart_embedding_filename i ++
  """ ContentType=""application/vnd.openxmlformats-officedocument.spreadsheetml.sheet""/>".

(** src/generator/package_xml.rs:404-431 and builder.rs:943-977: notes,
    handout and chart overrides.  [notes_count] is the number of slides with
    notes (the code counts them with a running index). *)
Definition notes_overrides (notes_count : nat) : string :=
  sconcat (map notes_override (seq 1 notes_count)) ++
  (if Nat.ltb 0 notes_count then
     "
<Override PartName=""/ppt/notesMasters/notesMaster1.xml"" ContentType=""application/vnd.openxmlformats-officedocument.presentationml.notesMaster+xml""/>" ++
     "
<Override PartName=""/ppt/theme/theme2.xml"" ContentType=""application/vnd.openxmlformats-officedocument.theme+xml""/>"
   else "").
Definition handout_overrides (has_handout : bool) : string :=
  if has_handout then
    "
<Override PartName=""/ppt/handoutMasters/handoutMaster1.xml"" ContentType=""application/vnd.openxmlformats-officedocument.presentationml.handoutMaster+xml""/>" ++
    "
<Override PartName=""/ppt/theme/theme3.xml"" ContentType=""application/vnd.openxmlformats-officedocument.theme+xml""/>"
  else "".

(** src/generator/package_xml.rs:388-435
    [create_content_types_xml_with_notes_and_charts]. *)
Definition create_content_types_xml_with_notes_and_charts
    (slides notes_count chart_count : nat) (has_handout : bool) (media_exts : list string) : string :=
  content_types_opening media_exts chart_count
  ++ slide_overrides slides
  ++ notes_overrides notes_count
  ++ handout_overrides has_handout
  ++ sconcat (map chart_override (seq 1 chart_count))
  ++ layout_overrides standard_layout_count
  ++ content_types_footer.

(** src/generator/package_xml.rs:439-446 [append_digital_signature_content_type]. *)
Definition append_digital_signature_content_type (xml : string) : string :=
  insert_before_last "</Types>"
    "<Default Extension=""sigs"" ContentType=""application/vnd.openxmlformats-package.digital-signature-origin""/><Override PartName=""/_xmlsignatures/sig1.xml"" ContentType=""application/vnd.openxmlformats-package.digital-signature-xmlsignature+xml""/>"
    xml.
(** src/generator/package_xml.rs:450-457 [append_embedded_font_content_type]. *)
Definition append_embedded_font_content_type (xml : string) : string :=
  insert_before_last "</Types>" "<Default Extension=""fntdata"" ContentType=""application/x-fontdata""/>" xml.
(** src/generator/package_xml.rs:461-474 [append_ink_content_types]. *)
Definition ink_override (i : nat) : string :=
  "
<Override PartName=""/ppt/ink/ink" ++ decn i ++
  ".xml"" ContentType=""application/vnd.openxmlformats-officedocument.presentationml.ink+xml""/>".
Definition append_ink_content_types (xml : string) (ink_count : nat) : string :=
  if Nat.eqb ink_count 0 then xml
  else insert_before_last "</Types>" (sconcat (map ink_override (seq 1 ink_count))) xml.

(** src/generator/builder.rs:502-541 [write_content_types] (the text written). *)
Definition content_types_eager (slides notes_count chart_count : nat) (has_handout : bool) (media_exts : list string)
    (has_signature has_fonts : bool) (ink_count : nat) : string :=
  let x := create_content_types_xml_with_notes_and_charts slides notes_count chart_count has_handout media_exts in
  let x := if has_signature then append_digital_signature_content_type x else x in
  let x := if has_fonts then append_embedded_font_content_type x else x in
  append_ink_content_types x ink_count.

(** src/generator/builder.rs:906-1003 [write_content_types_lazy]. *)
Definition content_types_lazy (slides notes_count chart_count : nat) (has_handout : bool) (media_exts : list string)
    (has_signature has_fonts : bool) (ink_count : nat) : string :=
  let x :=
    content_types_opening media_exts chart_count
    ++ slide_overrides slides
    ++ (if Nat.ltb 0 notes_count then notes_overrides notes_count else "")
    ++ handout_overrides has_handout
    ++ sconcat (map chart_override (seq 1 chart_count))
    ++ "
<Override PartName=""/ppt/slideMasters/slideMaster1.xml"" ContentType=""application/vnd.openxmlformats-officedocument.presentationml.slideMaster+xml""/>
<Override PartName=""/ppt/theme/theme1.xml"" ContentType=""application/vnd.openxmlformats-officedocument.theme+xml""/>
<Override PartName=""/ppt/tableStyles.xml"" ContentType=""application/vnd.openxmlformats-officedocument.presentationml.tableStyles+xml""/>
<Override PartName=""/ppt/viewProps.xml"" ContentType=""application/vnd.openxmlformats-officedocument.presentationml.viewProps+xml""/>
<Override PartName=""/ppt/presProps.xml"" ContentType=""application/vnd.openxmlformats-officedocument.presentationml.presProps+xml""/>
<Override PartName=""/docProps/core.xml"" ContentType=""application/vnd.openxmlformats-package.core-properties+xml""/>
<Override PartName=""/docProps/app.xml"" ContentType=""application/vnd.openxmlformats-officedocument.extended-properties+xml""/>"
    ++ layout_overrides standard_layout_count in
  let x := if has_signature then append_digital_signature_content_type x else x in
  let x := if has_fonts then append_embedded_font_content_type x else x in
  let x := append_ink_content_types x ink_count in
  x ++ nl ++ "</Types>".

(** ** Static and per-part relationship files *)

(** src/generator/layout_parts.rs:173-178 [layout_rel_target]. *)
Definition layout_rel_target (n : nat) : string := "../slideLayouts/slideLayout" ++ decn n ++ ".xml".

(** src/generator/package_cache.rs:9-12 [LAYOUT_RELS_XML]. *)
Definition layout_rels_xml : string :=
"<?xml version=""1.0"" encoding=""UTF-8"" standalone=""yes""?>
<Relationships xmlns=""http://schemas.openxmlformats.org/package/2006/relationships"">
<Relationship Id=""rId1"" Type=""http://schemas.openxmlformats.org/officeDocument/2006/relationships/slideMaster"" Target=""../slideMasters/slideMaster1.xml""/>
</Relationships>".

(** src/generator/layout_parts.rs:146-163 [create_master_rels_xml]. *)
Definition master_layout_rel (i : nat) : string :=
  "
<Relationship Id=""rId" ++ decn i ++
  """ Type=""http://schemas.openxmlformats.org/officeDocument/2006/relationships/slideLayout"" Target=""../slideLayouts/slideLayout" ++
  decn i ++ ".xml""/>".
Definition create_master_rels_xml (layout_count : nat) : string :=
  "<?xml version=""1.0"" encoding=""UTF-8"" standalone=""yes""?>
<Relationships xmlns=""http://schemas.openxmlformats.org/package/2006/relationships"">"
  ++ sconcat (map master_layout_rel (seq 1 layout_count))
  ++ "
<Relationship Id=""rId" ++ decn (layout_count + 1)
  ++ """ Type=""http://schemas.openxmlformats.org/officeDocument/2006/relationships/theme"" Target=""../theme/theme1.xml""/>
</Relationships>".

(** src/generator/package_xml.rs:477-482 [create_handout_master_rels_xml]. *)
Definition create_handout_master_rels_xml : string :=
"<?xml version=""1.0"" encoding=""UTF-8"" standalone=""yes""?>
<Relationships xmlns=""http://schemas.openxmlformats.org/package/2006/relationships"">
<Relationship Id=""rId1"" Type=""http://schemas.openxmlformats.org/officeDocument/2006/relationships/theme"" Target=""../theme/theme3.xml""/>
</Relationships>".

(** src/generator/charts/embedding.rs:9-16 [create_chart_rels_xml]. *)
Definition create_chart_rels_xml (embedding_filename : string) : string :=
  "<?xml version=""1.0"" encoding=""UTF-8"" standalone=""yes""?>
<Relationships xmlns=""http://schemas.openxmlformats.org/package/2006/relationships"">
<Relationship Id=""rId1"" Type=""http://schemas.openxmlformats.org/officeDocument/2006/relationships/package"" Target=""../embeddings/" ++ embedding_filename ++ """/>
</Relationships>".

(** src/generator/notes_xml.rs:100-106 [create_notes_rels_xml]. *)
Definition create_notes_rels_xml (slide_num : nat) : string :=
  "<?xml version=""1.0"" encoding=""UTF-8"" standalone=""yes""?>
<Relationships xmlns=""http://schemas.openxmlformats.org/package/2006/relationships"">
<Relationship Id=""rId1"" Type=""http://schemas.openxmlformats.org/officeDocument/2006/relationships/slide"" Target=""../slides/slide" ++ decn slide_num ++ ".xml""/>
<Relationship Id=""rId2"" Type=""http://schemas.openxmlformats.org/officeDocument/2006/relationships/notesMaster"" Target=""../notesMasters/notesMaster1.xml""/>
</Relationships>".

(** src/generator/notes_xml.rs [create_notes_master_rels_xml]. *)
Definition create_notes_master_rels_xml : string :=
"<?xml version=""1.0"" encoding=""UTF-8"" standalone=""yes""?>
<Relationships xmlns=""http://schemas.openxmlformats.org/package/2006/relationships"">
<Relationship Id=""rId1"" Type=""http://schemas.openxmlformats.org/officeDocument/2006/relationships/theme"" Target=""../theme/theme2.xml""/>
</Relationships>".

(** src/generator/slide_xml/common.rs:44-52 [create_slide_rels_xml_for_layout]. *)
Definition create_slide_rels_xml_for_layout (layout_number : nat) : string :=
  "<?xml version=""1.0"" encoding=""UTF-8"" standalone=""yes""?>
<Relationships xmlns=""http://schemas.openxmlformats.org/package/2006/relationships"">
<Relationship Id=""rId1"" Type=""http://schemas.openxmlformats.org/officeDocument/2006/relationships/slideLayout"" Target=""" ++ layout_rel_target layout_number ++ """/>
</Relationships>".

(** src/generator/slide_xml/common.rs:39-41 [create_slide_rels_xml]. *)
Definition create_slide_rels_xml : string := create_slide_rels_xml_for_layout 2.

(** src/generator/package_xml.rs:520-584 [create_slide_rels_xml_with_images].
    [chart_rels] are (id, target) strings, [images] are (number, extension),
    [hyperlink_rels] are ready-made <Relationship/> elements. *)
Definition slide_image_rel (next_rid : nat) (p : nat * (nat * string)) : string :=
  let '(i, (image_num, ext)) := p in
  "
<Relationship Id=""rId" ++ decn (next_rid + i) ++
  """ Type=""http://schemas.openxmlformats.org/officeDocument/2006/relationships/image"" Target=""../media/image" ++
  decn image_num ++ "." ++ ext ++ """/>".
Definition slide_chart_rel (p : string * string) : string :=
  "
<Relationship Id=""" ++ fst p ++
  """ Type=""http://schemas.openxmlformats.org/officeDocument/2006/relationships/chart"" Target=""" ++
  snd p ++ """/>".
Definition enumerate {A} (l : list A) : list (nat * A) := combine (seq 0 (length l)) l.
Definition create_slide_rels_xml_with_images (layout_number : nat) (has_notes : bool) (notes_part_num : nat)
    (chart_rels : list (string * string)) (images : list (nat * string)) (hyperlink_rels : list string)
    (ink_rel : option (nat * nat)) : string :=
  let next_rid := if has_notes then 3 else 2 in
  "<?xml version=""1.0"" encoding=""UTF-8"" standalone=""yes""?>
<Relationships xmlns=""http://schemas.openxmlformats.org/package/2006/relationships"">
<Relationship Id=""rId1"" Type=""http://schemas.openxmlformats.org/officeDocument/2006/relationships/slideLayout"" Target="""
  ++ layout_rel_target layout_number ++ """/>"
  ++ (if has_notes then
        "
<Relationship Id=""rId" ++ decn 2 ++
        """ Type=""http://schemas.openxmlformats.org/officeDocument/2006/relationships/notesSlide"" Target=""../notesSlides/notesSlide" ++
        decn notes_part_num ++ ".xml""/>"
      else "")
  ++ sconcat (map (slide_image_rel next_rid) (enumerate images))
  ++ sconcat (map slide_chart_rel chart_rels)
  ++ (match ink_rel with
      | Some (rid, ink_num) =>
          "
<Relationship Id=""rId" ++ decn rid ++
          """ Type=""http://schemas.openxmlformats.org/officeDocument/2006/relationships/ink"" Target=""../ink/ink" ++
          decn ink_num ++ ".xml""/>"
      | None => ""
      end)
  ++ sconcat (map (fun rel => nl ++ rel) hyperlink_rels)
  ++ "
</Relationships>".

(** src/generator/package_xml.rs:485-517 [create_slide_rels_xml_extended]. *)
Definition create_slide_rels_xml_extended (layout_number : nat) (has_notes : bool) (notes_part_num : nat)
    (chart_rels : list (string * string)) : string :=
  "<?xml version=""1.0"" encoding=""UTF-8"" standalone=""yes""?>
<Relationships xmlns=""http://schemas.openxmlformats.org/package/2006/relationships"">
<Relationship Id=""rId1"" Type=""http://schemas.openxmlformats.org/officeDocument/2006/relationships/slideLayout"" Target="""
  ++ layout_rel_target layout_number ++ """/>"
  ++ (if has_notes then
        "
<Relationship Id=""rId2"" Type=""http://schemas.openxmlformats.org/officeDocument/2006/relationships/notesSlide"" Target=""../notesSlides/notesSlide" ++
        decn notes_part_num ++ ".xml""/>"
      else "")
  ++ sconcat (map slide_chart_rel chart_rels)
  ++ "
</Relationships>".
