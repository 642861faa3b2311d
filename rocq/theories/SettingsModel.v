(** Model of the parts of a deck that come from its settings: slide show,
    printing, theme, signature and ink (src/generator/slide_content/
    slide_show_settings.rs, print_settings.rs, digital_signature.rs,
    ink_annotations.rs, presentation_settings.rs; src/generator/layout_parts.rs,
    theme_xml.rs, presentation_theme.rs, package_cache.rs, package_xml.rs). *)
From Coq Require Import String Ascii List Bool Arith NArith ZArith.
From Verif Require Import Str Num EscapeModel GenModel FontsModel SlideModel DeckModel.
Import ListNotations.
Open Scope nat_scope.
Open Scope string_scope.

(** [to_uppercase], ASCII letters only: other characters are kept, where the code
    would also change letters outside ASCII. *)
Definition upper1 (c : ascii) : ascii :=
  let n := N_of_ascii c in if (N.leb 97 n && N.leb n 122)%bool then ascii_of_N (n - 32) else c.
Fixpoint upper (s : string) : string := match s with "" => "" | String c r => String (upper1 c) (upper r) end.
(** [trim_start_matches('#').to_uppercase()]: slide_show_settings.rs:32-36,
    ink_annotations.rs:34-36 *)
Definition is_sharp (c : ascii) : bool := Ascii.eqb c "#".
Definition strip_hash_upper (s : string) : string := upper (trim_start_by is_sharp s).
(** presentation_theme.rs:307-309 [normalize_hex] *)
Definition normalize_hex (s : string) : string := strip_hash_upper (trim s).

(** ** slide_show_settings.rs *)
(** 8-13, 27-30, 50-56, 59-69 *)
Inductive show_type := Speaker | Kiosk | Browsed.
Inductive slide_range := RangeAll | RangeFromTo (start stop : N) | RangeCustom (l : list N).
Record slide_show := SlideShow {
  ss_type : show_type; ss_loop : bool; ss_no_narration : bool; ss_no_animation : bool; ss_pen : string;
  ss_range : slide_range; ss_timings : bool; ss_media : bool }.
(** 15-23 [ShowType::to_xml_element] *)
Definition show_type_xml (t : show_type) : string :=
  match t with
  | Speaker => "<p:present/>"
  | Kiosk => "<p:kiosk restart=""300000""/>"
  | Browsed => "<p:browse showScrollbar=""1""/>"
  end.
(** 71-78 [SlideShowSettings::new] and the default pen (38, 43-47) *)
Definition slide_show_new : slide_show := SlideShow Speaker false false false (strip_hash_upper "FF0000") RangeAll false true.
(** 121-126 [SlideShowSettings::kiosk] *)
Definition slide_show_kiosk : slide_show := SlideShow Kiosk true true false (strip_hash_upper "FF0000") RangeAll false true.
(** 130-149: the attributes; [attrs.join(" ")] after a blank, if there are any. *)
Definition show_attrs (s : slide_show) : list string :=
  ((if ss_loop s then ["loop=""1"""] else [])
   ++ (if ss_no_narration s then ["showNarration=""0"""] else [])
   ++ (if ss_no_animation s then ["showAnimation=""0"""] else [])
   ++ (if ss_timings s then ["useTimings=""1"""] else []))%list.
(** 156-169: the range *)
Definition range_xml (r : slide_range) : string :=
  match r with
  | RangeAll => "<p:sldAll/>"
  | RangeFromTo a b => ("<p:sldRg st=""" ++ dec a ++ """ end=""" ++ dec b ++ """/>")
  | RangeCustom l => "<p:custShow>" ++ sconcat (map (fun s => ("<p:sldId id=""" ++ dec s ++ """/>")) l) ++ "</p:custShow>"
  end.
(** 129-190 [SlideShowSettings::to_xml] *)
Definition slide_show_xml (s : slide_show) : string :=
  let attrs := show_attrs s in
  let attrs_str := match attrs with [] => "" | _ => " " ++ sjoin " " attrs end in
  ("<p:showPr" ++ attrs_str ++ ">")
  ++ show_type_xml (ss_type s) ++ range_xml (ss_range s)
  ++ ("<p:penClr><a:srgbClr val=""" ++ ss_pen s ++ """/></p:penClr>")
  ++ ("<p:extLst><p:ext uri=""{EC167BDD-8182-4AB7-AECC-EB403E3ABB37}""><p14:laserClr xmlns:p14=""http://schemas.microsoft.com/office/powerpoint/2010/main""><a:srgbClr val=""" ++ ss_pen s ++ """/></p14:laserClr></p:ext>")
  ++ (if ss_media s then "<p:ext uri=""{2FDB2607-1784-4EEB-B798-7EB5836EED8A}""><p14:showMediaCtrls xmlns:p14=""http://schemas.microsoft.com/office/powerpoint/2010/main"" val=""1""/></p:ext>" else "")
  ++ "</p:extLst>" ++ "</p:showPr>".

(** package_xml.rs:275-295 [create_pres_props_xml] *)
Definition pres_props_xml (show : option slide_show) : string :=
  "<?xml version=""1.0"" encoding=""UTF-8"" standalone=""yes""?><p:presentationPr xmlns:a=""http://schemas.openxmlformats.org/drawingml/2006/main"" xmlns:r=""http://schemas.openxmlformats.org/officeDocument/2006/relationships"" xmlns:p=""http://schemas.openxmlformats.org/presentationml/2006/main"">"
  ++ match show with Some s => slide_show_xml s | None => "" end
  ++ "<p:extLst><p:ext uri=""{E76CE94A-603C-4142-B9EB-6D1370010A27}""><p14:discardImageEditData xmlns:p14=""http://schemas.microsoft.com/office/powerpoint/2010/main"" val=""0""/></p:ext><p:ext uri=""{D31A062A-798A-4329-ABDD-BBA856620510}""><p14:defaultImageDpi xmlns:p14=""http://schemas.microsoft.com/office/powerpoint/2010/main"" val=""0""/></p:ext><p:ext uri=""{FD5EFAAD-0ECE-453E-9831-46B23BE46B34}""><p15:chartTrackingRefBased xmlns:p15=""http://schemas.microsoft.com/office/powerpoint/2012/main"" val=""0""/></p:ext></p:extLst></p:presentationPr>".
(** package_xml.rs:297-313 [create_view_props_xml], 268-271 [create_table_styles_xml] *)
Definition view_props_xml : string := "<?xml version=""1.0"" encoding=""UTF-8"" standalone=""yes""?>
<p:viewPr xmlns:a=""http://schemas.openxmlformats.org/drawingml/2006/main"" xmlns:r=""http://schemas.openxmlformats.org/officeDocument/2006/relationships"" xmlns:p=""http://schemas.openxmlformats.org/presentationml/2006/main"">
<p:normalViewPr><p:restoredLeft sz=""15620""/><p:restoredTop sz=""94660""/></p:normalViewPr>
<p:slideViewPr><p:cSldViewPr><p:cViewPr varScale=""1""><p:scale><a:sx n=""64"" d=""100""/><a:sy n=""64"" d=""100""/></p:scale><p:origin x=""-1392"" y=""-96""/></p:cViewPr><p:guideLst/></p:cSldViewPr></p:slideViewPr>
<p:notesTextViewPr><p:cViewPr><p:scale><a:sx n=""1"" d=""1""/><a:sy n=""1"" d=""1""/></p:scale><p:origin x=""0"" y=""0""/></p:cViewPr></p:notesTextViewPr>
<p:gridSpacing cx=""72008"" cy=""72008""/>
</p:viewPr>".
Definition table_styles_xml : string := "<?xml version=""1.0"" encoding=""UTF-8"" standalone=""yes""?>
<a:tblStyleLst xmlns:a=""http://schemas.openxmlformats.org/drawingml/2006/main"" def=""{5C22544A-7EE6-4342-B048-85BDC9FD1C3A}""/>".

(** ** print_settings.rs *)
(** 8-16, 43-49, 61-68, 81-86, 98-112 *)
Inductive handout_layout := PerPage1 | PerPage2 | PerPage3 | PerPage4 | PerPage6 | PerPage9.
Inductive print_color := PrintColor | PrintGray | PrintBW.
Inductive print_what := PrintSlides | PrintHandouts | PrintNotes | PrintOutline.
Inductive orientation := Landscape | Portrait.
Record print_settings := PrintSettings {
  pr_what : print_what; pr_color : print_color; pr_layout : handout_layout; pr_frame : bool; pr_scale : bool; pr_hidden : bool;
  pr_orientation : orientation; pr_header : option string; pr_footer : option string; pr_date : bool; pr_numbers : bool }.
(** 116-121 [PrintSettings::new] and the derived default *)
Definition print_default : print_settings := PrintSettings PrintSlides PrintColor PerPage3 false false false Landscape None None false false.
Definition print_new : print_settings := PrintSettings PrintSlides PrintColor PerPage3 false true false Landscape None None false false.
(** 50-58, 70-78 *)
Definition color_value (c : print_color) : string := match c with PrintColor => "clr" | PrintGray => "gray" | PrintBW => "bw" end.
Definition what_value (w : print_what) : string :=
  match w with PrintSlides => "slides" | PrintHandouts => "handouts" | PrintNotes => "notes" | PrintOutline => "outline" end.
(** 179-195 [to_prnpr_xml] (never written to a deck) *)
Definition prnpr_xml (p : print_settings) : string :=
  let attrs := ([("prnWhat=""" ++ what_value (pr_what p) ++ """")%string; ("clrMode=""" ++ color_value (pr_color p) ++ """")%string]
     ++ (if pr_frame p then ["frameSlides=""1"""] else []) ++ (if pr_hidden p then ["hiddenSlides=""1"""] else [])
     ++ (if pr_scale p then ["scaleToFitPaper=""1"""] else []))%list in
  "<p:prnPr " ++ sjoin " " attrs ++ "/>".
(** 198-231 [to_handout_master_xml], 234-240 [xml_escape] *)
Definition handout_master_xml (p : print_settings) : string :=
  "<?xml version=""1.0"" encoding=""UTF-8"" standalone=""yes""?><p:handoutMaster xmlns:a=""http://schemas.openxmlformats.org/drawingml/2006/main"" xmlns:r=""http://schemas.openxmlformats.org/officeDocument/2006/relationships"" xmlns:p=""http://schemas.openxmlformats.org/presentationml/2006/main""><p:cSld><p:bg><p:bgRef idx=""1001""><a:schemeClr val=""bg1""/></p:bgRef></p:bg><p:spTree><p:nvGrpSpPr><p:cNvPr id=""1"" name=""""/><p:cNvGrpSpPr/><p:nvPr/></p:nvGrpSpPr><p:grpSpPr><a:xfrm><a:off x=""0"" y=""0""/><a:ext cx=""0"" cy=""0""/><a:chOff x=""0"" y=""0""/><a:chExt cx=""0"" cy=""0""/></a:xfrm></p:grpSpPr>"
  ++ match pr_header p with Some h => ("<p:sp><p:nvSpPr><p:cNvPr id=""2"" name=""Header""/><p:cNvSpPr><a:spLocks noGrp=""1""/></p:cNvSpPr><p:nvPr><p:ph type=""hdr""/></p:nvPr></p:nvSpPr><p:spPr/><p:txBody><a:bodyPr/><a:lstStyle/><a:p><a:r><a:t>" ++ chained_escape h ++ "</a:t></a:r></a:p></p:txBody></p:sp>") | None => "" end
  ++ match pr_footer p with Some f => ("<p:sp><p:nvSpPr><p:cNvPr id=""3"" name=""Footer""/><p:cNvSpPr><a:spLocks noGrp=""1""/></p:cNvSpPr><p:nvPr><p:ph type=""ftr""/></p:nvPr></p:nvSpPr><p:spPr/><p:txBody><a:bodyPr/><a:lstStyle/><a:p><a:r><a:t>" ++ chained_escape f ++ "</a:t></a:r></a:p></p:txBody></p:sp>") | None => "" end
  ++ (if pr_date p then "<p:sp><p:nvSpPr><p:cNvPr id=""4"" name=""Date""/><p:cNvSpPr><a:spLocks noGrp=""1""/></p:cNvSpPr><p:nvPr><p:ph type=""dt""/></p:nvPr></p:nvSpPr><p:spPr/><p:txBody><a:bodyPr/><a:lstStyle/><a:p><a:fld id=""{B6F15528-F159-4107-2D14-000000000000}"" type=""datetimeFigureOut""><a:t/></a:fld><a:endParaRPr/></a:p></p:txBody></p:sp>" else "")
  ++ (if pr_numbers p then "<p:sp><p:nvSpPr><p:cNvPr id=""5"" name=""Slide Number""/><p:cNvSpPr><a:spLocks noGrp=""1""/></p:cNvSpPr><p:nvPr><p:ph type=""sldNum""/></p:nvPr></p:nvSpPr><p:spPr/><p:txBody><a:bodyPr/><a:lstStyle/><a:p><a:fld id=""{B6F15528-F159-4107-2D14-000000000001}"" type=""slidenum""><a:t>‹#›</a:t></a:fld><a:endParaRPr/></a:p></p:txBody></p:sp>" else "")
  ++ "</p:spTree></p:cSld><p:clrMap bg1=""lt1"" tx1=""dk1"" bg2=""lt2"" tx2=""dk2"" accent1=""accent1"" accent2=""accent2"" accent3=""accent3"" accent4=""accent4"" accent5=""accent5"" accent6=""accent6"" hlink=""hlink"" folHlink=""folHlink""/></p:handoutMaster>".

(** ** layout_parts.rs, theme_xml.rs *)
(** layout_parts.rs:11-18 [placeholder] *)
Definition placeholder (id : nat) (name ph_type : string) (ph_idx : option nat) (x y cx cy : N) : string :=
  let idx_xml := match ph_idx with Some i => (" idx=""" ++ decn i ++ """") | None => "" end in
  ("<p:sp><p:nvSpPr><p:cNvPr id=""" ++ decn id ++ """ name=""" ++ name ++ """/><p:cNvSpPr><a:spLocks noGrp=""1""/></p:cNvSpPr><p:nvPr><p:ph type=""" ++ ph_type ++ """" ++ idx_xml ++ "/></p:nvPr></p:nvSpPr><p:spPr><a:xfrm><a:off x=""" ++ dec x ++ """ y=""" ++ dec y ++ """/><a:ext cx=""" ++ dec cx ++ """ cy=""" ++ dec cy ++ """/></a:xfrm><a:prstGeom prst=""rect""><a:avLst/></a:prstGeom><a:noFill/></p:spPr><p:txBody><a:bodyPr/><a:lstStyle/><a:p><a:endParaRPr lang=""en-US""/></a:p></p:txBody></p:sp>").
(** layout_parts.rs:20-35 [layout_shell] *)
Definition layout_shell (type_attr name shapes : string) : string := ("<?xml version=""1.0"" encoding=""UTF-8"" standalone=""yes""?>
<p:sldLayout xmlns:a=""http://schemas.openxmlformats.org/drawingml/2006/main"" xmlns:r=""http://schemas.openxmlformats.org/officeDocument/2006/relationships"" xmlns:p=""http://schemas.openxmlformats.org/presentationml/2006/main"" type=""" ++ type_attr ++ """ preserve=""1"">
<p:cSld name=""" ++ name ++ """>
<p:spTree>
<p:nvGrpSpPr><p:cNvPr id=""1"" name=""""/><p:cNvGrpSpPr/><p:nvPr/></p:nvGrpSpPr>
<p:grpSpPr><a:xfrm><a:off x=""0"" y=""0""/><a:ext cx=""0"" cy=""0""/><a:chOff x=""0"" y=""0""/><a:chExt cx=""0"" cy=""0""/></a:xfrm></p:grpSpPr>
" ++ shapes ++ "
</p:spTree>
</p:cSld>
<p:clrMapOvr><a:masterClrMapping/></p:clrMapOvr>
<p:hf/>
</p:sldLayout>").
(** layout_parts.rs:38-82 [slide_master_footer_shapes]: the number given to the
    next shape is threaded. *)
Definition master_header (p : print_settings) (id : nat) : string * nat :=
  match pr_header p with
  | Some _ => (placeholder id "Header Placeholder" "hdr" None 312420 213360 8519760 365125, id + 1)
  | None => ("", id)
  end.
Definition master_footer (p : print_settings) (id : nat) : string * nat :=
  match pr_footer p with
  | Some f => (("<p:sp><p:nvSpPr><p:cNvPr id=""" ++ decn id ++ """ name=""Footer Placeholder""/><p:cNvSpPr><a:spLocks noGrp=""1""/></p:cNvSpPr><p:nvPr><p:ph type=""ftr"" sz=""quarter""/></p:nvPr></p:nvSpPr><p:spPr><a:xfrm><a:off x=""3124200"" y=""6356350""/><a:ext cx=""2895600"" cy=""365125""/></a:xfrm><a:prstGeom prst=""rect""><a:avLst/></a:prstGeom><a:noFill/></p:spPr><p:txBody><a:bodyPr/><a:lstStyle/><a:p><a:r><a:rPr lang=""en-US"" sz=""1200""/><a:t>" ++ escape_xml f ++ "</a:t></a:r></a:p></p:txBody></p:sp>"), id + 1)
  | None => ("", id)
  end.
Definition master_date (p : print_settings) (id : nat) : string * nat :=
  if pr_date p then (("<p:sp><p:nvSpPr><p:cNvPr id=""" ++ decn id ++ """ name=""Date Placeholder""/><p:cNvSpPr><a:spLocks noGrp=""1""/></p:cNvSpPr><p:nvPr><p:ph type=""dt"" sz=""half""/></p:nvPr></p:nvSpPr><p:spPr><a:xfrm><a:off x=""457200"" y=""6356350""/><a:ext cx=""2133600"" cy=""365125""/></a:xfrm><a:prstGeom prst=""rect""><a:avLst/></a:prstGeom><a:noFill/></p:spPr><p:txBody><a:bodyPr/><a:lstStyle/><a:p><a:fld id=""{B6F15528-F159-4107-2D14-000000000000}"" type=""datetimeFigureOut""><a:rPr lang=""en-US"" sz=""1200""/><a:t>6/1/2026</a:t></a:fld><a:endParaRPr lang=""en-US"" sz=""1200""/></a:p></p:txBody></p:sp>"), id + 1) else ("", id).
Definition master_number (p : print_settings) (id : nat) : string :=
  if pr_numbers p then ("<p:sp><p:nvSpPr><p:cNvPr id=""" ++ decn id ++ """ name=""Slide Number Placeholder""/><p:cNvSpPr><a:spLocks noGrp=""1""/></p:cNvSpPr><p:nvPr><p:ph type=""sldNum"" sz=""quarter""/></p:nvPr></p:nvSpPr><p:spPr><a:xfrm><a:off x=""8610600"" y=""6356350""/><a:ext cx=""533400"" cy=""365125""/></a:xfrm><a:prstGeom prst=""rect""><a:avLst/></a:prstGeom><a:noFill/></p:spPr><p:txBody><a:bodyPr/><a:lstStyle/><a:p><a:fld id=""{B6F15528-F159-4107-2D14-000000000001}"" type=""slidenum""><a:rPr lang=""en-US"" sz=""1200""/><a:t>‹#›</a:t></a:fld><a:endParaRPr lang=""en-US"" sz=""1200""/></a:p></p:txBody></p:sp>") else "".
Definition master_footer_shapes (print : option print_settings) : string :=
  match print with
  | None => ""
  | Some p =>
      let '(a, id) := master_header p 2 in
      let '(b, id) := master_footer p id in
      let '(c, id) := master_date p id in
      a ++ b ++ c ++ master_number p id
  end.
(** layout_parts.rs:85-141 [create_slide_layout_xml] *)
Definition slide_layout_xml (n : nat) : string :=
  match n with
  | 1 => layout_shell "title" "Title Slide"
           (placeholder 2 "Title" "ctrTitle" None 1524000 1828800 6096000 1828800
            ++ placeholder 3 "Subtitle" "subTitle" None 1524000 3657600 6096000 914400)
  | 2 => layout_shell "obj" "Title and Content"
           (placeholder 2 "Title" "title" None 457200 274638 8229600 1143000
            ++ placeholder 3 "Content" "body" (Some 1) 457200 1600200 8229600 4525963)
  | 3 => layout_shell "twoObj" "Two Content"
           (placeholder 2 "Title" "title" None 457200 274638 8229600 1143000
            ++ placeholder 3 "Content Left" "body" (Some 1) 457200 1600200 4025400 4525963
            ++ placeholder 4 "Content Right" "body" (Some 2) 4661400 1600200 4025400 4525963)
  | 4 => layout_shell "secHead" "Section Header"
           (placeholder 2 "Title" "title" None 457200 1600200 8229600 1828800
            ++ placeholder 3 "Subtitle" "body" (Some 1) 457200 3657600 8229600 1371600)
  | 5 => layout_shell "blank" "Blank" ""
  | 6 => layout_shell "titleOnly" "Title Only" (placeholder 2 "Title" "title" None 457200 274638 8229600 1143000)
  | 7 => layout_shell "obj" "Title and Big Content"
           (placeholder 2 "Title" "title" None 457200 274638 8229600 800000
            ++ placeholder 3 "Content" "body" (Some 1) 457200 1200000 8229600 5000000)
  | _ => layout_shell "blank" "Blank" ""
  end.
(** theme_xml.rs:27 [TX_STYLES], the file slide_master_txstyles.xml *)
Definition tx_styles : string := "<p:txStyles><p:titleStyle><a:lvl1pPr algn=""ctr"" defTabSz=""457200"" rtl=""0"" eaLnBrk=""1"" latinLnBrk=""0"" hangingPunct=""1""><a:spcBef><a:spcPct val=""0""/></a:spcBef><a:buNone/><a:defRPr sz=""4400"" kern=""1200""><a:solidFill><a:schemeClr val=""tx1""/></a:solidFill><a:latin typeface=""+mj-lt""/><a:ea typeface=""+mj-ea""/><a:cs typeface=""+mj-cs""/></a:defRPr></a:lvl1pPr></p:titleStyle><p:bodyStyle><a:lvl1pPr marL=""342900"" indent=""-342900"" algn=""l"" defTabSz=""457200"" rtl=""0"" eaLnBrk=""1"" latinLnBrk=""0"" hangingPunct=""1""><a:spcBef><a:spcPct val=""20000""/></a:spcBef><a:buFont typeface=""Arial""/><a:buChar char=""•""/><a:defRPr sz=""3200"" kern=""1200""><a:solidFill><a:schemeClr val=""tx1""/></a:solidFill><a:latin typeface=""+mn-lt""/><a:ea typeface=""+mn-ea""/><a:cs typeface=""+mn-cs""/></a:defRPr></a:lvl1pPr><a:lvl2pPr marL=""742950"" indent=""-285750"" algn=""l"" defTabSz=""457200"" rtl=""0"" eaLnBrk=""1"" latinLnBrk=""0"" hangingPunct=""1""><a:spcBef><a:spcPct val=""20000""/></a:spcBef><a:buFont typeface=""Arial""/><a:buChar char=""–""/><a:defRPr sz=""2800"" kern=""1200""><a:solidFill><a:schemeClr val=""tx1""/></a:solidFill><a:latin typeface=""+mn-lt""/><a:ea typeface=""+mn-ea""/><a:cs typeface=""+mn-cs""/></a:defRPr></a:lvl2pPr><a:lvl3pPr marL=""1143000"" indent=""-228600"" algn=""l"" defTabSz=""457200"" rtl=""0"" eaLnBrk=""1"" latinLnBrk=""0"" hangingPunct=""1""><a:spcBef><a:spcPct val=""20000""/></a:spcBef><a:buFont typeface=""Arial""/><a:buChar char=""•""/><a:defRPr sz=""2400"" kern=""1200""><a:solidFill><a:schemeClr val=""tx1""/></a:solidFill><a:latin typeface=""+mn-lt""/><a:ea typeface=""+mn-ea""/><a:cs typeface=""+mn-cs""/></a:defRPr></a:lvl3pPr><a:lvl4pPr marL=""1600200"" indent=""-228600"" algn=""l"" defTabSz=""457200"" rtl=""0"" eaLnBrk=""1"" latinLnBrk=""0"" hangingPunct=""1""><a:spcBef><a:spcPct val=""20000""/></a:spcBef><a:buFont typeface=""Arial""/><a:buChar char=""–""/><a:defRPr sz=""2000"" kern=""1200""><a:solidFill><a:schemeClr val=""tx1""/></a:solidFill><a:latin typeface=""+mn-lt""/><a:ea typeface=""+mn-ea""/><a:cs typeface=""+mn-cs""/></a:defRPr></a:lvl4pPr><a:lvl5pPr marL=""2057400"" indent=""-228600"" algn=""l"" defTabSz=""457200"" rtl=""0"" eaLnBrk=""1"" latinLnBrk=""0"" hangingPunct=""1""><a:spcBef><a:spcPct val=""20000""/></a:spcBef><a:buFont typeface=""Arial""/><a:buChar char=""»""/><a:defRPr sz=""2000"" kern=""1200""><a:solidFill><a:schemeClr val=""tx1""/></a:solidFill><a:latin typeface=""+mn-lt""/><a:ea typeface=""+mn-ea""/><a:cs typeface=""+mn-cs""/></a:defRPr></a:lvl5pPr><a:lvl6pPr marL=""2514600"" indent=""-228600"" algn=""l"" defTabSz=""457200"" rtl=""0"" eaLnBrk=""1"" latinLnBrk=""0"" hangingPunct=""1""><a:spcBef><a:spcPct val=""20000""/></a:spcBef><a:buFont typeface=""Arial""/><a:buChar char=""•""/><a:defRPr sz=""2000"" kern=""1200""><a:solidFill><a:schemeClr val=""tx1""/></a:solidFill><a:latin typeface=""+mn-lt""/><a:ea typeface=""+mn-ea""/><a:cs typeface=""+mn-cs""/></a:defRPr></a:lvl6pPr><a:lvl7pPr marL=""2971800"" indent=""-228600"" algn=""l"" defTabSz=""457200"" rtl=""0"" eaLnBrk=""1"" latinLnBrk=""0"" hangingPunct=""1""><a:spcBef><a:spcPct val=""20000""/></a:spcBef><a:buFont typeface=""Arial""/><a:buChar char=""•""/><a:defRPr sz=""2000"" kern=""1200""><a:solidFill><a:schemeClr val=""tx1""/></a:solidFill><a:latin typeface=""+mn-lt""/><a:ea typeface=""+mn-ea""/><a:cs typeface=""+mn-cs""/></a:defRPr></a:lvl7pPr><a:lvl8pPr marL=""3429000"" indent=""-228600"" algn=""l"" defTabSz=""457200"" rtl=""0"" eaLnBrk=""1"" latinLnBrk=""0"" hangingPunct=""1""><a:spcBef><a:spcPct val=""20000""/></a:spcBef><a:buFont typeface=""Arial""/><a:buChar char=""•""/><a:defRPr sz=""2000"" kern=""1200""><a:solidFill><a:schemeClr val=""tx1""/></a:solidFill><a:latin typeface=""+mn-lt""/><a:ea typeface=""+mn-ea""/><a:cs typeface=""+mn-cs""/></a:defRPr></a:lvl8pPr><a:lvl9pPr marL=""3886200"" indent=""-228600"" algn=""l"" defTabSz=""457200"" rtl=""0"" eaLnBrk=""1"" latinLnBrk=""0"" hangingPunct=""1""><a:spcBef><a:spcPct val=""20000""/></a:spcBef><a:buFont typeface=""Arial""/><a:buChar char=""•""/><a:defRPr sz=""2000"" kern=""1200""><a:solidFill><a:schemeClr val=""tx1""/></a:solidFill><a:latin typeface=""+mn-lt""/><a:ea typeface=""+mn-ea""/><a:cs typeface=""+mn-cs""/></a:defRPr></a:lvl9pPr></p:bodyStyle><p:otherStyle><a:defPPr><a:defRPr lang=""en-US""/></a:defPPr><a:lvl1pPr marL=""0"" algn=""l"" defTabSz=""457200"" rtl=""0"" eaLnBrk=""1"" latinLnBrk=""0"" hangingPunct=""1""><a:defRPr sz=""1800"" kern=""1200""><a:solidFill><a:schemeClr val=""tx1""/></a:solidFill><a:latin typeface=""+mn-lt""/><a:ea typeface=""+mn-ea""/><a:cs typeface=""+mn-cs""/></a:defRPr></a:lvl1pPr><a:lvl2pPr marL=""457200"" algn=""l"" defTabSz=""457200"" rtl=""0"" eaLnBrk=""1"" latinLnBrk=""0"" hangingPunct=""1""><a:defRPr sz=""1800"" kern=""1200""><a:solidFill><a:schemeClr val=""tx1""/></a:solidFill><a:latin typeface=""+mn-lt""/><a:ea typeface=""+mn-ea""/><a:cs typeface=""+mn-cs""/></a:defRPr></a:lvl2pPr><a:lvl3pPr marL=""914400"" algn=""l"" defTabSz=""457200"" rtl=""0"" eaLnBrk=""1"" latinLnBrk=""0"" hangingPunct=""1""><a:defRPr sz=""1800"" kern=""1200""><a:solidFill><a:schemeClr val=""tx1""/></a:solidFill><a:latin typeface=""+mn-lt""/><a:ea typeface=""+mn-ea""/><a:cs typeface=""+mn-cs""/></a:defRPr></a:lvl3pPr><a:lvl4pPr marL=""1371600"" algn=""l"" defTabSz=""457200"" rtl=""0"" eaLnBrk=""1"" latinLnBrk=""0"" hangingPunct=""1""><a:defRPr sz=""1800"" kern=""1200""><a:solidFill><a:schemeClr val=""tx1""/></a:solidFill><a:latin typeface=""+mn-lt""/><a:ea typeface=""+mn-ea""/><a:cs typeface=""+mn-cs""/></a:defRPr></a:lvl4pPr><a:lvl5pPr marL=""1828800"" algn=""l"" defTabSz=""457200"" rtl=""0"" eaLnBrk=""1"" latinLnBrk=""0"" hangingPunct=""1""><a:defRPr sz=""1800"" kern=""1200""><a:solidFill><a:schemeClr val=""tx1""/></a:solidFill><a:latin typeface=""+mn-lt""/><a:ea typeface=""+mn-ea""/><a:cs typeface=""+mn-cs""/></a:defRPr></a:lvl5pPr><a:lvl6pPr marL=""2286000"" algn=""l"" defTabSz=""457200"" rtl=""0"" eaLnBrk=""1"" latinLnBrk=""0"" hangingPunct=""1""><a:defRPr sz=""1800"" kern=""1200""><a:solidFill><a:schemeClr val=""tx1""/></a:solidFill><a:latin typeface=""+mn-lt""/><a:ea typeface=""+mn-ea""/><a:cs typeface=""+mn-cs""/></a:defRPr></a:lvl6pPr><a:lvl7pPr marL=""2743200"" algn=""l"" defTabSz=""457200"" rtl=""0"" eaLnBrk=""1"" latinLnBrk=""0"" hangingPunct=""1""><a:defRPr sz=""1800"" kern=""1200""><a:solidFill><a:schemeClr val=""tx1""/></a:solidFill><a:latin typeface=""+mn-lt""/><a:ea typeface=""+mn-ea""/><a:cs typeface=""+mn-cs""/></a:defRPr></a:lvl7pPr><a:lvl8pPr marL=""3200400"" algn=""l"" defTabSz=""457200"" rtl=""0"" eaLnBrk=""1"" latinLnBrk=""0"" hangingPunct=""1""><a:defRPr sz=""1800"" kern=""1200""><a:solidFill><a:schemeClr val=""tx1""/></a:solidFill><a:latin typeface=""+mn-lt""/><a:ea typeface=""+mn-ea""/><a:cs typeface=""+mn-cs""/></a:defRPr></a:lvl8pPr><a:lvl9pPr marL=""3657600"" algn=""l"" defTabSz=""457200"" rtl=""0"" eaLnBrk=""1"" latinLnBrk=""0"" hangingPunct=""1""><a:defRPr sz=""1800"" kern=""1200""><a:solidFill><a:schemeClr val=""tx1""/></a:solidFill><a:latin typeface=""+mn-lt""/><a:ea typeface=""+mn-ea""/><a:cs typeface=""+mn-cs""/></a:defRPr></a:lvl9pPr></p:otherStyle></p:txStyles>".
(** theme_xml.rs:30-39: the layout list; package_xml.rs:14 SLIDE_LAYOUT_ID *)
Definition layout_id_entry (i : nat) : string := ("
<p:sldLayoutId id=""" ++ dec (slide_layout_id + N.of_nat i) ++ """ r:id=""rId" ++ decn (i + 1) ++ """/>").
Definition layout_ids : string := sconcat (map layout_id_entry (seq 0 standard_layout_count)).
(** theme_xml.rs:26-73 [create_slide_master_xml] *)
Definition slide_master_xml (print : option print_settings) : string :=
  ("<?xml version=""1.0"" encoding=""UTF-8"" standalone=""yes""?>
<p:sldMaster xmlns:a=""http://schemas.openxmlformats.org/drawingml/2006/main"" xmlns:r=""http://schemas.openxmlformats.org/officeDocument/2006/relationships"" xmlns:p=""http://schemas.openxmlformats.org/presentationml/2006/main"">
<p:cSld>
<p:bg>
<p:bgRef idx=""1001"">
<a:schemeClr val=""bg1""/>
</p:bgRef>
</p:bg>
<p:spTree>
<p:nvGrpSpPr>
<p:cNvPr id=""1"" name=""""/>
<p:cNvGrpSpPr/>
<p:nvPr/>
</p:nvGrpSpPr>
<p:grpSpPr>
<a:xfrm>
<a:off x=""0"" y=""0""/>
<a:ext cx=""0"" cy=""0""/>
<a:chOff x=""0"" y=""0""/>
<a:chExt cx=""0"" cy=""0""/>
</a:xfrm>
</p:grpSpPr>
" ++ master_footer_shapes print ++ "
</p:spTree>
</p:cSld>
<p:clrMap bg1=""lt1"" tx1=""dk1"" bg2=""lt2"" tx2=""dk2"" accent1=""accent1"" accent2=""accent2"" accent3=""accent3"" accent4=""accent4"" accent5=""accent5"" accent6=""accent6"" hlink=""hlink"" folHlink=""folHlink""/>
<p:sldLayoutIdLst>" ++ layout_ids ++ "
</p:sldLayoutIdLst>
" ++ tx_styles ++ "
</p:sldMaster>").
(** package_cache.rs:19-26 [print_affects_theme_parts] *)
Definition is_some {A} (o : option A) : bool := match o with Some _ => true | None => false end.
Definition print_affects_theme_parts (print : option print_settings) : bool :=
  match print with Some p => is_some (pr_header p) || is_some (pr_footer p) || pr_date p || pr_numbers p | None => false end.
(** builder.rs:646-669: the cached parts or the ones for these settings *)
Definition written_layout (print : option print_settings) (n : nat) : string := slide_layout_xml n.
Definition written_master (print : option print_settings) : string :=
  if print_affects_theme_parts print then slide_master_xml print else slide_master_xml None.

(** ** presentation_theme.rs *)
(** 7-24, 95-98, 117-122 *)
Record colors := Colors {
  tc_dk1 : string; tc_lt1 : string; tc_dk2 : string; tc_lt2 : string; tc_accent1 : string; tc_accent2 : string; tc_accent3 : string;
  tc_accent4 : string; tc_accent5 : string; tc_accent6 : string; tc_hlink : string; tc_fol : string }.
Record theme := Theme { th_name : string; th_colors : colors; th_major : string; th_minor : string }.
(** 28-43 [ThemeColorScheme::office], 103-108 [ThemeFonts::office], 133-143 *)
Definition office_colors : colors :=
  Colors "000000" "FFFFFF" "1F497D" "EEECE1" "4F81BD" "C0504D" "9BBB59" "8064A2" "4BACC6" "F79646" "0000FF" "800080".
Definition theme_new (name : string) : theme := Theme name office_colors "Calibri Light" "Calibri".
(** 46-72 and 166-183 [from_palette] *)
Definition palette_colors (primary secondary accent background text light dark : string) : colors :=
  let p := normalize_hex primary in let s := normalize_hex secondary in let a := normalize_hex accent in
  Colors (normalize_hex text) (normalize_hex background) (normalize_hex dark) (normalize_hex light) p s a p a p p "954F72".
Definition theme_from_palette (name primary secondary accent background text light dark : string) : theme :=
  Theme name (palette_colors primary secondary accent background text light dark) "Calibri Light" "Calibri".
(** the derived equality on colour schemes *)
Definition color_list (c : colors) : list string :=
  [tc_dk1 c; tc_lt1 c; tc_dk2 c; tc_lt2 c; tc_accent1 c; tc_accent2 c; tc_accent3 c; tc_accent4 c; tc_accent5 c; tc_accent6 c; tc_hlink c; tc_fol c].
Fixpoint eq_all (a b : list string) : bool :=
  match a, b with x :: a, y :: b => String.eqb x y && eq_all a b | [], [] => true | _, _ => false end.
Definition colors_eqb (a b : colors) : bool := eq_all (color_list a) (color_list b).
(** 303-305 [office_theme_xml], the file office_theme.xml *)
Definition office_theme_xml : string := "<?xml version=""1.0"" encoding=""UTF-8"" standalone=""yes""?>
<a:theme xmlns:a=""http://schemas.openxmlformats.org/drawingml/2006/main"" name=""Office Theme""><a:themeElements><a:clrScheme name=""Office""><a:dk1><a:sysClr val=""windowText"" lastClr=""000000""/></a:dk1><a:lt1><a:sysClr val=""window"" lastClr=""FFFFFF""/></a:lt1><a:dk2><a:srgbClr val=""1F497D""/></a:dk2><a:lt2><a:srgbClr val=""EEECE1""/></a:lt2><a:accent1><a:srgbClr val=""4F81BD""/></a:accent1><a:accent2><a:srgbClr val=""C0504D""/></a:accent2><a:accent3><a:srgbClr val=""9BBB59""/></a:accent3><a:accent4><a:srgbClr val=""8064A2""/></a:accent4><a:accent5><a:srgbClr val=""4BACC6""/></a:accent5><a:accent6><a:srgbClr val=""F79646""/></a:accent6><a:hlink><a:srgbClr val=""0000FF""/></a:hlink><a:folHlink><a:srgbClr val=""800080""/></a:folHlink></a:clrScheme><a:fontScheme name=""Office""><a:majorFont><a:latin typeface=""Calibri""/><a:ea typeface=""""/><a:cs typeface=""""/><a:font script=""Jpan"" typeface=""ＭＳ Ｐゴシック""/><a:font script=""Hang"" typeface=""맑은 고딕""/><a:font script=""Hans"" typeface=""宋体""/><a:font script=""Hant"" typeface=""新細明體""/><a:font script=""Arab"" typeface=""Times New Roman""/><a:font script=""Hebr"" typeface=""Times New Roman""/><a:font script=""Thai"" typeface=""Angsana New""/><a:font script=""Ethi"" typeface=""Nyala""/><a:font script=""Beng"" typeface=""Vrinda""/><a:font script=""Gujr"" typeface=""Shruti""/><a:font script=""Khmr"" typeface=""MoolBoran""/><a:font script=""Knda"" typeface=""Tunga""/><a:font script=""Guru"" typeface=""Raavi""/><a:font script=""Cans"" typeface=""Euphemia""/><a:font script=""Cher"" typeface=""Plantagenet Cherokee""/><a:font script=""Yiii"" typeface=""Microsoft Yi Baiti""/><a:font script=""Tibt"" typeface=""Microsoft Himalaya""/><a:font script=""Thaa"" typeface=""MV Boli""/><a:font script=""Deva"" typeface=""Mangal""/><a:font script=""Telu"" typeface=""Gautami""/><a:font script=""Taml"" typeface=""Latha""/><a:font script=""Syrc"" typeface=""Estrangelo Edessa""/><a:font script=""Orya"" typeface=""Kalinga""/><a:font script=""Mlym"" typeface=""Kartika""/><a:font script=""Laoo"" typeface=""DokChampa""/><a:font script=""Sinh"" typeface=""Iskoola Pota""/><a:font script=""Mong"" typeface=""Mongolian Baiti""/><a:font script=""Viet"" typeface=""Times New Roman""/><a:font script=""Uigh"" typeface=""Microsoft Uighur""/><a:font script=""Geor"" typeface=""Sylfaen""/></a:majorFont><a:minorFont><a:latin typeface=""Calibri""/><a:ea typeface=""""/><a:cs typeface=""""/><a:font script=""Jpan"" typeface=""ＭＳ Ｐゴシック""/><a:font script=""Hang"" typeface=""맑은 고딕""/><a:font script=""Hans"" typeface=""宋体""/><a:font script=""Hant"" typeface=""新細明體""/><a:font script=""Arab"" typeface=""Arial""/><a:font script=""Hebr"" typeface=""Arial""/><a:font script=""Thai"" typeface=""Cordia New""/><a:font script=""Ethi"" typeface=""Nyala""/><a:font script=""Beng"" typeface=""Vrinda""/><a:font script=""Gujr"" typeface=""Shruti""/><a:font script=""Khmr"" typeface=""DaunPenh""/><a:font script=""Knda"" typeface=""Tunga""/><a:font script=""Guru"" typeface=""Raavi""/><a:font script=""Cans"" typeface=""Euphemia""/><a:font script=""Cher"" typeface=""Plantagenet Cherokee""/><a:font script=""Yiii"" typeface=""Microsoft Yi Baiti""/><a:font script=""Tibt"" typeface=""Microsoft Himalaya""/><a:font script=""Thaa"" typeface=""MV Boli""/><a:font script=""Deva"" typeface=""Mangal""/><a:font script=""Telu"" typeface=""Gautami""/><a:font script=""Taml"" typeface=""Latha""/><a:font script=""Syrc"" typeface=""Estrangelo Edessa""/><a:font script=""Orya"" typeface=""Kalinga""/><a:font script=""Mlym"" typeface=""Kartika""/><a:font script=""Laoo"" typeface=""DokChampa""/><a:font script=""Sinh"" typeface=""Iskoola Pota""/><a:font script=""Mong"" typeface=""Mongolian Baiti""/><a:font script=""Viet"" typeface=""Arial""/><a:font script=""Uigh"" typeface=""Microsoft Uighur""/><a:font script=""Geor"" typeface=""Sylfaen""/></a:minorFont></a:fontScheme><a:fmtScheme name=""Office""><a:fillStyleLst><a:solidFill><a:schemeClr val=""phClr""/></a:solidFill><a:gradFill rotWithShape=""1""><a:gsLst><a:gs pos=""0""><a:schemeClr val=""phClr""><a:tint val=""50000""/><a:satMod val=""300000""/></a:schemeClr></a:gs><a:gs pos=""35000""><a:schemeClr val=""phClr""><a:tint val=""37000""/><a:satMod val=""300000""/></a:schemeClr></a:gs><a:gs pos=""100000""><a:schemeClr val=""phClr""><a:tint val=""15000""/><a:satMod val=""350000""/></a:schemeClr></a:gs></a:gsLst><a:lin ang=""16200000"" scaled=""1""/></a:gradFill><a:gradFill rotWithShape=""1""><a:gsLst><a:gs pos=""0""><a:schemeClr val=""phClr""><a:tint val=""100000""/><a:shade val=""100000""/><a:satMod val=""130000""/></a:schemeClr></a:gs><a:gs pos=""100000""><a:schemeClr val=""phClr""><a:tint val=""50000""/><a:shade val=""100000""/><a:satMod val=""350000""/></a:schemeClr></a:gs></a:gsLst><a:lin ang=""16200000"" scaled=""0""/></a:gradFill></a:fillStyleLst><a:lnStyleLst><a:ln w=""9525"" cap=""flat"" cmpd=""sng"" algn=""ctr""><a:solidFill><a:schemeClr val=""phClr""><a:shade val=""95000""/><a:satMod val=""105000""/></a:schemeClr></a:solidFill><a:prstDash val=""solid""/></a:ln><a:ln w=""25400"" cap=""flat"" cmpd=""sng"" algn=""ctr""><a:solidFill><a:schemeClr val=""phClr""/></a:solidFill><a:prstDash val=""solid""/></a:ln><a:ln w=""38100"" cap=""flat"" cmpd=""sng"" algn=""ctr""><a:solidFill><a:schemeClr val=""phClr""/></a:solidFill><a:prstDash val=""solid""/></a:ln></a:lnStyleLst><a:effectStyleLst><a:effectStyle><a:effectLst><a:outerShdw blurRad=""40000"" dist=""20000"" dir=""5400000"" rotWithShape=""0""><a:srgbClr val=""000000""><a:alpha val=""38000""/></a:srgbClr></a:outerShdw></a:effectLst></a:effectStyle><a:effectStyle><a:effectLst><a:outerShdw blurRad=""40000"" dist=""23000"" dir=""5400000"" rotWithShape=""0""><a:srgbClr val=""000000""><a:alpha val=""35000""/></a:srgbClr></a:outerShdw></a:effectLst></a:effectStyle><a:effectStyle><a:effectLst><a:outerShdw blurRad=""40000"" dist=""23000"" dir=""5400000"" rotWithShape=""0""><a:srgbClr val=""000000""><a:alpha val=""35000""/></a:srgbClr></a:outerShdw></a:effectLst><a:scene3d><a:camera prst=""orthographicFront""><a:rot lat=""0"" lon=""0"" rev=""0""/></a:camera><a:lightRig rig=""threePt"" dir=""t""><a:rot lat=""0"" lon=""0"" rev=""1200000""/></a:lightRig></a:scene3d><a:sp3d><a:bevelT w=""63500"" h=""25400""/></a:sp3d></a:effectStyle></a:effectStyleLst><a:bgFillStyleLst><a:solidFill><a:schemeClr val=""phClr""/></a:solidFill><a:gradFill rotWithShape=""1""><a:gsLst><a:gs pos=""0""><a:schemeClr val=""phClr""><a:tint val=""40000""/><a:satMod val=""350000""/></a:schemeClr></a:gs><a:gs pos=""40000""><a:schemeClr val=""phClr""><a:tint val=""45000""/><a:shade val=""99000""/><a:satMod val=""350000""/></a:schemeClr></a:gs><a:gs pos=""100000""><a:schemeClr val=""phClr""><a:shade val=""20000""/><a:satMod val=""255000""/></a:schemeClr></a:gs></a:gsLst><a:path path=""circle""><a:fillToRect l=""50000"" t=""-80000"" r=""50000"" b=""180000""/></a:path></a:gradFill><a:gradFill rotWithShape=""1""><a:gsLst><a:gs pos=""0""><a:schemeClr val=""phClr""><a:tint val=""80000""/><a:satMod val=""300000""/></a:schemeClr></a:gs><a:gs pos=""100000""><a:schemeClr val=""phClr""><a:shade val=""30000""/><a:satMod val=""200000""/></a:schemeClr></a:gs></a:gsLst><a:path path=""circle""><a:fillToRect l=""50000"" t=""50000"" r=""50000"" b=""50000""/></a:path></a:gradFill></a:bgFillStyleLst></a:fmtScheme></a:themeElements><a:objectDefaults><a:spDef><a:spPr/><a:bodyPr/><a:lstStyle/><a:style><a:lnRef idx=""1""><a:schemeClr val=""accent1""/></a:lnRef><a:fillRef idx=""3""><a:schemeClr val=""accent1""/></a:fillRef><a:effectRef idx=""2""><a:schemeClr val=""accent1""/></a:effectRef><a:fontRef idx=""minor""><a:schemeClr val=""lt1""/></a:fontRef></a:style></a:spDef><a:lnDef><a:spPr/><a:bodyPr/><a:lstStyle/><a:style><a:lnRef idx=""2""><a:schemeClr val=""accent1""/></a:lnRef><a:fillRef idx=""0""><a:schemeClr val=""accent1""/></a:fillRef><a:effectRef idx=""1""><a:schemeClr val=""accent1""/></a:effectRef><a:fontRef idx=""minor""><a:schemeClr val=""tx1""/></a:fontRef></a:style></a:lnDef></a:objectDefaults><a:extraClrSchemeLst/></a:theme>".
(** 241-243 [color_slot] *)
Definition color_slot (tag hex : string) : string := ("<a:" ++ tag ++ "><a:srgbClr val=""" ++ hex ++ """/></a:" ++ tag ++ ">").
(** 244-259 *)
Definition colors_xml (c : colors) : string :=
  color_slot "dk1" (tc_dk1 c) ++ color_slot "lt1" (tc_lt1 c) ++ color_slot "dk2" (tc_dk2 c) ++ color_slot "lt2" (tc_lt2 c)
  ++ color_slot "accent1" (tc_accent1 c) ++ color_slot "accent2" (tc_accent2 c) ++ color_slot "accent3" (tc_accent3 c)
  ++ color_slot "accent4" (tc_accent4 c) ++ color_slot "accent5" (tc_accent5 c) ++ color_slot "accent6" (tc_accent6 c)
  ++ color_slot "hlink" (tc_hlink c) ++ color_slot "folHlink" (tc_fol c).
(** 260 *)
Definition clr_scheme (t : theme) : string :=
  ("<a:clrScheme name=""" ++ escape_xml_attr (th_name t) ++ """>" ++ colors_xml (th_colors t) ++ "</a:clrScheme>").
(** 263-268: [replace_range] from the first start tag to the end of the first end
    tag (the end tag comes after the start tag in office_theme.xml). *)
Definition replace_scheme (xml new : string) : string :=
  match split_once "<a:clrScheme" xml, split_once "</a:clrScheme>" xml with
  | Some (before, _), Some (_, after) => before ++ new ++ after
  | _, _ => xml
  end.
(** 270-276: the value of the first name attribute *)
Definition replace_first_name (xml new : string) : string :=
  match split_once "name=""" xml with
  | Some (before, rest) => match split_once """" rest with Some (_, after) => before ++ "name=""" ++ new ++ """" ++ after | None => xml end
  | None => xml
  end.
(** 285-300 [replace_font_latin] *)
Definition latin_prefix : string := "<a:latin typeface=""".
Definition replace_font_latin (xml font_tag typeface : string) : string :=
  let marker := "<a:" ++ font_tag ++ ">" in
  match split_once marker xml with
  | None => xml
  | Some (before, rest) =>
      match split_once latin_prefix (marker ++ rest) with
      | None => xml
      | Some (mid, tail) =>
          match split_once """" tail with
          | None => xml
          | Some (_, after) => before ++ mid ++ latin_prefix ++ escape_xml_attr typeface ++ """" ++ after
          end
      end
  end.
(** 235-282 [to_theme_xml] *)
Definition theme_xml (t : theme) : string :=
  if String.eqb (th_name t) "Office Theme" && colors_eqb (th_colors t) office_colors then office_theme_xml
  else
    let xml := replace_scheme office_theme_xml (clr_scheme t) in
    let xml := replace_first_name xml (escape_xml_attr (th_name t)) in
    let xml := replace_font_latin xml "majorFont" (th_major t) in
    replace_font_latin xml "minorFont" (th_minor t).
(** theme_xml.rs:13-18 [create_theme_xml] *)
Definition create_theme_xml (t : option theme) : string := match t with Some t => theme_xml t | None => office_theme_xml end.

(** ** digital_signature.rs *)
(** 7-14, 37-43, 69-76, 78-85 *)
Inductive hash_algorithm := Sha256 | Sha384 | Sha512 | Sha1.
Inductive commitment := Created | Approved | Reviewed.
Record signer := Signer { sg_name : string; sg_email : option string; sg_org : option string; sg_title : option string }.
Record signature := Signature { sn_signer : signer; sn_hash : hash_algorithm; sn_date : option string; sn_commitment : commitment; sn_comments : option string }.
(** 17-24 *)
Definition hash_uri (h : hash_algorithm) : string :=
  match h with
  | Sha256 => "http://www.w3.org/2001/04/xmlenc#sha256"
  | Sha384 => "http://www.w3.org/2001/04/xmldsig-more#sha384"
  | Sha512 => "http://www.w3.org/2001/04/xmlenc#sha512"
  | Sha1 => "http://www.w3.org/2000/09/xmldsig#sha1"
  end.
(** 89-95, 97-103 *)
Definition commitment_uri (c : commitment) : string :=
  match c with
  | Created => "http://uri.etsi.org/01903/v1.2.2#ProofOfCreation"
  | Approved => "http://uri.etsi.org/01903/v1.2.2#ProofOfApproval"
  | Reviewed => "http://uri.etsi.org/01903/v1.2.2#ProofOfReview"
  end.
Definition commitment_label (c : commitment) : string := match c with Created => "Created" | Approved => "Approved" | Reviewed => "Reviewed" end.
(** 143-178 [to_signature_xml], 186-192 [xml_escape] *)
Definition signature_xml (g : signature) : string :=
  let date := match sn_date g with Some d => d | None => "2025-01-01T00:00:00Z" end in
  let comments_xml := match sn_comments g with Some c => ("<SignatureComments>" ++ chained_escape c ++ "</SignatureComments>") | None => "" end in
  "<?xml version=""1.0"" encoding=""UTF-8"" standalone=""yes""?>" ++ "<Signature xmlns=""http://www.w3.org/2000/09/xmldsig#"">"
  ++ "<SignedInfo>" ++ "<CanonicalizationMethod Algorithm=""http://www.w3.org/TR/2001/REC-xml-c14n-20010315""/>"
  ++ ("<SignatureMethod Algorithm=""" ++ hash_uri (sn_hash g) ++ """/>")
  ++ "</SignedInfo>" ++ "<SignatureValue/>"
  ++ "<KeyInfo>"
  ++ ("<KeyName>" ++ chained_escape (sg_name (sn_signer g)) ++ "</KeyName>")
  ++ "</KeyInfo>" ++ "<Object>"
  ++ "<SignatureProperties><SignatureProperty Target=""" ++ ("#SignatureInfo""><SignatureInfoV1 xmlns=""http://schemas.microsoft.com/office/2006/digsig""><SetupID/><SignatureText>" ++ chained_escape (sg_name (sn_signer g)) ++ "</SignatureText>" ++ comments_xml ++ "<SignatureType>1</SignatureType><SignatureProviderUrl/><SignatureProviderDetails>9</SignatureProviderDetails><ManifestHashAlgorithm>" ++ hash_uri (sn_hash g) ++ "</ManifestHashAlgorithm><SignatureProviderId>{{00000000-0000-0000-0000-000000000000}}</SignatureProviderId><CommitmentTypeId>" ++ commitment_uri (sn_commitment g) ++ "</CommitmentTypeId><CommitmentTypeQualifier>" ++ commitment_label (sn_commitment g) ++ "</CommitmentTypeQualifier><SigningTime>" ++ date ++ "</SigningTime></SignatureInfoV1></SignatureProperty></SignatureProperties>")
  ++ "</Object>" ++ "</Signature>".
(** 138-140 [to_origin_xml] *)
Definition origin_xml : string := "<?xml version=""1.0"" encoding=""UTF-8"" standalone=""yes""?><Relationships xmlns=""http://schemas.openxmlformats.org/package/2006/relationships""/>".

(** ** ink_annotations.rs *)
(** 7-12, 24-30, 77-80, 90-93: a point is the pair of whole numbers its
    coordinates are cut to (131: [as i64], which also clamps and makes NaN 0);
    [pn_transparency] is the text of the transparency attribute, if there is one
    (195-199; the opacity is a float). *)
Inductive tip := Ball | Flat.
Record pen := Pen { pn_color : string; pn_width : N; pn_tip : tip; pn_transparency : option string }.
Record stroke := Stroke { sk_points : list (Z * Z); sk_pen : pen }.
(** 34-41 [InkPen::new] *)
Definition pen_new (color : string) (width : N) : pen := Pen (strip_hash_upper color) width Ball None.
(** 15-20 *)
Definition tip_xml (t : tip) : string := match t with Ball => "ball" | Flat => "flat" end.
(** i64 to text *)
Definition dec_z (z : Z) : string := match z with Zneg p => "-" ++ dec (Npos p) | _ => dec (Z.to_N z) end.
(** 127-133 [points_str] *)
Definition points_str (l : list (Z * Z)) : string := sjoin " " (map (fun p => dec_z (fst p) ++ " " ++ dec_z (snd p)) l).
(** 136-144 [InkStroke::to_xml] *)
Definition trace_xml (id : nat) (s : stroke) : string :=
  "<ink:trace contextRef=""#" ++ decn id ++ """ brushRef=""#br" ++ decn id ++ """ id=""" ++ decn id ++ """>" ++ points_str (sk_points s) ++ "</ink:trace>".
(** 194-203 *)
Definition brush_xml (i : nat) (s : stroke) : string :=
  let p := sk_pen s in
  let transparency := match pn_transparency p with Some t => (" transparency=""" ++ t ++ """") | None => "" end in
  "<ink:brush id=""br" ++ decn i ++ """ color=""#" ++ pn_color p ++ (""" width=""" ++ dec (pn_width p) ++ """ tip=""" ++ tip_xml (pn_tip p) ++ """" ++ transparency ++ " />
").
(** 183-213 [part_xml] *)
Fixpoint over {A} (f : nat -> A -> string) (k : nat) (l : list A) : string :=
  match l with [] => "" | x :: l => f k x ++ over f (S k) l end.
Definition ink_part_xml (l : list stroke) : string :=
  match l with
  | [] => ""
  | _ => "<?xml version=""1.0"" encoding=""UTF-8"" standalone=""yes""?>
<ink:ink xmlns:ink=""http://www.w3.org/2003/InkML"">" ++ over brush_xml 0 l ++ over trace_xml 0 l ++ "</ink:ink>"
  end.

(** ** presentation_settings.rs:14-27, without a template deck *)
Record presentation_settings := PresentationSettings {
  ps_theme : option theme; ps_show : option slide_show; ps_print : option print_settings; ps_fonts : list font; ps_signature : option signature }.
(** builder.rs:426-431, 434-438, 441-446: what decides which parts there are *)
Definition settings_of (p : presentation_settings) : settings :=
  Settings (match ps_print p with Some q => match pr_what q with PrintHandouts => true | _ => false end | None => false end)
           (is_some (ps_signature p)) (ps_fonts p).
(** The rest of what a deck is made of: the text of the notes master, the ink of
    a slide, the embedded workbook and the time. *)
Record rest := Rest { r_notes_master : string; r_ink : slide -> list stroke; r_workbook : string; r_now : string }.
(** builder.rs:561-689, 1360-1379: the parts the deck model takes as given, for
    these settings. *)
Definition statics_of (p : presentation_settings) (r : rest) : statics :=
  Statics (pres_props_xml (ps_show p)) view_props_xml table_styles_xml
    (handout_master_xml (match ps_print p with Some q => q | None => print_default end)) (r_notes_master r)
    (written_layout (ps_print p)) (written_master (ps_print p)) (create_theme_xml (ps_theme p)) office_theme_xml
    (fun s => ink_part_xml (r_ink r s)) (r_workbook r) origin_xml
    (match ps_signature p with Some g => signature_xml g | None => "" end) (r_now r).
(** builder.rs:161-185 [create_pptx_with_settings] *)
Definition generate (r : rest) (title : string) (slides : list slide) (p : presentation_settings) : list entry :=
  create_pptx_with_settings (statics_of p r) title slides (settings_of p).
