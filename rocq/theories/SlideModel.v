(** Model of src/generator/slide_xml/ (the slide part of every layout), of the
    text properties of layouts/common.rs and slide/formatting.rs it uses, and of
    slide_content/{bullet,transition,layout,content}.rs. *)
From Coq Require Import String Ascii List Bool Arith NArith ZArith.
From Verif Require Import Str Num EscapeModel ColorModel TableModel ConnectorModel ChartModel ShapeModel.
Import ListNotations.
Open Scope nat_scope.
Open Scope string_scope.

(** slide_content/bullet.rs:7-26; the custom character is given by its UTF-8 bytes. *)
Inductive bullet_style := Bullet | Number | LetterLower | LetterUpper | RomanLower | RomanUpper | Custom (ch : string) | NoBullet.
(** bullet.rs:30-41 [BulletStyle::to_xml] *)
Definition bullet_xml (s : bullet_style) : string :=
  match s with
  | Bullet => "<a:buChar char=""•""/>"
  | Number => "<a:buAutoNum type=""arabicPeriod""/>"
  | LetterLower => "<a:buAutoNum type=""alphaLcPeriod""/>"
  | LetterUpper => "<a:buAutoNum type=""alphaUcPeriod""/>"
  | RomanLower => "<a:buAutoNum type=""romanLcPeriod""/>"
  | RomanUpper => "<a:buAutoNum type=""romanUcPeriod""/>"
  | Custom ch => ("<a:buChar char=""" ++ ch ++ """/>")
  | NoBullet => "<a:buNone/>"
  end.
(** bullet.rs:58-70, 129-136 *)
Record bullet_format := Format {
  bf_bold : bool; bf_italic : bool; bf_underline : bool; bf_strike : bool; bf_sub : bool; bf_super : bool;
  bf_color : option string; bf_highlight : option string; bf_size : option N; bf_font : option string }.
Record bullet := BulletPoint { b_text : string; b_level : N; b_style : bullet_style; b_format : option bullet_format }.

(** layouts/common.rs:14-26 [ExtendedTextProps], 36-45 [with_basic] *)
Record props := Props {
  p_size : N; p_bold : bool; p_italic : bool; p_underline : bool; p_strike : bool; p_sub : bool; p_super : bool;
  p_color : option string; p_highlight : option string; p_font : option string }.
Definition with_basic (size : N) (b i u : bool) (c : option string) : props :=
  Props size b i u false false false (option_map clean c) None None.
Definition onezero (b : bool) : string := if b then "1" else "0".
(** layouts/common.rs:47-93 [to_xml] *)
Definition props_xml (p : props) : string :=
  ("<a:rPr lang=""en-US"" sz=""" ++ dec (p_size p) ++ """ b=""" ++ onezero (p_bold p) ++ """ i=""" ++ onezero (p_italic p) ++ """ dirty=""0""")
  ++ (if p_underline p then " u=""sng""" else "")
  ++ (if p_strike p then " strike=""sngStrike""" else "")
  ++ (if p_sub p then " baseline=""-25000""" else if p_super p then " baseline=""30000""" else "")
  ++ ">"
  ++ match p_color p with Some c => ("<a:solidFill><a:srgbClr val=""" ++ clean c ++ """/></a:solidFill>") | None => "" end
  ++ match p_highlight p with Some c => ("<a:highlight><a:srgbClr val=""" ++ clean c ++ """/></a:highlight>") | None => "" end
  ++ match p_font p with Some f => ("<a:latin typeface=""" ++ f ++ """/><a:cs typeface=""" ++ f ++ """/>") | None => "" end
  ++ "</a:rPr>".
(** slide/formatting.rs:150-182 [generate_text_props] *)
Definition text_props (size : N) (b i u : bool) (c : option string) : string :=
  ("<a:rPr lang=""en-US"" sz=""" ++ dec size ++ """ b=""" ++ onezero b ++ """ i=""" ++ onezero i ++ """ dirty=""0""")
  ++ (if u then " u=""sng""" else "")
  ++ ">"
  ++ match c with Some c => ("<a:solidFill><a:srgbClr val=""" ++ clean c ++ """/></a:solidFill>") | None => "" end
  ++ "</a:rPr>".
Definition orelse {A} (a b : option A) : option A := match a with Some _ => a | None => b end.
(** slide_xml/layouts.rs:11-33 [generate_bullet_text_props] *)
Definition bullet_props (d : props) (f : option bullet_format) : string :=
  match f with
  | Some f => props_xml (Props (match bf_size f with Some s => wmul u32_max s 100 | None => p_size d end)
      (bf_bold f || p_bold d) (bf_italic f || p_italic d) (bf_underline f || p_underline d)
      (bf_strike f) (bf_sub f) (bf_super f) (orelse (bf_color f) (p_color d)) (bf_highlight f) (orelse (bf_font f) (p_font d)))
  | None => props_xml d
  end.
(** slide_xml/layouts.rs:36-59 [generate_bullet_paragraph_from_point]; u32 arithmetic *)
Definition bullet_paragraph (d : props) (b : bullet) : string :=
  let indent := wadd u32_max 457200 (wmul u32_max (b_level b) 457200) in
  let margin := wadd u32_max (wmul u32_max (b_level b) 457200) indent in
  ("
<a:p>
<a:pPr lvl=""" ++ dec (b_level b) ++ """ marL=""" ++ dec margin ++ """ indent=""-" ++ dec indent ++ """>
" ++ bullet_xml (b_style b) ++ "
</a:pPr>
<a:r>
" ++ bullet_props d (b_format b) ++ "
<a:t>" ++ escape_xml (b_text b) ++ "</a:t>
</a:r>
</a:p>").

(** slide_content/layout.rs:6-22, transition.rs:7-19 *)
Inductive layout := TitleOnly | CenteredTitle | TitleAndContent | TitleAndBigContent | TwoColumn | Blank | SectionHeader.
Inductive transition := NoTransition | Fade | Cut | Push | Wipe | Split | Reveal | Cover | Zoom.
(** transition.rs:22-34 [to_xml] *)
Definition transition_xml (t : transition) : string :=
  match t with
  | NoTransition => "" | Cut => ""
  | Fade => "<p:transition><p:fade/></p:transition>"
  | Push => "<p:transition><p:push dir=""r""/></p:transition>"
  | Wipe => "<p:transition><p:wipe dir=""r""/></p:transition>"
  | Split => "<p:transition><p:split dir=""out"" orient=""horz""/></p:transition>"
  | Reveal => "<p:transition><p:reveal dir=""r""/></p:transition>"
  | Cover => "<p:transition><p:cover dir=""r""/></p:transition>"
  | Zoom => "<p:transition><p:zoom dir=""in""/></p:transition>"
  end.
(** slide_content/content.rs:19-57 [SlideContent]: the fields the slide part
    uses ([content_underline], [has_*], videos and audios are never read by it).
    [s_ink] says whether there are ink annotations. *)
Record slide := Slide {
  s_title : string; s_content : list string; s_bullets : list bullet; s_style : bullet_style;
  s_tsize : option N; s_csize : option N; s_tbold : bool; s_cbold : bool; s_titalic : bool; s_citalic : bool; s_tunder : bool;
  s_tcolor : option string; s_ccolor : option string; s_layout : layout; s_transition : transition; s_table : option table;
  s_shapes : list shape; s_images : list image; s_notes : option string; s_connectors : list connector;
  s_charts : list chart; s_code : list code_block; s_ink : bool }.
(** content.rs:60-92 [new], 101-105 [add_bullet] *)
Definition slide_new (t : string) : slide :=
  Slide t [] [] Bullet (Some 44%N) (Some 28%N) true false false false false None None TitleAndContent NoTransition None [] [] None [] [] [] false.

(** slide_xml/common.rs:6-29, 30-36 *)
Definition SLIDE_HEADER : string := "<?xml version=""1.0"" encoding=""UTF-8"" standalone=""yes""?>
<p:sld xmlns:a=""http://schemas.openxmlformats.org/drawingml/2006/main"" xmlns:r=""http://schemas.openxmlformats.org/officeDocument/2006/relationships"" xmlns:p=""http://schemas.openxmlformats.org/presentationml/2006/main"">
<p:cSld>
<p:bg>
<p:bgRef idx=""1001"">
<a:schemeClr val=""bg1""/>
</p:bgRef>
</p:bg>
<p:spTree>
<p:nvGrpSpPr>
<p:cNvPr id=""1"" name=""""/>
<p:cNvGrpSpPr/>
<p:nvPr/>
</p:nvGrpSpPr>
<p:grpSpPr>
<a:xfrm>
<a:off x=""0"" y=""0""/>
<a:ext cx=""9144000"" cy=""6858000""/>
<a:chOff x=""0"" y=""0""/>
<a:chExt cx=""9144000"" cy=""6858000""/>
</a:xfrm>
</p:grpSpPr>".
Definition SLIDE_FOOTER : string := "
</p:spTree>
</p:cSld>
<p:clrMapOvr>
<a:masterClrMapping/>
</p:clrMapOvr>
</p:sld>".
(** slide_xml/common.rs:55-92 [generate_title_shape] *)
Definition title_shape (text props : string) (x y w h : N) (align : string) : string :=
  ("<p:sp>
<p:nvSpPr>
<p:cNvPr id=""2"" name=""Title""/>
<p:cNvSpPr txBox=""1""/>
<p:nvPr/>
</p:nvSpPr>
<p:spPr>
<a:xfrm>
<a:off x=""" ++ dec x ++ """ y=""" ++ dec y ++ """/>
<a:ext cx=""" ++ dec w ++ """ cy=""" ++ dec h ++ """/>
</a:xfrm>
<a:prstGeom prst=""rect""><a:avLst/></a:prstGeom>
<a:noFill/>
</p:spPr>
<p:txBody>
<a:bodyPr wrap=""square"" rtlCol=""0"" anchor=""ctr""/>
<a:lstStyle/>
<a:p>
<a:pPr algn=""" ++ align ++ """/>
<a:r>
" ++ props ++ "
<a:t>" ++ text ++ "</a:t>
</a:r>
</a:p>
</p:txBody>
</p:sp>").
(** title props of every layout: layouts.rs:79-87, 111-119, 141-149, 174-184, 279-289, 419-429 *)
Definition title_props (s : slide) (size : N) (bold : bool) : string :=
  text_props (wmul u32_max (match s_tsize s with Some n => n | None => size end) 100) bold (s_titalic s) (s_tunder s) (s_tcolor s).
(** layouts.rs:240-246, 318-324, 501-507 *)
Definition content_props (s : slide) (size : N) : props :=
  with_basic (wmul u32_max (match s_csize s with Some n => n | None => size end) 100) (s_cbold s) (s_citalic s) false (s_ccolor s).
(** [BulletPoint::new(bullet).with_style(content.bullet_style)], bullet.rs:139-151 *)
Definition plain_bullet (st : bullet_style) (t : string) : bullet := BulletPoint t 0 st None.
(** The bullets of a slide: the styled ones if there are any (layouts.rs:249-258, 327-328, 510-519) *)
Definition bullets_of (s : slide) : list bullet :=
  match s_bullets s with [] => map (plain_bullet (s_style s)) (s_content s) | l => l end.
Definition paragraphs (d : props) (l : list bullet) : string := sconcat (map (bullet_paragraph d) l).

(** [for (i, x) in l.iter().enumerate() { xml.push('\n'); xml.push_str(f(i, x)) }] *)
Definition nl_each {A} (f : nat -> A -> string) (l : list A) : string := each_push (fun i x => nl ++ f i x) 0 l.
(** slide_xml/content.rs:7-88 [render_additional_content]; usize sums do not
    overflow for lists that fit in memory, [(i + 10) as u32] truncates. *)
Definition extra (s : slide) (chart_rids : list string) (ink : option string) : string :=
  let ns := length (s_shapes s) in
  let ni := length (s_images s) in
  let nc := length (s_code s) in
  let nx := length (s_connectors s) in
  let rel0 := 2 + match s_notes s with Some _ => 1 | None => 0 end in
  nl_each (fun i x => shape_xml x (match sh_id x with Some n => n | None => (N.of_nat (i + 10) mod (u32_max + 1))%N end)) (s_shapes s)
  ++ nl_each (fun i x => image_xml x (N.of_nat (20 + ns + i)) (N.of_nat (rel0 + i))) (s_images s)
  ++ nl_each (fun i x => code_xml x (N.of_nat (30 + ns + ni + i))) (s_code s)
  ++ nl_each (fun i x => generate_connector_xml x (N.of_nat (50 + ns + ni + nc + i))) (s_connectors s)
  ++ each_push (fun i x => match nth_error chart_rids i with
       | Some r => nl ++ chart_ref_xml x r (N.of_nat (100 + ns + ni + nc + nx + i))
       | None => ""
       end) 0 (s_charts s)
  ++ match ink with
     | Some r => if s_ink s then nl ++ ("<mc:AlternateContent xmlns:mc=""http://schemas.openxmlformats.org/markup-compatibility/2006""><mc:Choice Requires=""p14""><p:contentPart xmlns:r=""http://schemas.openxmlformats.org/officeDocument/2006/relationships"" r:id=""" ++ r ++ """/></mc:Choice></mc:AlternateContent>") else ""
     | None => ""
     end.

(** layouts.rs:62-71 *)
Definition blank_slide (s : slide) rids ink : string := SLIDE_HEADER ++ extra s rids ink ++ SLIDE_FOOTER.
(** layouts.rs:74-103 *)
Definition title_only_slide (s : slide) rids ink : string :=
  SLIDE_HEADER ++ nl ++ title_shape (escape_xml (s_title s)) (title_props s 44 (s_tbold s)) 457200 274638 8230200 1143000 "l"
  ++ extra s rids ink ++ SLIDE_FOOTER.
(** layouts.rs:106-133 *)
Definition section_header_slide (s : slide) rids ink : string :=
  SLIDE_HEADER ++ nl ++ title_shape (escape_xml (s_title s)) (title_props s 48 true) 457200 1600200 8229600 1828800 "ctr"
  ++ extra s rids ink ++ SLIDE_FOOTER.
(** layouts.rs:136-165 *)
Definition centered_title_slide (s : slide) rids ink : string :=
  SLIDE_HEADER ++ nl ++ title_shape (escape_xml (s_title s)) (title_props s 54 (s_tbold s)) 457200 2743200 8230200 1371600 "ctr"
  ++ extra s rids ink ++ SLIDE_FOOTER.
(** layouts.rs:168-270 *)
Definition big_content_slide (s : slide) rids ink : string :=
  SLIDE_HEADER
  ++ ("
<p:sp>
<p:nvSpPr>
<p:cNvPr id=""2"" name=""Title""/>
<p:cNvSpPr txBox=""1""/>
<p:nvPr/>
</p:nvSpPr>
<p:spPr>
<a:xfrm>
<a:off x=""457200"" y=""274638""/>
<a:ext cx=""8230200"" cy=""914400""/>
</a:xfrm>
<a:prstGeom prst=""rect""><a:avLst/></a:prstGeom>
<a:noFill/>
</p:spPr>
<p:txBody>
<a:bodyPr wrap=""square"" rtlCol=""0"" anchor=""ctr""/>
<a:lstStyle/>
<a:p>
<a:pPr algn=""l""/>
<a:r>
" ++ title_props s 44 (s_tbold s) ++ "
<a:t>" ++ escape_xml (s_title s) ++ "</a:t>
</a:r>
</a:p>
</p:txBody>
</p:sp>")
  ++ match bullets_of s with
     | [] => ""
     | l => "
<p:sp>
<p:nvSpPr>
<p:cNvPr id=""3"" name=""Content""/>
<p:cNvSpPr txBox=""1""/>
<p:nvPr/>
</p:nvSpPr>
<p:spPr>
<a:xfrm>
<a:off x=""457200"" y=""1189200""/>
<a:ext cx=""8230200"" cy=""5668800""/>
</a:xfrm>
<a:prstGeom prst=""rect""><a:avLst/></a:prstGeom>
<a:noFill/>
</p:spPr>
<p:txBody>
<a:bodyPr wrap=""square"" rtlCol=""0""/>
<a:lstStyle/>" ++ paragraphs (content_props s 28) l ++ "
</p:txBody>
</p:sp>"
     end
  ++ extra s rids ink ++ SLIDE_FOOTER.
(** layouts.rs:273-422: [mid = bullet_count.div_ceil(2)] *)
Definition two_column_slide (s : slide) rids ink : string :=
  let l := bullets_of s in
  let mid := (length l + 1) / 2 in
  SLIDE_HEADER
  ++ ("
<p:sp>
<p:nvSpPr>
<p:cNvPr id=""2"" name=""Title""/>
<p:cNvSpPr txBox=""1""/>
<p:nvPr/>
</p:nvSpPr>
<p:spPr>
<a:xfrm>
<a:off x=""457200"" y=""274638""/>
<a:ext cx=""8230200"" cy=""914400""/>
</a:xfrm>
<a:prstGeom prst=""rect""><a:avLst/></a:prstGeom>
<a:noFill/>
</p:spPr>
<p:txBody>
<a:bodyPr wrap=""square"" rtlCol=""0"" anchor=""ctr""/>
<a:lstStyle/>
<a:p>
<a:pPr algn=""l""/>
<a:r>
" ++ title_props s 44 (s_tbold s) ++ "
<a:t>" ++ escape_xml (s_title s) ++ "</a:t>
</a:r>
</a:p>
</p:txBody>
</p:sp>")
  ++ (if Nat.ltb 0 (length l) then
        "
<p:sp>
<p:nvSpPr>
<p:cNvPr id=""3"" name=""Left Content""/>
<p:cNvSpPr txBox=""1""/>
<p:nvPr/>
</p:nvSpPr>
<p:spPr>
<a:xfrm>
<a:off x=""457200"" y=""1189200""/>
<a:ext cx=""4115100"" cy=""5668800""/>
</a:xfrm>
<a:prstGeom prst=""rect""><a:avLst/></a:prstGeom>
<a:noFill/>
</p:spPr>
<p:txBody>
<a:bodyPr wrap=""square"" rtlCol=""0""/>
<a:lstStyle/>" ++ paragraphs (content_props s 24) (firstn mid l) ++ "
</p:txBody>
</p:sp>"
        ++ (if Nat.ltb mid (length l) then
              "
<p:sp>
<p:nvSpPr>
<p:cNvPr id=""4"" name=""Right Content""/>
<p:cNvSpPr txBox=""1""/>
<p:nvPr/>
</p:nvSpPr>
<p:spPr>
<a:xfrm>
<a:off x=""4572300"" y=""1189200""/>
<a:ext cx=""4115100"" cy=""5668800""/>
</a:xfrm>
<a:prstGeom prst=""rect""><a:avLst/></a:prstGeom>
<a:noFill/>
</p:spPr>
<p:txBody>
<a:bodyPr wrap=""square"" rtlCol=""0""/>
<a:lstStyle/>" ++ paragraphs (content_props s 24) (skipn mid l) ++ "
</p:txBody>
</p:sp>"
            else "")
      else "")
  ++ extra s rids ink ++ SLIDE_FOOTER.
(** layouts.rs:425-535 *)
Definition title_and_content_slide (s : slide) rids ink : string :=
  SLIDE_HEADER
  ++ ("
<p:sp>
<p:nvSpPr>
<p:cNvPr id=""2"" name=""Title""/>
<p:cNvSpPr txBox=""1""/>
<p:nvPr/>
</p:nvSpPr>
<p:spPr>
<a:xfrm>
<a:off x=""457200"" y=""274638""/>
<a:ext cx=""8230200"" cy=""1143000""/>
</a:xfrm>
<a:prstGeom prst=""rect""><a:avLst/></a:prstGeom>
<a:noFill/>
</p:spPr>
<p:txBody>
<a:bodyPr wrap=""square"" rtlCol=""0"" anchor=""ctr""/>
<a:lstStyle/>
<a:p>
<a:pPr algn=""l""/>
<a:r>
" ++ title_props s 44 (s_tbold s) ++ "
<a:t>" ++ escape_xml (s_title s) ++ "</a:t>
</a:r>
</a:p>
</p:txBody>
</p:sp>")
  ++ match s_table s with
     | Some t => nl ++ table_xml t 3
     | None =>
         match bullets_of s with
         | [] => ""
         | l => "
<p:sp>
<p:nvSpPr>
<p:cNvPr id=""3"" name=""Content""/>
<p:cNvSpPr txBox=""1""/>
<p:nvPr/>
</p:nvSpPr>
<p:spPr>
<a:xfrm>
<a:off x=""457200"" y=""1600200""/>
<a:ext cx=""8230200"" cy=""4572000""/>
</a:xfrm>
<a:prstGeom prst=""rect""><a:avLst/></a:prstGeom>
<a:noFill/>
</p:spPr>
<p:txBody>
<a:bodyPr wrap=""square"" rtlCol=""0""/>
<a:lstStyle/>" ++ paragraphs (content_props s 28) l ++ "
</p:txBody>
</p:sp>"
         end
     end
  ++ extra s rids ink ++ SLIDE_FOOTER.

(** [xml.rfind(p)] and the text on both sides; insertion there *)
Fixpoint rsplit (p s : string) : option (string * string) :=
  match s with
  | "" => if starts_with p "" then Some ("", "") else None
  | String c t =>
      match rsplit p t with
      | Some (a, b) => Some (String c a, b)
      | None => if starts_with p s then Some ("", s) else None
      end
  end.
(** slide_xml/mod.rs:78-105 [create_slide_xml_with_content] *)
Definition slide_xml (s : slide) (rids : list string) (ink : option string) : string :=
  let xml := match s_layout s with
    | Blank => blank_slide s rids ink
    | TitleOnly => title_only_slide s rids ink
    | CenteredTitle => centered_title_slide s rids ink
    | TitleAndBigContent => big_content_slide s rids ink
    | TwoColumn => two_column_slide s rids ink
    | SectionHeader => section_header_slide s rids ink
    | TitleAndContent => title_and_content_slide s rids ink
    end in
  let tr := transition_xml (s_transition s) in
  if String.eqb tr "" then xml
  else match rsplit "</p:sld>" xml with
       | Some (a, b) => a ++ tr ++ b
       | None => xml
       end.

(** slide_xml/mod.rs:19-75 [create_slide_xml] *)
Definition simple_slide_xml (slide_num : N) (title : string) : string :=
  ("<?xml version=""1.0"" encoding=""UTF-8"" standalone=""yes""?>
<p:sld xmlns:a=""http://schemas.openxmlformats.org/drawingml/2006/main"" xmlns:r=""http://schemas.openxmlformats.org/officeDocument/2006/relationships"" xmlns:p=""http://schemas.openxmlformats.org/presentationml/2006/main"">
<p:cSld>
<p:spTree>
<p:nvGrpSpPr>
<p:cNvPr id=""1"" name=""""/>
<p:cNvGrpSpPr/>
<p:nvPr/>
</p:nvGrpSpPr>
<p:grpSpPr>
<a:xfrm>
<a:off x=""0"" y=""0""/>
<a:ext cx=""0"" cy=""0""/>
<a:chOff x=""0"" y=""0""/>
<a:chExt cx=""0"" cy=""0""/>
</a:xfrm>
</p:grpSpPr>
<p:sp>
<p:nvSpPr>
<p:cNvPr id=""2"" name=""Title 1""/>
<p:cNvSpPr>
<a:spLocks noGrp=""1""/>
</p:cNvSpPr>
<p:nvPr>
<p:ph type=""ctrTitle""/>
</p:nvPr>
</p:nvSpPr>
<p:spPr/>
<p:txBody>
<a:bodyPr/>
<a:lstStyle/>
<a:p>
<a:r>
<a:rPr lang=""en-US""/>
<a:t>" ++ (if (slide_num =? 1)%N then title else ("Slide " ++ dec slide_num)) ++ "</a:t>
</a:r>
<a:endParaRPr lang=""en-US""/>
</a:p>
</p:txBody>
</p:sp>
</p:spTree>
</p:cSld>
<p:clrMapOvr>
<a:masterClrMapping/>
</p:clrMapOvr>
</p:sld>").
