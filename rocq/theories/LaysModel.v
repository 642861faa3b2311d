(** Model of src/generator/layouts/: the stand-alone writers of slides, which do
    not go through slide_xml/.  The record [slide] of SlideModel has all fields
    they read but one: [cu] is [content_underline]. *)
From Coq Require Import String Ascii List Bool Arith NArith ZArith.
From Verif Require Import Str Num EscapeModel ColorModel TableModel ConnectorModel ChartModel ShapeModel SlideModel.
Import ListNotations.
Open Scope nat_scope.
Open Scope string_scope.

(** layouts/common.rs:10-11, 153-170 [start_slide_with_bg], [start_sp_tree];
    constants.rs:14-15 *)
Definition lay_head : string := ("<?xml version=""1.0"" encoding=""UTF-8"" standalone=""yes""?>
<p:sld xmlns:a=""http://schemas.openxmlformats.org/drawingml/2006/main"" xmlns:r=""http://schemas.openxmlformats.org/officeDocument/2006/relationships"" xmlns:p=""http://schemas.openxmlformats.org/presentationml/2006/main"">
<p:cSld>
<p:bg><p:bgRef idx=""1001""><a:schemeClr val=""bg1""/></p:bgRef></p:bg>
<p:spTree>
<p:nvGrpSpPr><p:cNvPr id=""1"" name=""""/><p:cNvGrpSpPr/><p:nvPr/></p:nvGrpSpPr>
<p:grpSpPr><a:xfrm><a:off x=""0"" y=""0""/><a:ext cx=""9144000"" cy=""6858000""/><a:chOff x=""0"" y=""0""/><a:chExt cx=""9144000"" cy=""6858000""/></a:xfrm></p:grpSpPr>
").
(** common.rs:298-307 [end_sp_tree], [end_slide] *)
Definition lay_foot : string := ("</p:spTree>
</p:cSld>
<p:clrMapOvr><a:masterClrMapping/></p:clrMapOvr>
</p:sld>").
(** common.rs:97-105 [generate_text_props] *)
Definition lay_props (size : N) (b i u : bool) (c : option string) : string := props_xml (with_basic size b i u c).
(** common.rs:173-201 [add_title]; the id is 2 and the placeholder [title] in
    every use *)
Definition lay_title (x y w h : N) (text props : string) : string :=
  ("<p:sp>
<p:nvSpPr>
<p:cNvPr id=""" ++ "2" ++ """ name=""Title""/>
<p:cNvSpPr><a:spLocks noGrp=""1""/></p:cNvSpPr>
<p:nvPr><p:ph type=""" ++ "title" ++ """/></p:nvPr>
</p:nvSpPr>
<p:spPr>
<a:xfrm><a:off x=""" ++ dec x ++ """ y=""" ++ dec y ++ """/><a:ext cx=""" ++ dec w ++ """ cy=""" ++ dec h ++ """/></a:xfrm>
<a:prstGeom prst=""rect""><a:avLst/></a:prstGeom>
<a:noFill/>
</p:spPr>
<p:txBody>
<a:bodyPr/>
<a:lstStyle/>
<a:p>
<a:r>
" ++ props ++ "
<a:t>" ++ escape_xml text ++ "</a:t>
</a:r>
</a:p>
</p:txBody>
</p:sp>
").
(** common.rs:204-233 [add_centered_title] *)
Definition lay_centered (x y w h : N) (text props : string) : string :=
  ("<p:sp>
<p:nvSpPr>
<p:cNvPr id=""" ++ "2" ++ """ name=""Title""/>
<p:cNvSpPr><a:spLocks noGrp=""1""/></p:cNvSpPr>
<p:nvPr><p:ph type=""ctrTitle""/></p:nvPr>
</p:nvSpPr>
<p:spPr>
<a:xfrm><a:off x=""" ++ dec x ++ """ y=""" ++ dec y ++ """/><a:ext cx=""" ++ dec w ++ """ cy=""" ++ dec h ++ """/></a:xfrm>
<a:prstGeom prst=""rect""><a:avLst/></a:prstGeom>
<a:noFill/>
</p:spPr>
<p:txBody>
<a:bodyPr/>
<a:lstStyle/>
<a:p>
<a:pPr algn=""ctr""/>
<a:r>
" ++ props ++ "
<a:t>" ++ escape_xml text ++ "</a:t>
</a:r>
</a:p>
</p:txBody>
</p:sp>
").
(** common.rs:236-256 [start_content_body]; the id is 3 in every use *)
Definition lay_body (x y w h : N) : string := ("<p:sp>
<p:nvSpPr>
<p:cNvPr id=""" ++ "3" ++ """ name=""Content""/>
<p:cNvSpPr><a:spLocks noGrp=""1""/></p:cNvSpPr>
<p:nvPr><p:ph type=""body"" idx=""1""/></p:nvPr>
</p:nvSpPr>
<p:spPr>
<a:xfrm><a:off x=""" ++ dec x ++ """ y=""" ++ dec y ++ """/><a:ext cx=""" ++ dec w ++ """ cy=""" ++ dec h ++ """/></a:xfrm>
<a:prstGeom prst=""rect""><a:avLst/></a:prstGeom>
<a:noFill/>
</p:spPr>
<p:txBody>
<a:bodyPr/>
<a:lstStyle/>
").
(** common.rs:264-283 [add_bullet_with_style]; u32 arithmetic *)
Definition lay_bullet (props : string) (b : bullet) : string :=
  let indent := wadd u32_max 457200 (wmul u32_max (b_level b) 457200) in
  let margin := wadd u32_max (wmul u32_max (b_level b) 457200) indent in
  ("<a:p>
<a:pPr lvl=""" ++ dec (b_level b) ++ """ marL=""" ++ dec margin ++ """ indent=""-" ++ dec indent ++ """>
" ++ bullet_xml (b_style b) ++ "
</a:pPr>
<a:r>
" ++ props ++ "
<a:t>" ++ escape_xml (b_text b) ++ "</a:t>
</a:r>
</a:p>
").
(** common.rs:286-289 [end_content_body] *)
Definition lay_end : string := "</p:txBody>
</p:sp>
".
Definition lay_bullets (props : string) (l : list bullet) : string := sconcat (map (lay_bullet props) l).

(** The title properties: title_only.rs:15-22, centered_title.rs:15-22,
    title_content.rs:19-28, 122-131, two_column.rs:13-22.  [TITLE_FONT_SIZE / 100
    * 100] is 4400; only the two columns multiply by 100. *)
Definition lay_title_size (s : slide) : N :=
  match s_layout s with
  | TwoColumn => wmul u32_max (match s_tsize s with Some n => n | None => 44 end) 100
  | _ => match s_tsize s with Some n => n | None => 4400 end
  end.
Definition lay_content_size (s : slide) : N :=
  match s_layout s with
  | TwoColumn => wmul u32_max (match s_csize s with Some n => n | None => 24 end) 100
  | _ => match s_csize s with Some n => n | None => 2800 end
  end.
Definition lay_tprops (s : slide) : string := lay_props (lay_title_size s) (s_tbold s) (s_titalic s) (s_tunder s) (s_tcolor s).
(** title_content.rs:30-36, 133-139, two_column.rs:24-30 *)
Definition lay_cprops (s : slide) (cu : bool) : string := lay_props (lay_content_size s) (s_cbold s) (s_citalic s) cu (s_ccolor s).
(** title_content.rs:67-107: the place of an image *)
Definition lay_image (i : image) (id : N) : string :=
  ("
<p:sp>
<p:nvSpPr>
<p:cNvPr id=""" ++ dec id ++ """ name=""Image Placeholder: " ++ escape_xml (im_name i) ++ """/>
<p:cNvSpPr/>
<p:nvPr/>
</p:nvSpPr>
<p:spPr>
<a:xfrm>
<a:off x=""" ++ dec (im_x i) ++ """ y=""" ++ dec (im_y i) ++ """/>
<a:ext cx=""" ++ dec (im_w i) ++ """ cy=""" ++ dec (im_h i) ++ """/>
</a:xfrm>
<a:prstGeom prst=""rect""><a:avLst/></a:prstGeom>
<a:solidFill><a:srgbClr val=""E0E0E0""/></a:solidFill>
<a:ln w=""12700""><a:solidFill><a:srgbClr val=""808080""/></a:solidFill></a:ln>
</p:spPr>
<p:txBody>
<a:bodyPr wrap=""square"" rtlCol=""0"" anchor=""ctr""/>
<a:lstStyle/>
<a:p>
<a:pPr algn=""ctr""/>
<a:r>
<a:rPr lang=""en-US"" sz=""1400""/>
<a:t>📷 " ++ escape_xml (im_name i) ++ "</a:t>
</a:r>
</a:p>
</p:txBody>
</p:sp>").
(** title_content.rs:38-107: the body, the shapes and the images; a plain
    text is written as a bullet of level 0 in the slide's style *)
Definition lay_content_slide (s : slide) (cu : bool) : string :=
  lay_title 457200 274638 8230200 1143000 (s_title s) (lay_tprops s)
  ++ match s_table s with
     | Some t => table_xml t 3
     | None => match bullets_of s with [] => "" | l => lay_body 457200 1600200 8230200 4572000 ++ lay_bullets (lay_cprops s cu) l ++ lay_end end
     end
  ++ nl_each (fun i x => shape_xml x (N.of_nat (i + 10) mod (u32_max + 1))%N) (s_shapes s)
  ++ each_push (fun i x => lay_image x (N.of_nat (20 + length (s_shapes s) + i))) 0 (s_images s).
(** title_content.rs:141-164 *)
Definition lay_big_slide (s : slide) (cu : bool) : string :=
  lay_title 457200 274638 8230200 914400 (s_title s) (lay_tprops s)
  ++ match bullets_of s with [] => "" | l => lay_body 457200 1189200 8230200 5668800 ++ lay_bullets (lay_cprops s cu) l ++ lay_end end.
(** two_column.rs:32-115 *)
Definition lay_columns_slide (s : slide) (cu : bool) : string :=
  let l := bullets_of s in
  let mid := (length l + 1) / 2 in
  lay_title 457200 274638 8230200 914400 (s_title s) (lay_tprops s)
  ++ (if Nat.ltb 0 (length l) then
        ("
<p:sp>
<p:nvSpPr>
<p:cNvPr id=""3"" name=""Left Content""/>
<p:cNvSpPr><a:spLocks noGrp=""1""/></p:cNvSpPr>
<p:nvPr><p:ph type=""body"" idx=""1""/></p:nvPr>
</p:nvSpPr>
<p:spPr>
<a:xfrm>
<a:off x=""457200"" y=""1189200""/>
<a:ext cx=""4115100"" cy=""5668800""/>
</a:xfrm>
<a:prstGeom prst=""rect""><a:avLst/></a:prstGeom>
<a:noFill/>
</p:spPr>
<p:txBody>
<a:bodyPr/>
<a:lstStyle/>
") ++ lay_bullets (lay_cprops s cu) (firstn mid l) ++ lay_end
        ++ (if Nat.ltb mid (length l) then ("
<p:sp>
<p:nvSpPr>
<p:cNvPr id=""4"" name=""Right Content""/>
<p:cNvSpPr><a:spLocks noGrp=""1""/></p:cNvSpPr>
<p:nvPr><p:ph type=""body"" idx=""2""/></p:nvPr>
</p:nvSpPr>
<p:spPr>
<a:xfrm>
<a:off x=""4572300"" y=""1189200""/>
<a:ext cx=""4115100"" cy=""5668800""/>
</a:xfrm>
<a:prstGeom prst=""rect""><a:avLst/></a:prstGeom>
<a:noFill/>
</p:spPr>
<p:txBody>
<a:bodyPr/>
<a:lstStyle/>
") ++ lay_bullets (lay_cprops s cu) (skipn mid l) ++ lay_end else "")
      else "").
(** layouts/mod.rs:22-32 [create_slide_xml_for_layout]; blank.rs:10-17,
    title_only.rs:24-34, centered_title.rs:24-34 *)
Definition lay_inside (s : slide) (cu : bool) : string :=
  match s_layout s with
  | Blank => ""
  | TitleOnly => lay_title 457200 274638 8230200 1143000 (s_title s) (lay_tprops s)
  | CenteredTitle | SectionHeader => lay_centered 457200 2743200 8230200 1371600 (s_title s) (lay_tprops s)
  | TitleAndBigContent => lay_big_slide s cu
  | TwoColumn => lay_columns_slide s cu
  | TitleAndContent => lay_content_slide s cu
  end.
Definition lay_xml (s : slide) (cu : bool) : string := lay_head ++ lay_inside s cu ++ lay_foot.
