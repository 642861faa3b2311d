(** Model of the drawing elements of a slide: src/generator/shapes.rs,
    shapes_xml.rs, hyperlinks.rs, images_xml.rs, image_effects.rs and the code
    blocks of slide_xml/content.rs. *)
From Coq Require Import String Ascii List Bool Arith NArith ZArith.
From Verif Require Import Str Num EscapeModel ColorModel TableModel.
Import ListNotations.
Open Scope nat_scope.
Open Scope string_scope.

(** [Display] of signed integers. *)
Definition zdec (z : Z) : string := if (z <? 0)%Z then "-" ++ dec (Z.abs_N z) else dec (Z.to_N z).
(** i32 arithmetic, wrapping as in a release build. *)
Definition i32 (z : Z) : Z := ((z + 2147483648) mod 4294967296 - 2147483648)%Z.
(** [str::lines]: pieces ended by a line feed, a carriage return before it
    dropped; no piece for an empty rest. *)
Definition chop_cr (s : string) : string :=
  match srev s with String c r => if Ascii.eqb c CR then srev r else s | "" => s end.
Fixpoint chop_last (l : list string) : list string :=
  match l with [] => [] | [x] => if String.eqb x "" then [] else [x] | x :: l => chop_cr x :: chop_last l end.
Definition lines (s : string) : list string := chop_last (split_char LF s).

(** shapes.rs:7-149 [ShapeType] *)
Inductive shape_type :=
  | KRectangle | KRoundedRectangle | KEllipse | KCircle | KTriangle | KRightTriangle | KDiamond | KPentagon | KHexagon | KOctagon
  | KRightArrow | KLeftArrow | KUpArrow | KDownArrow | KLeftRightArrow | KUpDownArrow | KBentArrow | KUTurnArrow | KStar4 | KStar5
  | KStar6 | KStar8 | KRibbon | KWave | KWedgeRectCallout | KWedgeEllipseCallout | KCloudCallout | KFlowChartProcess | KFlowChartDecision
  | KFlowChartTerminator | KFlowChartDocument | KFlowChartPredefinedProcess | KFlowChartInternalStorage | KFlowChartData | KFlowChartInputOutput
  | KFlowChartManualInput | KFlowChartManualOperation | KFlowChartConnector | KFlowChartOffPageConnector | KFlowChartPunchedCard
  | KFlowChartPunchedTape | KFlowChartSummingJunction | KFlowChartOr | KFlowChartCollate | KFlowChartSort | KFlowChartExtract
  | KFlowChartMerge | KFlowChartOnlineStorage | KFlowChartDelay | KFlowChartMagneticTape | KFlowChartMagneticDisk | KFlowChartMagneticDrum
  | KFlowChartDisplay | KFlowChartPreparation | KCurvedRightArrow | KCurvedLeftArrow | KCurvedUpArrow | KCurvedDownArrow | KCurvedLeftRightArrow
  | KCurvedUpDownArrow | KStripedRightArrow | KNotchedRightArrow | KPentagonArrow | KChevronArrow | KRightArrowCallout | KLeftArrowCallout
  | KUpArrowCallout | KDownArrowCallout | KLeftRightArrowCallout | KUpDownArrowCallout | KQuadArrow | KLeftRightUpArrow | KCircularArrow
  | KParallelogram | KTrapezoid | KNonIsoscelesTrapezoid | KIsoscelesTrapezoid | KCube | KCan | KCone | KCylinder | KBevel
  | KDonut | KNoSmoking | KBlockArc | KFoldedCorner | KSmileyFace | KArc | KChord | KPie | KTeardrop | KPlaque | KMusicNote
  | KPictureFrame | KStar10 | KStar12 | KStar16 | KStar24 | KStar32 | KSeal | KSeal4 | KSeal8 | KSeal16 | KSeal32 | KActionButtonBlank
  | KActionButtonHome | KActionButtonHelp | KActionButtonInformation | KActionButtonForwardNext | KActionButtonBackPrevious
  | KActionButtonBeginning | KActionButtonEnd | KActionButtonReturn | KActionButtonDocument | KActionButtonSound | KActionButtonMovie
  | KHeart | KLightning | KSun | KMoon | KCloud | KBrace | KBracket | KPlus | KMinus.
(** shapes.rs:154-289 [ShapeType::preset_name] *)
Definition preset (t : shape_type) : string :=
  match t with
  | KRectangle => "rect" | KRoundedRectangle => "roundRect" | KEllipse => "ellipse" | KCircle => "ellipse" | KTriangle => "triangle"
  | KRightTriangle => "rtTriangle" | KDiamond => "diamond" | KPentagon => "pentagon" | KHexagon => "hexagon" | KOctagon => "octagon"
  | KRightArrow => "rightArrow" | KLeftArrow => "leftArrow" | KUpArrow => "upArrow" | KDownArrow => "downArrow" | KLeftRightArrow => "leftRightArrow"
  | KUpDownArrow => "upDownArrow" | KBentArrow => "bentArrow" | KUTurnArrow => "uturnArrow" | KStar4 => "star4" | KStar5 => "star5"
  | KStar6 => "star6" | KStar8 => "star8" | KRibbon => "ribbon2" | KWave => "wave" | KWedgeRectCallout => "wedgeRectCallout"
  | KWedgeEllipseCallout => "wedgeEllipseCallout" | KCloudCallout => "cloudCallout" | KFlowChartProcess => "flowChartProcess"
  | KFlowChartDecision => "flowChartDecision" | KFlowChartTerminator => "flowChartTerminator" | KFlowChartDocument => "flowChartDocument"
  | KFlowChartPredefinedProcess => "flowChartPredefinedProcess" | KFlowChartInternalStorage => "flowChartInternalStorage" | KFlowChartData => "flowChartData"
  | KFlowChartInputOutput => "flowChartInputOutput" | KFlowChartManualInput => "flowChartManualInput" | KFlowChartManualOperation => "flowChartManualOperation"
  | KFlowChartConnector => "flowChartConnector" | KFlowChartOffPageConnector => "flowChartOffPageConnector" | KFlowChartPunchedCard => "flowChartPunchedCard"
  | KFlowChartPunchedTape => "flowChartPunchedTape" | KFlowChartSummingJunction => "flowChartSummingJunction" | KFlowChartOr => "flowChartOr"
  | KFlowChartCollate => "flowChartCollate" | KFlowChartSort => "flowChartSort" | KFlowChartExtract => "flowChartExtract" | KFlowChartMerge => "flowChartMerge"
  | KFlowChartOnlineStorage => "flowChartOnlineStorage" | KFlowChartDelay => "flowChartDelay" | KFlowChartMagneticTape => "flowChartMagneticTape"
  | KFlowChartMagneticDisk => "flowChartMagneticDisk" | KFlowChartMagneticDrum => "flowChartMagneticDrum" | KFlowChartDisplay => "flowChartDisplay"
  | KFlowChartPreparation => "flowChartPreparation" | KCurvedRightArrow => "curvedRightArrow" | KCurvedLeftArrow => "curvedLeftArrow"
  | KCurvedUpArrow => "curvedUpArrow" | KCurvedDownArrow => "curvedDownArrow" | KCurvedLeftRightArrow => "curvedLeftRightArrow"
  | KCurvedUpDownArrow => "curvedUpDownArrow" | KStripedRightArrow => "stripedRightArrow" | KNotchedRightArrow => "notchedRightArrow"
  | KPentagonArrow => "pentArrow" | KChevronArrow => "chevron" | KRightArrowCallout => "rightArrowCallout" | KLeftArrowCallout => "leftArrowCallout"
  | KUpArrowCallout => "upArrowCallout" | KDownArrowCallout => "downArrowCallout" | KLeftRightArrowCallout => "leftRightArrowCallout"
  | KUpDownArrowCallout => "upDownArrowCallout" | KQuadArrow => "quadArrow" | KLeftRightUpArrow => "leftRightUpArrow" | KCircularArrow => "circularArrow"
  | KParallelogram => "parallelogram" | KTrapezoid => "trapezoid" | KNonIsoscelesTrapezoid => "nonIsoscelesTrapezoid" | KIsoscelesTrapezoid => "isoTrapezoid"
  | KCube => "cube" | KCan => "can" | KCone => "cone" | KCylinder => "cylinder" | KBevel => "bevel" | KDonut => "donut" | KNoSmoking => "noSmoking"
  | KBlockArc => "blockArc" | KFoldedCorner => "foldedCorner" | KSmileyFace => "smileyFace" | KArc => "arc" | KChord => "chord"
  | KPie => "pie" | KTeardrop => "teardrop" | KPlaque => "plaque" | KMusicNote => "musicNote" | KPictureFrame => "frame" | KStar10 => "star10"
  | KStar12 => "star12" | KStar16 => "star16" | KStar24 => "star24" | KStar32 => "star32" | KSeal => "seal" | KSeal4 => "seal4"
  | KSeal8 => "seal8" | KSeal16 => "seal16" | KSeal32 => "seal32" | KActionButtonBlank => "actionButtonBlank" | KActionButtonHome => "actionButtonHome"
  | KActionButtonHelp => "actionButtonHelp" | KActionButtonInformation => "actionButtonInformation" | KActionButtonForwardNext => "actionButtonForwardNext"
  | KActionButtonBackPrevious => "actionButtonBackPrevious" | KActionButtonBeginning => "actionButtonBeginning" | KActionButtonEnd => "actionButtonEnd"
  | KActionButtonReturn => "actionButtonReturn" | KActionButtonDocument => "actionButtonDocument" | KActionButtonSound => "actionButtonSound"
  | KActionButtonMovie => "actionButtonMovie" | KHeart => "heart" | KLightning => "lightningBolt" | KSun => "sun" | KMoon => "moon"
  | KCloud => "cloud" | KBrace => "leftBrace" | KBracket => "leftBracket" | KPlus => "mathPlus" | KMinus => "mathMinus"
  end.

(** hyperlinks.rs:9-28 *)
Inductive action := Url (u : string) | ToSlide (n : N) | FirstSlide | LastSlide | NextSlide | PreviousSlide | EndShow
  | Email (address : string) (subject : option string) | ToFile (path : string).
(** hyperlinks.rs:63-81 [relationship_target] *)
Definition relationship_target (a : action) : string :=
  match a with
  | Url u => u
  | ToSlide n => "slide" ++ dec n ++ ".xml"
  | FirstSlide => "ppaction://hlinkshowjump?jump=firstslide"
  | LastSlide => "ppaction://hlinkshowjump?jump=lastslide"
  | NextSlide => "ppaction://hlinkshowjump?jump=nextslide"
  | PreviousSlide => "ppaction://hlinkshowjump?jump=previousslide"
  | EndShow => "ppaction://hlinkshowjump?jump=endshow"
  | Email a s => "mailto:" ++ a ++ match s with Some s => "?subject=" ++ s | None => "" end
  | ToFile p => "file:///" ++ replace_char "\"%char "/" p
  end.
(** hyperlinks.rs:84-89 [is_external] *)
Definition is_external (a : action) : bool := match a with Url _ | Email _ _ | ToFile _ => true | _ => false end.
(** hyperlinks.rs:92-101 [action_type] *)
Definition action_type (a : action) : option string :=
  match a with
  | FirstSlide | LastSlide | NextSlide | PreviousSlide | EndShow => Some (relationship_target a)
  | _ => None
  end.
(** hyperlinks.rs:106-115 *)
Record hyperlink := Hyperlink { h_action : action; h_tooltip : option string; h_highlight : bool; h_rid : option string }.
(** hyperlinks.rs:184-201 [generate_shape_hyperlink_xml] (163-181 for text is the same text) *)
Definition hyperlink_xml (h : hyperlink) (r_id : string) : string :=
  ("<a:hlinkClick r:id=""" ++ r_id ++ """")
  ++ match h_tooltip h with Some t => (" tooltip=""" ++ escape_xml t ++ """") | None => "" end
  ++ (if h_highlight h then " highlightClick=""1""" else "")
  ++ match action_type (h_action h) with Some a => (" action=""" ++ a ++ """") | None => "" end
  ++ "/>".
(** hyperlinks.rs:204-218 [generate_hyperlink_relationship_xml] *)
Definition hyperlink_relationship_xml (h : hyperlink) (r_id : string) : string :=
  ("<Relationship Id=""" ++ r_id ++ """ Type=""http://schemas.openxmlformats.org/officeDocument/2006/relationships/hyperlink"" Target=""" ++ escape_xml (relationship_target (h_action h)) ++ """" ++ (if is_external (h_action h) then " TargetMode=""External""" else "") ++ "/>").

(** shapes.rs:427-437, 455-461, 481-486, 526-530, 556-560 *)
Inductive direction := Horizontal | Vertical | DiagonalDown | DiagonalUp | Angle (deg : N).
Definition to_angle (d : direction) : N :=
  match d with Horizontal => 0 | Vertical => 5400000 | DiagonalDown => 2700000 | DiagonalUp => 18900000 | Angle n => wmul u32_max n 60000 end%N.
Record stop := Stop { st_color : string; st_pos : N; st_alpha : option N }.
Record gradient := Gradient { stops : list stop; g_dir : direction }.
Record fill := Fill { fl_color : string; fl_alpha : option N }.
Record line := Line { ln_color : string; ln_width : N }.
(** shapes.rs:574-592 [Shape].  Two fields have no counterpart: [sh_autofit] is
    the font size [calculate_font_size] computes from the text and the size of
    the shape, and [sh_dark] whether [is_dark_color] holds of the fill; both are
    floating-point computations and are arbitrary here. *)
Record shape := Shape {
  sh_type : shape_type; sh_x : N; sh_y : N; sh_w : N; sh_h : N;
  sh_fill : option fill; sh_gradient : option gradient; sh_line : option line; sh_text : option string;
  sh_id : option N; sh_rotation : option Z; sh_link : option hyperlink; sh_autofit : N; sh_dark : bool }.
(** shapes.rs:596-612 [Shape::new] *)
Definition shape_new (t : shape_type) (x y w h : N) : shape := Shape t x y w h None None None None None None None 0 false.

(** shapes_xml.rs:69-87 [generate_fill_xml] *)
Definition alpha_xml (o : option N) : string := match o with Some t => ("<a:alpha val=""" ++ dec t ++ """/>") | None => "" end.
Definition fill_xml (o : option fill) : string :=
  match o with Some f => ("<a:solidFill>
<a:srgbClr val=""" ++ fl_color f ++ """>" ++ alpha_xml (fl_alpha f) ++ "</a:srgbClr>
</a:solidFill>") | None => "" end.
(** shapes_xml.rs:90-117 [generate_gradient_xml] *)
Definition stop_xml (s : stop) : string := ("<a:gs pos=""" ++ dec (st_pos s) ++ """>
<a:srgbClr val=""" ++ st_color s ++ """>" ++ alpha_xml (st_alpha s) ++ "</a:srgbClr>
</a:gs>").
Definition gradient_xml (g : gradient) : string :=
  ("<a:gradFill>
<a:gsLst>
" ++ sconcat (map stop_xml (stops g)) ++ "
</a:gsLst>
<a:lin ang=""" ++ dec (to_angle (g_dir g)) ++ """ scaled=""1""/>
</a:gradFill>").
(** shapes_xml.rs:120-134 [generate_line_xml] *)
Definition line_xml (o : option line) : string :=
  match o with Some l => ("<a:ln w=""" ++ dec (ln_width l) ++ """>
<a:solidFill>
<a:srgbClr val=""" ++ ln_color l ++ """/>
</a:solidFill>
</a:ln>") | None => "" end.
(** shapes_xml.rs:338-424 [generate_text_xml_with_autofit]; 330-335 [get_text_color] *)
Definition code_line_xml (s : string) : string := ("<a:p>
<a:pPr algn=""l""/>
<a:r>
<a:rPr lang=""en-US"" sz=""1200"" dirty=""0""><a:latin typeface=""Consolas""/><a:solidFill><a:srgbClr val=""FFFFFF""/></a:solidFill></a:rPr>
<a:t>" ++ escape_xml s ++ "</a:t>
</a:r>
</a:p>").
Definition is_code (t : string) : bool := starts_with "[" t && contains ("]" ++ nl) t.
Definition text_color_of (s : shape) : string := match sh_fill s with Some _ => if sh_dark s then "FFFFFF" else "000000" | None => "000000" end.
Definition text_xml (s : shape) : string :=
  match sh_text s with
  | Some t =>
      if is_code t then ("<p:txBody>
<a:bodyPr wrap=""square"" rtlCol=""0"" anchor=""t"" lIns=""91440"" tIns=""45720"" rIns=""91440"" bIns=""45720""/>
<a:lstStyle/>
" ++ sconcat (map code_line_xml (lines t)) ++ "</p:txBody>")
      else
        let multi := contains nl t in
        ("<p:txBody>
<a:bodyPr wrap=""square"" rtlCol=""0"" anchor=""" ++ (if multi then "t" else "ctr") ++ """ lIns=""" ++ "91440" ++ """ tIns=""" ++ "45720" ++ """ rIns=""" ++ "91440" ++ """ bIns=""" ++ "45720" ++ """>
<a:normAutofit/>
</a:bodyPr>
<a:lstStyle/>
<a:p>
<a:pPr algn=""" ++ (if multi then "l" else "ctr") ++ """ marL=""0"" marR=""0"" indent=""0""/>
<a:r>
<a:rPr lang=""en-US"" sz=""" ++ dec (sh_autofit s) ++ """ dirty=""0""><a:solidFill><a:srgbClr val=""" ++ text_color_of s ++ """/></a:solidFill></a:rPr>
<a:t>" ++ escape_xml t ++ "</a:t>
</a:r>
</a:p>
</p:txBody>")
  | None => "<p:txBody>
<a:bodyPr/>
<a:lstStyle/>
<a:p>
<a:endParaRPr/>
</a:p>
</p:txBody>"
  end.
(** shapes_xml.rs:10-66 [generate_shape_xml] *)
Definition cnvpr_xml (s : shape) (id : N) : string :=
  let plain := ("<p:cNvPr id=""" ++ dec id ++ """ name=""Shape " ++ dec id ++ """/>") in
  match sh_link s with
  | Some h =>
      match h_rid h with
      | Some rid => ("<p:cNvPr id=""" ++ dec id ++ """ name=""Shape " ++ dec id ++ """>" ++ hyperlink_xml h rid ++ "</p:cNvPr>")
      | None => plain
      end
  | None => plain
  end.
Definition shape_xml (s : shape) (id : N) : string :=
  let fill := match sh_gradient s with Some g => gradient_xml g | None => fill_xml (sh_fill s) end in
  let rot := match sh_rotation s with Some r => (" rot=""" ++ zdec (i32 (r * 60000)) ++ """") | None => "" end in
  ("<p:sp>
<p:nvSpPr>
" ++ cnvpr_xml s id ++ "
<p:cNvSpPr/>
<p:nvPr/>
</p:nvSpPr>
<p:spPr>
<a:xfrm" ++ rot ++ ">
<a:off x=""" ++ dec (sh_x s) ++ """ y=""" ++ dec (sh_y s) ++ """/>
<a:ext cx=""" ++ dec (sh_w s) ++ """ cy=""" ++ dec (sh_h s) ++ """/>
</a:xfrm>
<a:prstGeom prst=""" ++ preset (sh_type s) ++ """>
<a:avLst/>
</a:prstGeom>
" ++ fill ++ line_xml (sh_line s) ++ "
</p:spPr>
" ++ text_xml s ++ "
</p:sp>").

(** images.rs:17-36 and image_effects.rs:22-41 [generate_effect_xml] *)
Inductive effect := Shadow | Reflection | Glow | SoftEdges | InnerShadow | Blur.
Definition effect_xml (e : effect) : string :=
  match e with
  | Shadow => "<a:outerShdw blurRad=""40000"" dist=""20000"" dir=""5400000"" rotWithShape=""0""><a:srgbClr val=""000000""><a:alpha val=""40000""/></a:srgbClr></a:outerShdw>"
  | Reflection => "<a:reflection blurRad=""6350"" stA=""50000"" endA=""300"" endPos=""35000"" dir=""5400000"" sy=""-100000"" algn=""bl"" rotWithShape=""0""/>"
  | Glow => "<a:glow rad=""50800""><a:srgbClr val=""FFD700""><a:alpha val=""60000""/></a:srgbClr></a:glow>"
  | SoftEdges => "<a:softEdge rad=""50800""/>"
  | InnerShadow => "<a:innerShdw blurRad=""40000"" dist=""20000"" dir=""2700000""><a:srgbClr val=""000000""><a:alpha val=""50000""/></a:srgbClr></a:innerShdw>"
  | Blur => "<a:blur rad=""38100""/>"
  end.
(** image_effects.rs:8-19 [generate_effect_list_xml] *)
Definition effects_xml (l : list effect) : string :=
  match l with [] => "" | _ => "<a:effectLst>" ++ sconcat (map effect_xml l) ++ "</a:effectLst>" end.
(** image_effects.rs:44-76 [generate_blip_fill_xml]; the crop is given by the
    four integers the code computes from its floating-point fractions. *)
Record crop := Crop { cr_l : N; cr_t : N; cr_r : N; cr_b : N }.
Definition crop_attr (k : string) (v : N) : string := if (0 <? v)%N then " " ++ k ++ "=""" ++ dec v ++ """" else "".
Definition blip_fill_xml (rel_id : string) (c : option crop) : string :=
  match c with
  | Some c => ("<p:blipFill>
<a:blip r:embed=""" ++ rel_id ++ """/>
<a:srcRect" ++ crop_attr "l" (cr_l c) ++ crop_attr "t" (cr_t c) ++ crop_attr "r" (cr_r c) ++ crop_attr "b" (cr_b c) ++ "/>
<a:stretch>
<a:fillRect/>
</a:stretch>
</p:blipFill>")
  | None => ("<p:blipFill>
<a:blip r:embed=""" ++ rel_id ++ """/>
<a:stretch>
<a:fillRect/>
</a:stretch>
</p:blipFill>")
  end.
(** images.rs:61-88 [Image], the fields the generators use; [im_bytes] is what
    [get_bytes] (192-224) returns. *)
Record image := Image {
  im_name : string; im_x : N; im_y : N; im_w : N; im_h : N; im_alt : option string; im_crop : option crop; im_effects : list effect;
  im_bytes : option string; im_format : string }.
(** [to_lowercase] (ASCII letters only: bytes above 127 are kept). *)
Definition lower (c : ascii) : ascii := let n := N_of_ascii c in if (65 <=? n)%N && (n <=? 90)%N then ascii_of_N (n + 32) else c.
Definition lowercase (s : string) : string := smap (fun c => s1 (lower c)) s.
(** std::path::Path::{file_name, extension} on Unix: the last component that is
    neither empty nor "." (none if it is ".."), and in it what follows the last
    dot, unless that is its first character. *)
Definition file_name (p : string) : option string :=
  match rev (filter (fun c => negb (String.eqb c "" || String.eqb c ".")) (split_char "/" p)) with
  | f :: _ => if String.eqb f ".." then None else Some f
  | [] => None
  end.
Definition path_extension (p : string) : option string :=
  match file_name p with
  | Some f => match split_once "." (srev f) with Some (e, stem) => if String.eqb stem "" then None else Some (srev e) | None => None end
  | None => None
  end.
(** images.rs:267-273 [extension] *)
Definition im_ext (i : image) : string := match path_extension (im_name i) with Some e => lowercase e | None => lowercase (im_format i) end.
(** images_xml.rs:10-53 [generate_image_xml] *)
Definition descr_attr (o : option string) : string := match o with Some a => (" descr=""" ++ escape_xml a ++ """") | None => "" end.
Definition image_xml (i : image) (shape_id rel_id : N) : string :=
  ("<p:pic>
<p:nvPicPr>
<p:cNvPr id=""" ++ dec shape_id ++ """ name=""" ++ escape_xml (im_name i) ++ """" ++ descr_attr (im_alt i) ++ "/>
<p:cNvPicPr>
<a:picLocks noChangeAspect=""1""/>
</p:cNvPicPr>
<p:nvPr/>
</p:nvPicPr>
" ++ blip_fill_xml ("rId" ++ dec rel_id) (im_crop i) ++ "
<p:spPr>
<a:xfrm>
<a:off x=""" ++ dec (im_x i) ++ """ y=""" ++ dec (im_y i) ++ """/>
<a:ext cx=""" ++ dec (im_w i) ++ """ cy=""" ++ dec (im_h i) ++ """/>
</a:xfrm>
<a:prstGeom prst=""rect"">
<a:avLst/>
</a:prstGeom>
" ++ effects_xml (im_effects i) ++ "
</p:spPr>
</p:pic>").

(** slide_content/code_block.rs:5-12, slide_xml/content.rs:91-137 [generate_code_block]
    without the "syntect" feature (it is not among the default ones). *)
Record code_block := Code { cb_code : string; cb_lang : string; cb_x : Z; cb_y : Z; cb_w : Z; cb_h : Z }.
Definition escape_code (s : string) : string :=
  replace_char ">"%char "&gt;" (replace_char "<"%char "&lt;" (replace_char "&"%char "&amp;" s)).
Definition code_xml (c : code_block) (id : N) : string :=
  ("<p:sp>
<p:nvSpPr>
<p:cNvPr id=""" ++ dec id ++ """ name=""Code Block""/>
<p:cNvSpPr txBox=""1""/>
<p:nvPr/>
</p:nvSpPr>
<p:spPr>
<a:xfrm>
<a:off x=""" ++ zdec (cb_x c) ++ """ y=""" ++ zdec (cb_y c) ++ """/>
<a:ext cx=""" ++ zdec (cb_w c) ++ """ cy=""" ++ zdec (cb_h c) ++ """/>
</a:xfrm>
<a:prstGeom prst=""rect""><a:avLst/></a:prstGeom>
<a:solidFill><a:srgbClr val=""002B36""/></a:solidFill>
<a:ln w=""12700""><a:solidFill><a:srgbClr val=""073642""/></a:solidFill></a:ln>
</p:spPr>
<p:txBody>
<a:bodyPr wrap=""square"" rtlCol=""0"" anchor=""t"" lIns=""91440"" tIns=""45720"" rIns=""91440"" bIns=""45720""/>
<a:lstStyle/>
" ++ "<a:t>" ++ escape_code (cb_code c) ++ "</a:t>" ++ "</p:txBody>
</p:sp>").
