(** Tables as parts of their own (src/parts/table.rs). *)
From Coq Require Import String Ascii List Bool Arith NArith ZArith.
From Verif Require Import Str Num EscapeModel ColorModel ShapeModel.
Import ListNotations.
Open Scope string_scope.

(** parts/table.rs:19-38 [HorizontalAlign], [as_str] *)
Inductive halign := HLeft | HCenter | HRight | HJustify.
Definition halign_value (a : halign) : string := match a with HLeft => "l" | HCenter => "ctr" | HRight => "r" | HJustify => "just" end.
(** parts/table.rs:40-57 [VerticalAlign], [as_str] *)
Inductive valign := VaTop | VaMiddle | VaBottom.
Definition valign_value (a : valign) : string := match a with VaTop => "t" | VaMiddle => "ctr" | VaBottom => "b" end.
(** parts/table.rs:59-80 [BorderStyle], [as_str] *)
Inductive bstyle := BSolid | BDashed | BDotted | BDouble | BNone.
Definition bstyle_value (b : bstyle) : string := match b with BSolid => "solid" | BDashed => "dash" | BDotted => "dot" | BDouble => "dbl" | BNone => "none" end.
(** parts/table.rs:82-88 [CellBorder]; the width is the number [new] (90-97)
    computes from points in floating point: any number here. *)
Record border := Border { bo_width : Z; bo_color : string; bo_style : bstyle }.
(** [trim_start_matches('#')] *)
Definition unhashed (s : string) : string := trim_start_by is_hash s.
(** parts/table.rs:103-119 [CellBorder::to_xml] *)
Definition border_xml (tag : string) (b : border) : string :=
  match bo_style b with
  | BNone => ("<a:" ++ tag ++ "/>") ++ nl
  | st => ("<a:" ++ tag ++ " w=""" ++ zdec (bo_width b) ++ """ cap=""flat"" cmpd=""sng"" algn=""ctr"">
              <a:solidFill><a:srgbClr val=""" ++ unhashed (bo_color b) ++ """/></a:solidFill>
              <a:prstDash val=""" ++ bstyle_value st ++ """/>
            </a:" ++ tag ++ ">")
  end.
(** parts/table.rs:123-130 [CellBorders] *)
Record borders := Borders { b_left : option border; b_right : option border; b_top : option border; b_bottom : option border }.
(** parts/table.rs:131-152 [all], [none] *)
Definition borders_all (b : border) : borders := Borders (Some b) (Some b) (Some b) (Some b).
Definition borders_none : borders := borders_all (Border 0 "" BNone).
(** parts/table.rs:154-169 [to_xml] *)
Definition opt_border (tag : string) (o : option border) : string := match o with Some b => border_xml tag b | None => "" end.
Definition borders_xml (b : borders) : string :=
  opt_border "lnL" (b_left b) ++ opt_border "lnR" (b_right b) ++ opt_border "lnT" (b_top b) ++ opt_border "lnB" (b_bottom b).
(** parts/table.rs:180-209 [CellMargins] *)
Record margins := Margins { m_left : Z; m_right : Z; m_top : Z; m_bottom : Z }.
(** parts/table.rs:211-230 [TableCellPart] *)
Record pcell := PCell {
  pc_text : string; pc_rows : N; pc_cols : N; pc_bold : bool; pc_italic : bool; pc_underline : bool; pc_strike : bool;
  pc_background : option string; pc_color : option string; pc_size : option N; pc_font : option string;
  pc_halign : halign; pc_valign : valign; pc_borders : option borders; pc_margins : option margins; pc_merged : bool }.
(** parts/table.rs:232-252 [new], 254-259 [merged] *)
Definition pcell_new (text : string) : pcell := PCell text 1 1 false false false false None None None None HLeft VaMiddle None None false.
Definition pcell_merged : pcell := PCell "" 1 1 false false false false None None None None HLeft VaMiddle None None true.
(** parts/table.rs:320-325 [center] *)
Definition pcell_center (c : pcell) : pcell :=
  PCell (pc_text c) (pc_rows c) (pc_cols c) (pc_bold c) (pc_italic c) (pc_underline c) (pc_strike c) (pc_background c) (pc_color c) (pc_size c) (pc_font c)
    HCenter VaMiddle (pc_borders c) (pc_margins c) (pc_merged c).
(** parts/table.rs:357-467 [TableCellPart::to_xml]; the size is a [u32] product,
    wrapping as in a release build. *)
Definition pfill (c : string) : string := ("<a:solidFill><a:srgbClr val=""" ++ unhashed c ++ """/></a:solidFill>").
Definition opt_str {A} (f : A -> string) (o : option A) : string := match o with Some x => f x | None => "" end.
Definition pcell_xml (c : pcell) : string :=
  if pc_merged c then "<a:tc hMerge=""1""><a:txBody><a:bodyPr/><a:lstStyle/><a:p><a:endParaRPr/></a:p></a:txBody><a:tcPr/></a:tc>"
  else
    let attrs := (if (1 <? pc_rows c)%N then (" rowSpan=""" ++ dec (pc_rows c) ++ """") else "")
      ++ (if (1 <? pc_cols c)%N then (" gridSpan=""" ++ dec (pc_cols c) ++ """") else "") in
    let bg := opt_str pfill (pc_background c) in
    let rpr := (if pc_bold c then " b=""1""" else "") ++ (if pc_italic c then " i=""1""" else "") ++ (if pc_underline c then " u=""sng""" else "")
      ++ (if pc_strike c then " strike=""sngStrike""" else "") ++ opt_str (fun n => (" sz=""" ++ dec (wmul u32_max n 100) ++ """")) (pc_size c) in
    let color := opt_str pfill (pc_color c) in
    let font := opt_str (fun f => ("<a:latin typeface=""" ++ f ++ """/>")) (pc_font c) in
    let ppr := match pc_halign c with HCenter => "" | a => ("<a:pPr algn=""" ++ halign_value a ++ """/>") end in
    let tcpr := (" anchor=""" ++ valign_value (pc_valign c) ++ """")
      ++ opt_str (fun m => (" marL=""" ++ zdec (m_left m) ++ """ marR=""" ++ zdec (m_right m) ++ """ marT=""" ++ zdec (m_top m) ++ """ marB=""" ++ zdec (m_bottom m) ++ """")) (pc_margins c) in
    ("<a:tc" ++ attrs ++ ">
          <a:txBody>
            <a:bodyPr/>
            <a:lstStyle/>
            <a:p>
              " ++ ppr ++ "
              <a:r>
                <a:rPr lang=""en-US""" ++ rpr ++ ">" ++ color ++ font ++ "</a:rPr>
                <a:t>" ++ escape_xml (pc_text c) ++ "</a:t>
              </a:r>
            </a:p>
          </a:txBody>
          <a:tcPr" ++ tcpr ++ ">" ++ opt_str borders_xml (pc_borders c) ++ bg ++ "</a:tcPr>
        </a:tc>").
(** parts/table.rs:478-483 [TableRowPart] *)
Record prow := PRow { pr_cells : list pcell; pr_height : option Z }.
(** parts/table.rs:500-521 [TableRowPart::to_xml] *)
Definition height_attr (h : Z) : string := (" h=""" ++ zdec h ++ """").
Definition prow_xml (r : prow) : string :=
  let cells := sjoin "
        " (map pcell_xml (pr_cells r)) in ("<a:tr" ++ opt_str height_attr (pr_height r) ++ ">
        " ++ cells ++ "
      </a:tr>").
(** parts/table.rs:529-538 [TablePart] *)
Record tpart := TPart { tp_rows : list prow; tp_widths : list Z; tp_x : Z; tp_y : Z; tp_width : Z; tp_height : Z }.
(** parts/table.rs:541-551 [new] *)
Definition tpart_new : tpart := TPart [] [] 914400 1828800 7315200 1828800.
(** parts/table.rs:553-563 [add_row]; the division of [i64] cuts off towards zero *)
Definition tpart_add (t : tpart) (r : prow) : tpart :=
  let w := match tp_widths t, pr_cells r with
           | [], _ :: _ => let n := length (pr_cells r) in repeat (Z.quot (tp_width t) (Z.of_nat n)) n
           | w, _ => w
           end in
  TPart (tp_rows t ++ [r])%list w (tp_x t) (tp_y t) (tp_width t) (tp_height t).
(** parts/table.rs:565-583 [position], [size], [col_widths] *)
Definition tpart_at (x y : Z) (t : tpart) : tpart := TPart (tp_rows t) (tp_widths t) x y (tp_width t) (tp_height t).
Definition tpart_size (w h : Z) (t : tpart) : tpart := TPart (tp_rows t) (tp_widths t) (tp_x t) (tp_y t) w h.
Definition tpart_columns (l : list Z) (t : tpart) : tpart := TPart (tp_rows t) l (tp_x t) (tp_y t) (tp_width t) (tp_height t).
(** parts/table.rs:585-633 [to_slide_xml] *)
Definition pcol_xml (w : Z) : string := ("<a:gridCol w=""" ++ zdec w ++ """/>").
Definition tpart_xml (t : tpart) (id : N) : string :=
  let cols := sjoin "
        " (map pcol_xml (tp_widths t)) in
  let rows := sjoin "
      " (map prow_xml (tp_rows t)) in
  ("<p:graphicFrame>
  <p:nvGraphicFramePr>
    <p:cNvPr id=""" ++ dec id ++ """ name=""Table " ++ dec id ++ """/>
    <p:cNvGraphicFramePr><a:graphicFrameLocks noGrp=""1""/></p:cNvGraphicFramePr>
    <p:nvPr/>
  </p:nvGraphicFramePr>
  <p:xfrm>
    <a:off x=""" ++ zdec (tp_x t) ++ """ y=""" ++ zdec (tp_y t) ++ """/>
    <a:ext cx=""" ++ zdec (tp_width t) ++ """ cy=""" ++ zdec (tp_height t) ++ """/>
  </p:xfrm>
  <a:graphic>
    <a:graphicData uri=""http://schemas.openxmlformats.org/drawingml/2006/table"">
      <a:tbl>
        <a:tblPr firstRow=""1"" bandRow=""1"">
          <a:tableStyleId>{5C22544A-7EE6-4342-B048-85BDC9FD1C3A}</a:tableStyleId>
        </a:tblPr>
        <a:tblGrid>
        " ++ cols ++ "
        </a:tblGrid>
      " ++ rows ++ "
      </a:tbl>
    </a:graphicData>
  </a:graphic>
</p:graphicFrame>").
