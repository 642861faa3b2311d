(** Model of src/generator/table/ (cells, rows, tables, their XML) and of the
    text attributes of src/generator/text/format.rs it uses. *)
From Coq Require Import String Ascii List Bool Arith NArith.
From Verif Require Import Str Num EscapeModel XmlWriterModel ColorModel MergeModel.
Import ListNotations.
Open Scope string_scope.

(** table/cell.rs:5-23 *)
Inductive cell_align := ALeft | ACenter | ARight | AJustify.
Definition align_str (a : cell_align) : string := match a with ALeft => "l" | ACenter => "ctr" | ARight => "r" | AJustify => "just" end.
(** table/cell.rs:27-44 *)
Inductive cell_valign := VTop | VMiddle | VBottom.
Definition valign_str (a : cell_valign) : string := match a with VTop => "t" | VMiddle => "ctr" | VBottom => "b" end.
(** table/cell.rs:48-79 [TableCell]; [wrap_text] is never read and left out. *)
Record cell := Cell {
  ctext : string; cbold : bool; citalic : bool; cunderline : bool;
  text_color : option string; background : option string; font_size : option N; font_family : option string;
  calign : cell_align; cvalign : cell_valign; grid_span : option N; row_span_of : option N; h_merge : bool; v_merge : bool }.
(** table/cell.rs:83-101 [TableCell::new] *)
Definition cell_new (t : string) : cell := Cell t false false false None None None None ACenter VMiddle None None false false.
(** [to_uppercase]: ASCII letters only (the colours it is applied to are hex). *)
Definition upper (c : ascii) : ascii := let n := N_of_ascii c in if (97 <=? n)%N && (n <=? 122)%N then ascii_of_N (n - 32) else c.
(** [trim_start_matches('#').to_uppercase()], table/cell.rs:122-131, text/format.rs:208 *)
Definition clean (s : string) : string := smap (fun c => s1 (upper c)) (trim_start_by is_hash s).

(** text/format.rs:88-121 [TextFormat::to_xml_attrs] on the format of a cell
    (table/format.rs:10-32: no strike, sub- or superscript); [size * 100] in u32. *)
Definition format_attrs (c : cell) : string :=
  (if cbold c then " b=""1""" else "") ++ (if citalic c then " i=""1""" else "") ++ (if cunderline c then " u=""sng""" else "")
  ++ match font_size c with Some n => " sz=""" ++ dec (wmul u32_max n 100) ++ """" | None => "" end.
(** text/format.rs:207-210 [color_to_xml] *)
Definition color_to_xml (s : string) : string := ("<a:solidFill><a:srgbClr val=""" ++ clean s ++ """/></a:solidFill>").
(** table/format.rs:36-47 [merge_attrs_from_cell] *)
Definition merge_attrs (c : cell) : string :=
  if h_merge c then to_xml_attrs HMerge
  else if v_merge c then to_xml_attrs VMerge
  else to_xml_attrs (Anchor (match row_span_of c with Some n => n | None => 1%N end) (match grid_span c with Some n => n | None => 1%N end)).
(** table/format.rs:50-71 [run_properties_xml] *)
Definition run_properties (c : cell) : string :=
  let color := match text_color c with Some s => color_to_xml s | None => "" end in
  let font := match font_family c with Some f => ("<a:latin typeface=""" ++ escape_xml f ++ """/>") | None => "" end in
  if String.eqb color "" && String.eqb font "" then ("<a:rPr lang=""en-US"" dirty=""0""" ++ format_attrs c ++ "/>")
  else ("<a:rPr lang=""en-US"" dirty=""0""" ++ format_attrs c ++ ">" ++ color ++ font ++ "</a:rPr>").
(** table/format.rs:74-80 *)
Definition paragraph_props (c : cell) : string :=
  match calign c with ACenter => "" | a => ("<a:pPr algn=""" ++ align_str a ++ """/>") end.
(** table/format.rs:89-107 [tc_properties_xml] *)
Definition tc_properties (c : cell) : string :=
  let anchor := match cvalign c with VMiddle => "" | v => (" anchor=""" ++ valign_str v ++ """") end in
  match background c with
  | Some b => ("<a:tcPr" ++ anchor ++ ">" ++ color_to_xml b ++ "</a:tcPr>")
  | None => if String.eqb anchor "" then "<a:tcPr/>" else ("<a:tcPr" ++ anchor ++ "/>")
  end.
(** table/format.rs:111-137 [generate_cell_xml] *)
Definition cell_xml (c : cell) : string :=
  if h_merge c || v_merge c then
    ("<a:tc" ++ merge_attrs c ++ "><a:txBody><a:bodyPr/><a:lstStyle/><a:p><a:endParaRPr/></a:p></a:txBody><a:tcPr/></a:tc>")
  else
    let paragraph := if String.eqb (ctext c) "" then "<a:p><a:endParaRPr lang=""en-US""/></a:p>"
                     else ("<a:p>" ++ paragraph_props c ++ "<a:r>" ++ run_properties c ++ "<a:t>" ++ escape_xml (ctext c) ++ "</a:t></a:r></a:p>") in
    ("<a:tc" ++ merge_attrs c ++ "><a:txBody>" ++ "<a:bodyPr/>" ++ "<a:lstStyle/>" ++ paragraph ++ "</a:txBody>" ++ tc_properties c ++ "</a:tc>").

(** table/row.rs:7-12, table/builder.rs:8-17 *)
Record row := Row { cells : list cell; height_of : option N }.
Record table := Table { rows : list row; widths : list N; tx : N; ty : N }.
Definition row_height (r : row) : N := match height_of r with Some h => h | None => 400000 end.
(** table/builder.rs:45-55: sums in u32 *)
Definition table_width (t : table) : N := fold_left (wadd u32_max) (widths t) 0%N.
Definition table_height (t : table) : N := fold_left (wadd u32_max) (map row_height (rows t)) 0%N.

(** [iter().enumerate()] followed by pushes. *)
Fixpoint each_push {A} (f : nat -> A -> string) (k : nat) (l : list A) : string :=
  match l with [] => "" | x :: l => f k x ++ each_push f (S k) l end.
(** table/xml.rs:53-70 [generate_row_xml] *)
Definition row_xml (idx : nat) (r : row) : string :=
  end_element "a:tr"
    (raw (("<a:extLst><a:ext uri=""{0D108BD9-81ED-4DB2-BD59-A6C34878D82A}""><a16:rowId xmlns:a16=""http://schemas.microsoft.com/office/drawing/2014/main"" val=""" ++ dec (10000 + N.of_nat idx) ++ """/></a:ext></a:extLst>"))
      (raw (sconcat (map cell_xml (cells r))) (start_element "a:tr" [("h", dec (row_height r))] writer_new))).
(** table/xml.rs:34-39: one column of the grid *)
Definition col_xml (idx : nat) (w : N) : string :=
  ("<a:gridCol w=""" ++ dec w ++ """><a:extLst><a:ext uri=""{9D8B030D-6E8A-4147-A177-3AD203B41FA5}""><a16:colId xmlns:a16=""http://schemas.microsoft.com/office/drawing/2014/main"" val=""" ++ dec (20000 + N.of_nat idx) ++ """/></a:ext></a:extLst></a:gridCol>").
(** table/xml.rs:9-50 [generate_table_xml] *)
Definition table_xml (t : table) (shape_id : N) : string :=
  let w := start_element "p:graphicFrame" [] writer_new in
  let w := raw "<p:nvGraphicFramePr>" w in
  let w := empty_element "p:cNvPr" [("id", dec shape_id); ("name", "Table " ++ dec shape_id)] w in
  let w := raw "<p:cNvGraphicFramePr/><p:nvPr/></p:nvGraphicFramePr>" w in
  let w := raw "<p:xfrm>" w in
  let w := empty_element "a:off" [("x", dec (tx t)); ("y", dec (ty t))] w in
  let w := empty_element "a:ext" [("cx", dec (table_width t)); ("cy", dec (table_height t))] w in
  let w := raw "</p:xfrm><a:graphic><a:graphicData uri=""http://schemas.openxmlformats.org/drawingml/2006/table""><a:tbl><a:tblPr firstRow=""1"" bandRow=""1""/><a:tblGrid>" w in
  let w := raw (each_push col_xml 0%nat (widths t)) w in
  let w := raw "</a:tblGrid>" w in
  let w := raw (each_push row_xml 0%nat (rows t)) w in
  let w := raw "</a:tbl></a:graphicData></a:graphic>" w in
  end_element "p:graphicFrame" w.

(** table/style.rs:22-27 [header_cell]; [IMPORT_HEADER_BG], [HEADER_TEXT] style.rs:9-13 *)
Definition header_cell (s : string) : cell :=
  let c := cell_new s in
  Cell (ctext c) true (citalic c) (cunderline c) (Some (clean "FFFFFF")) (Some (clean "4472C4")) (font_size c) (font_family c)
       (calign c) (cvalign c) (grid_span c) (row_span_of c) (h_merge c) (v_merge c).
(** style.rs:43-53: the cells of one row, padded *)
Definition string_row (style_header : bool) (cols : nat) (idx : nat) (r : list string) : row :=
  let made := map (fun s => if style_header && Nat.eqb idx 0%nat then header_cell s else cell_new s) r in
  Row (made ++ repeat (cell_new "") (cols - length made))%list None.
(** [enumerate] then [map] *)
Fixpoint enum_map {A B} (f : nat -> A -> B) (k : nat) (l : list A) : list B :=
  match l with [] => [] | x :: l => f k x :: enum_map f (S k) l end.
(** table/style.rs:30-60 [table_from_string_rows]: the width of a column is a
    u32 division, which panics when the (truncated) column count is 0. *)
Definition table_from_string_rows (rs : list (list string)) (style_header : bool) : outcome table :=
  let cols := match map (@length string) rs with [] => 1%nat | l => fold_right Nat.max 0%nat l end in
  let d := (N.of_nat cols mod (u32_max + 1))%N in
  if (d =? 0)%N then Panic
  else Ret (Table (enum_map (string_row style_header cols) 0%nat rs) (repeat (8000000 / d)%N cols) 500000 1800000).
