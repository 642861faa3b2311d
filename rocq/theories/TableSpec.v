(** What a table on a slide shows. *)
From Coq Require Import String Ascii List Bool Arith NArith.
From Verif Require Import Str Num XmlSpec XmlProofs OpcSpec XmlPath LookSpec TableModel.
Import ListNotations.
Open Scope nat_scope.
Open Scope string_scope.

Definition table_of (x : node) : list node := at_path ["a:graphic"; "a:graphicData"; "a:tbl"] x.
Definition rows_of (x : node) : list node := flat_map (at_path ["a:tr"]) (table_of x).
Definition cells_of (r : node) : list node := at_path ["a:tc"] r.
(** The text runs of a cell. *)
Definition texts_in (c : node) : list string := map text_in (at_path ["a:txBody"; "a:p"; "a:r"; "a:t"] c).
(** The grid of texts a reader sees. *)
Definition grid (x : node) : list (list string) := map (fun r => map (fun c => sconcat (texts_in c)) (cells_of r)) (rows_of x).
Definition grid_widths (x : node) : list string := map (attr "w") (flat_map (at_path ["a:tblGrid"; "a:gridCol"]) (table_of x)).
Definition row_heights (x : node) : list string := map (attr "h") (rows_of x).
(** Column span, row span, covered sideways, covered from above. *)
Definition spans (c : node) : option string * option string * option string * option string :=
  (attr_opt "gridSpan" c, attr_opt "rowSpan" c, attr_opt "hMerge" c, attr_opt "vMerge" c).
Definition grid_spans (x : node) := map (fun r => map spans (cells_of r)) (rows_of x).
(** Position and size: x, y, width, height. *)
Definition frame (x : node) : list (string * string) :=
  (map (fun o => (attr "x" o, attr "y" o)) (at_path ["p:xfrm"; "a:off"] x)
   ++ map (fun o => (attr "cx" o, attr "cy" o)) (at_path ["p:xfrm"; "a:ext"] x))%list.

(** A colour of hexadecimal digits, in any case, with or without hash marks. *)
Definition color_ok (s : string) : bool := sforall (fun c => match hex_val c with Some _ => true | None => Ascii.eqb c "#"%char end) s.
Definition opt_ok (f : string -> bool) (o : option string) : bool := match o with Some s => f s | None => true end.
Definition cell_ok (c : cell) : bool :=
  text_ok (ctext c) && opt_ok color_ok (text_color c) && opt_ok color_ok (background c) && opt_ok attr_ok (font_family c).
Definition table_ok (t : table) : bool := forallb (fun r => forallb cell_ok (cells r)) (rows t).
(** What should be seen of a cell: covered cells show nothing. *)
Definition covered (c : cell) : bool := h_merge c || v_merge c.
Definition cell_text (c : cell) : string := if covered c then "" else ctext c.
Definition span_attr (o : option N) : option string :=
  match o with Some n => if (1 <? n)%N then Some (dec n) else None | None => None end.
Definition cell_spans (c : cell) : option string * option string * option string * option string :=
  if h_merge c then (None, None, Some "1", None)
  else if v_merge c then (None, None, None, Some "1")
  else (span_attr (grid_span c), span_attr (row_span_of c), None, None).
(** The sum of a list of numbers. *)
Definition sumN (l : list N) : N := fold_right N.add 0%N l.

(** The height of a row: 400000 units unless given. *)
Definition want_height (r : row) : N := match height_of r with Some h => h | None => 400000%N end.
(** The frame: the place of the table, the sum of its column widths and of its
    row heights (in 32 bits). *)
Definition want_frame (t : table) : list (string * string) :=
  [(dec (tx t), dec (ty t)); (dec (sumN (widths t) mod 4294967296)%N, dec (sumN (map want_height (rows t)) mod 4294967296)%N)].

(** The rows of strings padded with empty strings to the longest one. *)
Definition longest (rs : list (list string)) : nat := fold_right Nat.max 0 (map (@length string) rs).
Definition padded (rs : list (list string)) : list (list string) :=
  map (fun r => (r ++ repeat "" (longest rs - length r))%list) rs.
(** Number of columns: that of the longest row; one for no rows at all. *)
Definition columns (rs : list (list string)) : nat := match rs with [] => 1 | _ => longest rs end.

(** How a cell looks: the properties of its text runs, the alignment of its
    paragraphs, where the text sits vertically, the background. *)
Definition cell_runs (c : node) := map run_look (at_path ["a:txBody"; "a:p"; "a:r"; "a:rPr"] c).
Definition cell_algn (c : node) : list string := map (attr "algn") (at_path ["a:txBody"; "a:p"; "a:pPr"] c).
Definition cell_anchor (c : node) : list (option string) := map (attr_opt "anchor") (at_path ["a:tcPr"] c).
Definition cell_fill (c : node) : list string := flat_map fills (at_path ["a:tcPr"] c).
Definition looks (c : node) := (cell_runs c, cell_algn c, cell_anchor c, cell_fill c).
Definition grid_looks (x : node) := map (fun r => map looks (cells_of r)) (rows_of x).

(** The size in hundredths of a point fits in 32 bits. *)
Definition size_ok (c : cell) : bool := match font_size c with Some n => (n * 100 <=? u32_max)%N | None => true end.
Definition cell_sizes_ok (t : table) : bool := forallb (fun r => forallb size_ok (cells r)) (rows t).
(** What is asked for a cell, as far as the code writes it: nothing is written
    for centred text and for the middle (a finding: see [shown_align] below); an
    empty cell has no text to format. *)
Definition want_run (c : cell) :=
  (on "1" (cbold c), on "1" (citalic c), on "sng" (cunderline c), option_map (fun n => dec (n * 100)) (font_size c),
   opt_list (option_map color_value (text_color c)), opt_list (font_family c)).
Definition want_algn (a : cell_align) : list string := match a with ALeft => ["l"] | ACenter => [] | ARight => ["r"] | AJustify => ["just"] end.
Definition want_anchor (a : cell_valign) : option string := match a with VTop => Some "t" | VMiddle => None | VBottom => Some "b" end.
Definition want_looks (c : cell) :=
  let full := negb (covered c) && negb (String.eqb (ctext c) "") in
  (if full then [want_run c] else [], if full then want_algn (calign c) else [],
   [if covered c then None else want_anchor (cvalign c)],
   if covered c then [] else opt_list (option_map color_value (background c))).

(** Where a reader puts the text of a cell: to the left and at the top when
    nothing is written (ECMA-376 part 1, 21.1.2.2.7 [algn], 21.1.3.17 [anchor]). *)
Definition para_align (p : node) : string :=
  match at_path ["a:pPr"] p with q :: _ => match attr_opt "algn" q with Some a => a | None => "l" end | [] => "l" end.
Definition shown_align (c : node) : list string := map para_align (at_path ["a:txBody"; "a:p"] c).
Definition shown_anchor (c : node) : list string := map (fun a => match a with Some v => v | None => "t" end) (cell_anchor c).
Definition asked_align (a : cell_align) : string := match a with ALeft => "l" | ACenter => "ctr" | ARight => "r" | AJustify => "just" end.
Definition asked_anchor (a : cell_valign) : string := match a with VTop => "t" | VMiddle => "ctr" | VBottom => "b" end.
