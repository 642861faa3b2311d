(** Quick decks (prelude.rs) and quick tables (helpers/tables.rs). *)
From Coq Require Import String Ascii List Bool Arith NArith.
From Verif Require Import Str Num ColorModel TableModel ShapeModel SlideModel DeckModel MdParseModel.
Import ListNotations.
Open Scope nat_scope.
Open Scope string_scope.

(** ** Decks *)
(** slide_content/content.rs:228-232 [with_shapes] *)
Definition with_shapes (l : list shape) (s : slide) : slide :=
  Slide (s_title s) (s_content s) (s_bullets s) (s_style s) (s_tsize s) (s_csize s) (s_tbold s) (s_cbold s) (s_titalic s) (s_citalic s) (s_tunder s)
    (s_tcolor s) (s_ccolor s) (s_layout s) (s_transition s) (s_table s) (s_shapes s ++ l)%list (s_images s) (s_notes s) (s_connectors s) (s_charts s) (s_code s) (s_ink s).
(** prelude.rs:164-167 [QuickPptx] *)
Record quick := Quick { q_title : string; q_slides : list slide }.
(** prelude.rs:171-176 [new] *)
Definition quick_new (title : string) : quick := Quick title [].
(** prelude.rs:178-186 [slide] *)
Definition quick_slide (title : string) (bullets : list string) (q : quick) : quick :=
  Quick (q_title q) (q_slides q ++ [fold_left (fun s b => add_bullet b s) bullets (slide_new title)])%list.
(** prelude.rs:188-192 [title_slide] *)
Definition quick_title_slide (title : string) (q : quick) : quick := Quick (q_title q) (q_slides q ++ [slide_new title])%list.
(** prelude.rs:194-198 [content_slide] *)
Definition quick_content_slide (s : slide) (q : quick) : quick := Quick (q_title q) (q_slides q ++ [s])%list.
(** prelude.rs:200-205 [shapes_slide] *)
Definition quick_shapes_slide (title : string) (l : list shape) (q : quick) : quick := Quick (q_title q) (q_slides q ++ [with_shapes l (slide_new title)])%list.
(** prelude.rs:207-215 [build] *)
Definition quick_build (X : statics) (q : quick) : list entry :=
  match q_slides q with
  | [] => create_pptx X (q_title q) 1
  | l => create_pptx_with_settings X (q_title q) l no_settings
  end.

(** ** Tables *)
(** generator/table/builder.rs:69-116 [TableBuilder]: a table under construction
    is modelled as the table built so far. *)
Definition table_builder (widths : list N) : table := Table [] widths 0 0.
Definition add_row (r : row) (t : table) : table := Table (rows t ++ [r])%list (widths t) (tx t) (ty t).
Definition position (x y : N) (t : table) : table := Table (rows t) (widths t) x y.
(** [TableRow::new], row.rs *)
Definition row_new (l : list cell) : row := Row l None.
(** [9144000 / cols as u32] panics when the truncated count is zero. *)
Definition equal_width (cols : nat) : outcome N := let d := (N.of_nat cols mod (u32_max + 1))%N in if (d =? 0)%N then Panic else Ret (9144000 / d)%N.
Definition omap {A B} (f : A -> B) (o : outcome A) : outcome B := match o with Ret a => Ret (f a) | Panic => Panic end.
(** helpers/tables.rs:15-28 [simple_table] *)
Definition simple_table (n cols : nat) : outcome table :=
  omap (fun w => fold_left (fun t _ => add_row (row_new (repeat (cell_new "") cols)) t) (seq 0 n) (table_builder (repeat w cols))) (equal_width cols).
(** the header style of helpers/tables.rs:100-106, 149-155, 212-218: bold, white on
    dark blue, centred *)
Definition quick_header (s : string) : cell :=
  let c := cell_new s in
  Cell (ctext c) true (citalic c) (cunderline c) (Some (clean "FFFFFF")) (Some (clean "1F4E79")) (font_size c) (font_family c)
       ACenter (cvalign c) (grid_span c) (row_span_of c) (h_merge c) (v_merge c).
(** helpers/tables.rs:221-223 [highlight_cell] *)
Definition highlight_cell (s color : string) : cell :=
  let c := cell_new s in
  Cell (ctext c) true (citalic c) (cunderline c) (text_color c) (Some (clean color)) (font_size c) (font_family c)
       (calign c) (cvalign c) (grid_span c) (row_span_of c) (h_merge c) (v_merge c).
Definition data_row (l : list string) : row := row_new (map cell_new l).
(** helpers/tables.rs:38-44 [table_with_widths], 57-79 [table_from_data]; widths
    are taken in the units of the file, after [(w * 914400.0) as u32]. *)
Definition table_with_widths (ws : list N) : table := table_builder ws.
Definition table_from_data (data : list (list string)) (ws : option (list N)) : outcome table :=
  match data with
  | [] => simple_table 0 0
  | first :: _ =>
      let cols := length first in
      omap (fun ws => fold_left (fun t r => add_row (data_row r) t) data (table_builder ws))
        (match ws with Some l => Ret l | None => omap (fun w => repeat w cols) (equal_width cols) end)
  end.
(** helpers/tables.rs:90-119 [table_with_header] *)
Definition table_with_header (headers : list string) (n : nat) : outcome table :=
  let cols := length headers in
  omap (fun w =>
    let t := add_row (row_new (map quick_header headers)) (table_builder (repeat w cols)) in
    fold_left (fun t _ => add_row (row_new (repeat (cell_new "") cols)) t) (seq 0 n) t) (equal_width cols).
(** helpers/tables.rs:121-203 [QuickTable]: [new], [with_widths], [header], [row],
    [styled_row], [rows], [at] *)
Definition qt_new (cols : nat) : outcome table := omap (fun w => table_builder (repeat w cols)) (equal_width cols).
Definition qt_with_widths (ws : list N) : table := table_builder ws.
Definition qt_header (headers : list string) (t : table) : table := add_row (row_new (map quick_header headers)) t.
Definition qt_row (l : list string) (t : table) : table := add_row (data_row l) t.
Definition qt_styled_row (l : list cell) (t : table) : table := add_row (row_new l) t.
Definition qt_rows (data : list (list string)) (t : table) : table := fold_left (fun t r => add_row (data_row r) t) data t.
Definition qt_at (x y : N) (t : table) : table := position x y t.
