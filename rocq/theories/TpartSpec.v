(** What a reader finds of a table part. *)
From Coq Require Import String Ascii List Bool Arith NArith ZArith.
From Verif Require Import Str Num XmlSpec XmlProofs OpcSpec XmlPath LookSpec ShapeModel TableModel TableSpec TpartModel.
Import ListNotations.
Open Scope string_scope.

(** A colour without its leading hash marks. *)
Fixpoint bare (s : string) : string := match s with String c r => if Ascii.eqb c "#" then bare r else s | EmptyString => "" end.
(** Texts and colours that can be written. The typeface is written as it is and
    must not hold markup. *)
Definition border_ok (o : option border) : bool := match o with Some b => color_ok (bo_color b) | None => true end.
Definition borders_ok (o : option borders) : bool :=
  match o with Some b => border_ok (b_left b) && border_ok (b_right b) && border_ok (b_top b) && border_ok (b_bottom b) | None => true end.
Definition pcell_ok (c : pcell) : bool :=
  text_ok (pc_text c) && opt_ok color_ok (pc_color c) && opt_ok color_ok (pc_background c) && opt_ok (sforall plain_val) (pc_font c) && borders_ok (pc_borders c).
Definition tpart_ok (t : tpart) : bool := forallb (fun r => forallb pcell_ok (pr_cells r)) (tp_rows t).
Definition psizes_ok (t : tpart) : bool :=
  forallb (fun r => forallb (fun c => match pc_size c with Some n => (n * 100 <=? u32_max)%N | None => true end) (pr_cells r)) (tp_rows t).

(** The text and the spans of a cell. A merged cell shows nothing and is covered
    sideways. *)
Definition ptext (c : pcell) : string := if pc_merged c then "" else pc_text c.
Definition over_one (n : N) : option string := if (1 <? n)%N then Some (dec n) else None.
Definition pspans (c : pcell) : option string * option string * option string * option string :=
  if pc_merged c then (None, None, Some "1", None) else (over_one (pc_cols c), over_one (pc_rows c), None, None).
Definition heights (x : node) : list (option string) := map (attr_opt "h") (rows_of x).
Definition named_as (x : node) : list (string * string) := map (fun p => (attr "id" p, attr "name" p)) (at_path ["p:nvGraphicFramePr"; "p:cNvPr"] x).

(** The looks of a cell: its runs, with the line through them; where the text sits;
    the background; the lines to the left, right, above, below (width, colour,
    dashes); the margins left, right, top, bottom. *)
Definition struck_runs (c : node) := map (fun p => (run_look p, attr_opt "strike" p)) (at_path ["a:txBody"; "a:p"; "a:r"; "a:rPr"] c).
Definition line_look (l : node) := (attr_opt "w" l, fills l, map (attr "val") (at_path ["a:prstDash"] l)).
Definition sides (p : node) := map (fun side => map line_look (at_path [side] p)) ["a:lnL"; "a:lnR"; "a:lnT"; "a:lnB"].
Definition insets (p : node) := (attr_opt "marL" p, attr_opt "marR" p, attr_opt "marT" p, attr_opt "marB" p).
Definition part_looks (c : node) :=
  (struck_runs c, cell_anchor c, cell_fill c, map (fun p => (sides p, insets p)) (at_path ["a:tcPr"] c)).
Definition grid_part_looks (x : node) := map (fun r => map part_looks (cells_of r)) (rows_of x).
(** What is asked for. *)
Definition want_line (o : option border) : list (option string * list string * list string) :=
  match o with
  | None => []
  | Some b => match bo_style b with
              | BNone => [(None, [], [])]
              | BSolid => [(Some (zdec (bo_width b)), [bare (bo_color b)], ["solid"])]
              | BDashed => [(Some (zdec (bo_width b)), [bare (bo_color b)], ["dash"])]
              | BDotted => [(Some (zdec (bo_width b)), [bare (bo_color b)], ["dot"])]
              | BDouble => [(Some (zdec (bo_width b)), [bare (bo_color b)], ["dbl"])]
              end
  end.
Definition want_sides (o : option borders) :=
  match o with Some b => [want_line (b_left b); want_line (b_right b); want_line (b_top b); want_line (b_bottom b)] | None => [[]; []; []; []] end.
Definition want_insets (o : option margins) : option string * option string * option string * option string :=
  match o with Some m => (Some (zdec (m_left m)), Some (zdec (m_right m)), Some (zdec (m_top m)), Some (zdec (m_bottom m))) | None => (None, None, None, None) end.
Definition want_anchor_part (a : valign) : string := match a with VaTop => "t" | VaMiddle => "ctr" | VaBottom => "b" end.
Definition want_part (c : pcell) :=
  if pc_merged c then ([], [None], [], [(want_sides None, want_insets None)])
  else ([((on "1" (pc_bold c), on "1" (pc_italic c), on "sng" (pc_underline c), option_map (fun n => dec (n * 100)) (pc_size c),
           opt_list (option_map bare (pc_color c)), opt_list (pc_font c)), on "sngStrike" (pc_strike c))],
        [Some (want_anchor_part (pc_valign c))], opt_list (option_map bare (pc_background c)), [(want_sides (pc_borders c), want_insets (pc_margins c))]).
(** Where the text of a cell starts (see [shown_align] for what readers assume). *)
Definition asked_side (a : halign) : string := match a with HLeft => "l" | HCenter => "ctr" | HRight => "r" | HJustify => "just" end.
Definition grid_aligned (x : node) : list (list (list string)) := map (fun r => map shown_align (cells_of r)) (rows_of x).

(** The row that settles the columns: the first one with cells. *)
Fixpoint first_cells (l : list prow) : nat := match l with [] => 0 | r :: l => match pr_cells r with [] => first_cells l | c => length c end end.
Definition sumZ (l : list Z) : Z := fold_right Z.add 0%Z l.
