(** C40 and C49: tables. *)
From Coq Require Import String List Bool Arith NArith.
From Verif Require Import Str Num XmlSpec XmlProofs OpcSpec XmlPath ColorModel LookSpec TableModel TableSpec TableProofs TableLook.
Import ListNotations.
Open Scope nat_scope.
Open Scope string_scope.

(** Rows of strings become a rectangular table: every cell in its place, short
    rows padded with empty cells, as many columns as the longest row; the
    columns fit the default width; exactly the given cells of the first row are
    bold, and only when a header is asked for. *)
Theorem C40_rectangular (rs : list (list string)) (h : bool) :
  (0 < columns rs) -> (N.of_nat (columns rs) <= u32_max)%N ->
  exists t, table_from_string_rows rs h = Ret t
  /\ map (fun r => map ctext (cells r)) (rows t) = padded rs
  /\ Forall (fun r => length (cells r) = columns rs) (rows t) /\ length (widths t) = columns rs
  /\ (table_width t <= 8000000)%N
  /\ (forall i r, nth_error (rows t) i = Some r -> forall j c, nth_error (cells r) j = Some c ->
        cbold c = h && Nat.eqb i 0 && Nat.ltb j (length (nth i rs []))).
Proof. exact (string_table rs h). Qed.
Print Assumptions C40_rectangular.
(** The same seen by a reader of the slide. *)
Theorem C40_shown (rs : list (list string)) (h : bool) (id : N) :
  Forall (Forall (fun s => text_ok s = true)) rs -> 0 < columns rs -> (N.of_nat (columns rs) <= u32_max)%N ->
  exists t x, table_from_string_rows rs h = Ret t /\ xml_read (table_xml t id) = Some x
    /\ grid x = padded rs /\ length (grid_widths x) = columns rs.
Proof. exact (string_table_shown rs h id). Qed.
Print Assumptions C40_shown.
Example C40_case : let rs := [["a"; "<b>"]; ["c"]; []; ["d"; ""; "e & f"]] in
  padded rs = [["a"; "<b>"; ""]; ["c"; ""; ""]; [""; ""; ""]; ["d"; ""; "e & f"]] /\ 0 < columns rs /\ (N.of_nat (columns rs) <= u32_max)%N.
Proof. repeat split; vm_compute; auto; discriminate. Qed.
(** Rows that are all empty divide by zero. *)
Theorem C40_empty_rows_refuted (rs : list (list string)) (h : bool) : rs <> [] -> longest rs = 0 -> table_from_string_rows rs h = Panic.
Proof. exact (string_table_panics rs h). Qed.
Print Assumptions C40_empty_rows_refuted.

(** Any table: well-formed XML showing every uncovered cell's text in its
    place, the spans and coverings, column widths, row heights and frame. *)
Theorem C49_table_shows (t : table) (id : N) : table_ok t = true ->
  exists x, xml_read (table_xml t id) = Some x
  /\ grid x = map (fun r => map cell_text (cells r)) (rows t)
  /\ grid_spans x = map (fun r => map cell_spans (cells r)) (rows t)
  /\ grid_widths x = map dec (widths t) /\ row_heights x = map (fun r => dec (want_height r)) (rows t)
  /\ frame x = want_frame t.
Proof. exact (table_shows t id). Qed.
Print Assumptions C49_table_shows.
Example C49_case :
  let c := Cell "x < y" true false true (Some "#ff0000") (Some "00FF00") (Some 12%N) (Some "A & B") ALeft VTop (Some 2%N) None false false in
  let d := Cell "gone" false false false None None None None ACenter VMiddle None None true false in
  table_ok (Table [Row [c; d] (Some 5%N); Row [cell_new ""; cell_new "z"] None] [7%N; 8%N] 1 2) = true.
Proof. reflexivity. Qed.
(** Every uncovered cell looks as asked: its text bold, italic, underlined, of
    the size, colour and typeface given, aligned to the left, right or both
    sides and put at the top or bottom as given, and the background of the colour
    given. Nothing is written for centred text and for the middle. *)
Theorem C49_cell_looks (t : table) (id : N) : table_ok t = true -> cell_sizes_ok t = true ->
  exists x, xml_read (table_xml t id) = Some x /\ grid_looks x = map (fun r => map want_looks (cells r)) (rows t).
Proof. exact (table_looks t id). Qed.
Print Assumptions C49_cell_looks.
Example C49_looks_case :
  let c := Cell "x < y" true false true (Some "#ff0000") (Some "00FF0a") (Some 12%N) (Some "A & B") ALeft VTop (Some 2%N) None false false in
  let d := Cell "gone" true false false None (Some "123456") None None ARight VBottom None None true false in
  cell_sizes_ok (Table [Row [c; d] (Some 5%N); Row [cell_new ""; cell_new "z"] None] [7%N; 8%N] 1 2) = true
  /\ map want_looks [c; d; cell_new "z"] =
     [([(Some "1", None, Some "sng", Some "1200", ["FF0000"], ["A & B"])], ["l"], [Some "t"], ["00FF0A"]);
      ([], [], [None], []); ([(None, None, None, None, [], [])], [], [None], [])].
Proof. split; reflexivity. Qed.
(** A size over 42949672 points is written as another one. *)
Theorem C49_size_refuted : exists t id x, table_ok t = true /\ xml_read (table_xml t id) = Some x
  /\ map font_size (flat_map cells (rows t)) = [Some 42949673%N]
  /\ map (map (fun l => fst (fst (fst l)))) (grid_looks x) = [[[(None, None, None, Some "4", [], [])]]].
Proof.
  exists (Table [Row [Cell "x" false false false None None (Some 42949673%N) None ACenter VMiddle None None false false] None] [7%N] 1 2), 3%N.
  eexists. split; [reflexivity|]. split; [vm_compute; reflexivity|]. split; vm_compute; reflexivity.
Qed.
Print Assumptions C49_size_refuted.
(** A colour given as markup breaks the slide: it is written unescaped. *)
Theorem C49_color_refuted : exists t id, xml_read (table_xml t id) = None.
Proof.
  exists (Table [Row [Cell "x" false false false (Some "a<b") None None None ACenter VMiddle None None false false] None] [7%N] 1 2), 3%N.
  vm_compute. reflexivity.
Qed.
Print Assumptions C49_color_refuted.
(** Text asked to be centred, in the middle (as every new cell is), is shown to
    the left, at the top. *)
Theorem C49_center_refuted : exists t id x, table_ok t = true /\ xml_read (table_xml t id) = Some x
  /\ map (fun c => (asked_align (calign c), asked_anchor (cvalign c))) (flat_map cells (rows t)) = [("ctr", "ctr"); ("r", "b")]
  /\ map (fun c => (shown_align c, shown_anchor c)) (flat_map cells_of (rows_of x)) = [(["l"], ["t"]); (["r"], ["b"])].
Proof.
  exists (Table [Row [cell_new "x"; Cell "y" false false false None None None None ARight VBottom None None false false] None] [7%N; 7%N] 1 2), 3%N.
  eexists. split; [reflexivity|]. split; [vm_compute; reflexivity|]. split; vm_compute; reflexivity.
Qed.
Print Assumptions C49_center_refuted.
