(** C83: tables as parts of their own. *)
From Coq Require Import String List Bool Arith NArith ZArith.
From Verif Require Import Str Num XmlSpec OpcSpec XmlPath LookSpec ShapeModel TableModel TableSpec TpartModel TpartSpec TpartRead.
Import ListNotations.
Open Scope string_scope.

(** A table part is written as well-formed XML that shows its number, the text of
    every cell in its place, the spans, the column widths, the row heights given
    and the frame. *)
Theorem C83_shown (t : tpart) (id : N) : tpart_ok t = true ->
  exists x, xml_read (tpart_xml t id) = Some x
  /\ named_as x = [(dec id, "Table " ++ dec id)]
  /\ grid x = map (fun r => map ptext (pr_cells r)) (tp_rows t)
  /\ grid_spans x = map (fun r => map pspans (pr_cells r)) (tp_rows t)
  /\ grid_widths x = map zdec (tp_widths t) /\ heights x = map (fun r => option_map zdec (pr_height r)) (tp_rows t)
  /\ frame x = [(zdec (tp_x t), zdec (tp_y t)); (zdec (tp_width t), zdec (tp_height t))].
Proof. exact (part_shown t id). Qed.
Print Assumptions C83_shown.
(** Every cell not covered looks as asked: bold, italic, underlined, struck
    through, of the size, colour and typeface given; at the top, in the middle or
    at the bottom; with the background, the lines on the four sides and the margins
    given. *)
Theorem C83_looks (t : tpart) (id : N) : tpart_ok t = true -> psizes_ok t = true ->
  exists x, xml_read (tpart_xml t id) = Some x /\ grid_part_looks x = map (fun r => map want_part (pr_cells r)) (tp_rows t).
Proof. exact (part_looked t id). Qed.
Print Assumptions C83_looks.
(** Text to start at the left, the right or both sides does. *)
Theorem C83_aligned (t : tpart) (id : N) : tpart_ok t = true ->
  exists x, xml_read (tpart_xml t id) = Some x
  /\ forall i j r c, nth_error (tp_rows t) i = Some r -> nth_error (pr_cells r) j = Some c -> pc_merged c = false -> pc_halign c <> HCenter ->
     nth j (nth i (grid_aligned x) []) [] = [asked_side (pc_halign c)].
Proof. exact (part_aligned t id). Qed.
Print Assumptions C83_aligned.
Example C83_case :
  let b := Border 12700 "#00ff00" BDashed in
  let c := PCell "x < y" 2 3 true false true true (Some "#abcdef") (Some "112233") (Some 12%N) (Some "Arial") HRight VaTop
             (Some (Borders (Some b) None (Some (Border 0 "" BNone)) None)) (Some (Margins 1 (-2) 3 4)) false in
  let t := TPart [PRow [c; pcell_merged] (Some 5%Z); PRow [pcell_new "z & w"] None] [7%Z; 8%Z] (-1) 2 3 4 in
  tpart_ok t = true /\ psizes_ok t = true
  /\ want_part c = ([((Some "1", None, Some "sng", Some "1200", ["112233"], ["Arial"]), Some "sngStrike")], [Some "t"], ["abcdef"],
       [([[(Some "12700", ["00ff00"], ["dash"])]; []; [(None, [], [])]; []], (Some "1", Some "-2", Some "3", Some "4"))])
  /\ map pspans [c; pcell_merged; pcell_new "z"] = [(Some "3", Some "2", None, None); (None, None, Some "1", None); (None, None, None, None)].
Proof. repeat split; reflexivity. Qed.
(** Rows are added in order and change nothing else. Columns given before are
    kept; if none are, the first row with cells makes as many columns as it has
    cells, of one width, that fill the table up to a rest smaller than their number. *)
Theorem C83_columns (t : tpart) (l : list prow) : (0 <= tp_width t)%Z ->
  let u := fold_left tpart_add l t in
  tp_rows u = (tp_rows t ++ l)%list /\ tp_x u = tp_x t /\ tp_y u = tp_y t /\ tp_width u = tp_width t /\ tp_height u = tp_height t
  /\ (tp_widths t <> [] -> tp_widths u = tp_widths t)
  /\ (tp_widths t = [] -> length (tp_widths u) = first_cells l /\ (forall v w, In v (tp_widths u) -> In w (tp_widths u) -> v = w)
      /\ (0 < first_cells l -> (tp_width t - Z.of_nat (first_cells l) < sumZ (tp_widths u) <= tp_width t)%Z)).
Proof. exact (part_columns t l). Qed.
Print Assumptions C83_columns.
Example C83_columns_case : let r := PRow [pcell_new "a"; pcell_new "b"; pcell_new "c"] None in
  tp_widths (fold_left tpart_add [PRow [] None; r; PRow [pcell_new "d"] None] (tpart_size 100 50 tpart_new)) = [33%Z; 33%Z; 33%Z].
Proof. reflexivity. Qed.
(** A size given after the rows leaves the columns as they were: they no longer
    fill the table. *)
Theorem C83_size_refuted : exists t, sumZ (tp_widths t) <> tp_width t /\ t = tpart_size 9000000 2000000 (tpart_add tpart_new (PRow [pcell_new "a"; pcell_new "b"] None)).
Proof. eexists. split; [|reflexivity]. vm_compute. discriminate. Qed.
Print Assumptions C83_size_refuted.
(** A longer row after the first one has cells without a column. *)
Theorem C83_ragged_refuted : exists l x, xml_read (tpart_xml (fold_left tpart_add l tpart_new) 2) = Some x
  /\ map (@length string) (grid x) = [1; 2] /\ length (grid_widths x) = 1.
Proof. exists [PRow [pcell_new "a"] None; PRow [pcell_new "b"; pcell_new "c"] None]. eexists. split; [vm_compute; reflexivity|]. split; vm_compute; reflexivity. Qed.
Print Assumptions C83_ragged_refuted.
(** Text to be centred is shown at the left. *)
Theorem C83_center_refuted : exists x, xml_read (tpart_xml (tpart_add tpart_new (PRow [pcell_center (pcell_new "a")] None)) 2) = Some x
  /\ asked_side (pc_halign (pcell_center (pcell_new "a"))) = "ctr" /\ grid_aligned x = [[["l"]]].
Proof. eexists. split; [vm_compute; reflexivity|]. split; vm_compute; reflexivity. Qed.
Print Assumptions C83_center_refuted.
(** A cell below one that spans two rows is marked as covered by the cell to its
    left, where there is none, not by the one above. *)
Theorem C83_below_refuted : exists x,
  xml_read (tpart_xml (fold_left tpart_add [PRow [PCell "a" 2 1 false false false false None None None None HLeft VaTop None None false] None; PRow [pcell_merged] None] tpart_new) 2) = Some x
  /\ grid_spans x = [[(None, Some "2", None, None)]; [(None, None, Some "1", None)]].
Proof. eexists. split; [vm_compute; reflexivity|]. vm_compute. reflexivity. Qed.
Print Assumptions C83_below_refuted.
(** A double line is written as a single one, with dashes that do not exist; no
    line at all as a line nothing is said of, so the one of the table's style stays. *)
Theorem C83_line_refuted : exists t x, t = tpart_add tpart_new (PRow [PCell "a" 1 1 false false false false None None None None HLeft VaTop
     (Some (Borders (Some (Border 9 "00FF00" BDouble)) (Some (Border 0 "" BNone)) None None)) None false] None)
  /\ xml_read (tpart_xml t 2) = Some x
  /\ map (fun l => (attr_opt "cmpd" l, map (attr "val") (at_path ["a:prstDash"] l))) (flat_map (fun r => flat_map (at_path ["a:tcPr"; "a:lnL"]) (cells_of r)) (rows_of x)) = [(Some "sng", ["dbl"])]
  /\ map (fun l => (length (children l), attr_opt "w" l)) (flat_map (fun r => flat_map (at_path ["a:tcPr"; "a:lnR"]) (cells_of r)) (rows_of x)) = [(0, None)].
Proof. eexists. eexists. split; [reflexivity|]. split; [vm_compute; reflexivity|]. split; vm_compute; reflexivity. Qed.
Print Assumptions C83_line_refuted.
(** Typefaces and colours are written unescaped; sizes over 42949672 wrap. *)
Theorem C83_font_refuted : exists f, text_ok f = true
  /\ xml_read (tpart_xml (tpart_add tpart_new (PRow [PCell "a" 1 1 false false false false None None None (Some f) HLeft VaTop None None false] None)) 2) = None.
Proof. exists "A & B". split; vm_compute; reflexivity. Qed.
Print Assumptions C83_font_refuted.
Theorem C83_points_refuted : exists x,
  xml_read (tpart_xml (tpart_add tpart_new (PRow [PCell "a" 1 1 false false false false None None (Some 42949673%N) None HLeft VaTop None None false] None)) 2) = Some x
  /\ map (map (fun l => map (fun r => snd (fst (fst (fst r)))) (fst (fst (fst l))))) (grid_part_looks x) = [[[Some "4"]]].
Proof. eexists. split; [vm_compute; reflexivity|]. vm_compute. reflexivity. Qed.
Print Assumptions C83_points_refuted.
