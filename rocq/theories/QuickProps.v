(** C72 and C73: quick decks and quick tables. *)
From Coq Require Import String Ascii List Bool Arith NArith.
From Verif Require Import Str Num XmlSpec ColorModel TableModel TableSpec ShapeModel SlideModel DeckModel ReaderModel MdParseModel McpModel McpSpec WebSpec QuickModel QuickSpec QuickPlain QuickThms.
Import ListNotations.
Open Scope nat_scope.
Open Scope string_scope.

Theorem C72_deck : forall (X : statics) (title : string) (calls : list call), calls <> [] -> forallb call_ok calls = true -> (N.of_nat (length calls) < u32_max)%N ->
  reads_as (quick_build X (make title calls)) (fun l => Forall2 call_read l calls).
Proof. exact quick_back. Qed.
Print Assumptions C72_deck.
Example C72_deck_example : forallb call_ok some_calls = true.
Proof. exact some_calls_ok. Qed.
Theorem C72_no_slides : forall (X : statics) (title : string), reads_as (quick_build X (make title [])) (fun l => Forall2 page_read l [("Presentation", [])]).
Proof. exact quick_empty. Qed.
Print Assumptions C72_no_slides.
Theorem C72_count_only : forall (X : statics) (title : string) (count : nat), (N.of_nat count < u32_max)%N ->
  reads_as (create_pptx X title count) (fun l => Forall2 page_read l (map (fun k => (numbered_title k, [])) (seq 1 count))).
Proof. exact numbered_back. Qed.
Print Assumptions C72_count_only.
(** The title of a deck without slides is not on the slide made for it. *)
Theorem C72_title_refuted : exists title, forall X, ~ reads_as (quick_build X (make title [])) (fun l => Forall2 page_read l [(title, [])]).
Proof. exact title_not_shown. Qed.
Print Assumptions C72_title_refuted.

Theorem C73_simple : forall n cols : nat, 1 <= cols -> (N.of_nat cols <= u32_max)%N ->
  exists t, simple_table n cols = Ret t /\ equal_columns cols (widths t) /\ Forall2 row_like (rows t) (repeat (Texts (repeat "" cols)) n).
Proof. exact simple_made. Qed.
Print Assumptions C73_simple.
Theorem C73_data : forall (first : list string) (rest : list (list string)), 1 <= length first -> (N.of_nat (length first) <= u32_max)%N ->
  exists t, table_from_data (first :: rest) None = Ret t /\ equal_columns (length first) (widths t) /\ Forall2 row_like (rows t) (map Texts (first :: rest)).
Proof. exact data_made. Qed.
Print Assumptions C73_data.
Example C73_data_example : exists t, table_from_data [["Name"; "Age"]; ["Ann"; "41"; "extra"]; []] None = Ret t /\ widths t = [4572000%N; 4572000%N] /\ map (fun r => map ctext (cells r)) (rows t) = [["Name"; "Age"]; ["Ann"; "41"; "extra"]; []].
Proof. eexists. repeat split. Qed.
Theorem C73_data_widths : forall (first : list string) (rest : list (list string)) (ws : list N), exists t, table_from_data (first :: rest) (Some ws) = Ret t /\ widths t = ws /\ Forall2 row_like (rows t) (map Texts (first :: rest)).
Proof. exact data_widths. Qed.
Print Assumptions C73_data_widths.
Theorem C73_header : forall (headers : list string) (n : nat), 1 <= length headers -> (N.of_nat (length headers) <= u32_max)%N ->
  exists t, table_with_header headers n = Ret t /\ equal_columns (length headers) (widths t) /\ Forall2 row_like (rows t) (Heads headers :: repeat (Texts (repeat "" (length headers))) n).
Proof. exact header_made. Qed.
Print Assumptions C73_header.
Theorem C73_quick : forall (cols : nat) (fs : list fill), 1 <= cols -> (N.of_nat cols <= u32_max)%N ->
  exists t0 t, qt_new cols = Ret t0 /\ t = fold_left fill_step fs t0 /\ equal_columns cols (widths t) /\ Forall2 row_like (rows t) (flat_map contents fs) /\ (tx t, ty t) = last_place (0%N, 0%N) fs.
Proof. exact quick_made. Qed.
Print Assumptions C73_quick.
Theorem C73_quick_widths : forall (ws : list N) (fs : list fill), let t := fold_left fill_step fs (qt_with_widths ws) in widths t = ws /\ Forall2 row_like (rows t) (flat_map contents fs) /\ (tx t, ty t) = last_place (0%N, 0%N) fs.
Proof. exact quick_given. Qed.
Print Assumptions C73_quick_widths.
Example C73_quick_example : flat_map contents [Header ["a"; "b"]; At 5 6; TextRows [["1"; "2"]; ["3"; "4"]]; StyledRow [cell_new "x"]] = [Heads ["a"; "b"]; Texts ["1"; "2"]; Texts ["3"; "4"]; Cells [cell_new "x"]].
Proof. reflexivity. Qed.
Theorem C73_on_slide : forall (X : statics) (deck title : string) (data : list (list string)) (t : table), table_from_data data None = Ret t -> text_ok title = true -> forallb (forallb text_ok) data = true ->
  reads_as (quick_build X (make deck [Own (with_table t (slide_new title))])) (fun l => Forall2 table_slide_read l [TableArg title data]).
Proof. exact data_on_slide. Qed.
Print Assumptions C73_on_slide.
Example C73_on_slide_example : (exists t, table_from_data [["Name"; "R & D"]; ["Ann"; "41"]] None = Ret t) /\ text_ok "Staff" = true /\ forallb (forallb text_ok) [["Name"; "R & D"]; ["Ann"; "41"]] = true.
Proof. split; [eexists; reflexivity|split; reflexivity]. Qed.
(** No columns, or no data: the helpers panic instead of giving an empty table. *)
Theorem C73_no_columns_refuted : table_from_data [] None = Panic /\ (forall ws, table_from_data [] (Some ws) = Panic) /\ (forall rest, table_from_data ([] :: rest) None = Panic)
  /\ (forall n, table_with_header [] n = Panic) /\ (forall n, simple_table n 0 = Panic) /\ qt_new 0 = Panic.
Proof. exact no_columns. Qed.
Print Assumptions C73_no_columns_refuted.
