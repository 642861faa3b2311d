(** C68 and C69: web pages as slides. *)
From Coq Require Import String Ascii List Bool Arith NArith.
From Verif Require Import Str Num XmlSpec SlideModel DeckModel ReaderModel McpSpec WebModel WebSpec WebText WebRead WebSlides WebThms WebRefute.
Import ListNotations.
Open Scope nat_scope.
Open Scope string_scope.

Theorem C68_page : forall (c : config) (found : string -> option dom) (url : string) (m : dom) (its : list item), main_part found m -> on_page m its -> filter (wants c) its <> [] ->
  exists w, parse c found url = Some w /\ titled found (w_title w) /\ described found (w_description w) /\ w_url w = url /\ Forall2 stands (filter (wants c) its) (w_blocks w)
    /\ forall X o, html_to_pptx c X found url o = Some (convert c X w o).
Proof. exact page_parsed. Qed.
Print Assumptions C68_page.
Example C68_page_example : main_part sample_found sample_main.
Proof. exact sample_main_part. Qed.
Example C68_page_items : on_page sample_main sample_items.
Proof. exact sample_on_page. Qed.
Theorem C68_nothing : forall (c : config) (found : string -> option dom) (url : string) (m : dom) (its : list item), main_part found m -> on_page m its -> filter (wants c) its = [] -> parse c found url = None.
Proof. exact page_empty. Qed.
Print Assumptions C68_nothing.
(** Text that is not in a paragraph, list or heading is lost. *)
Theorem C68_loose_text_refuted : forall (c : config) (depth : N) (a : list (string * string)) (t : string), walk_element c depth (Elem "div" a [Text t]) = [].
Proof. exact loose_text. Qed.
Print Assumptions C68_loose_text_refuted.
(** Pictures in a paragraph are lost. *)
Theorem C68_picture_refuted : forall (c : config) (depth : N) (a : list (string * string)) (k : list dom), Forall (fun b => wb_kind b = WPara) (walk_element c depth (Elem "p" a k)).
Proof. exact picture_lost. Qed.
Print Assumptions C68_picture_refuted.
(** Short paragraphs are lost. *)
Theorem C68_short_refuted : forall (c : config) (depth : N) (k : list dom), String.length (clean_text (Elem "p" [] k)) < 10 -> walk_element c depth (Elem "p" [] k) = [].
Proof. exact short_lost. Qed.
Print Assumptions C68_short_refuted.
(** A list in a list is run together into one item. *)
Theorem C68_nested_list_refuted : forall (c : config), map wb_text (walk_element c 0 nested) = ["fruitapplepear"].
Proof. exact nested_merged. Qed.
Print Assumptions C68_nested_list_refuted.
(** Navigation is taken for contents. *)
Theorem C68_menu_refuted : forall (c : config), map wb_text (walk_element c 0 menu) = ["Home"; "About us"].
Proof. exact menu_read. Qed.
Print Assumptions C68_menu_refuted.
(** The cells of a table in a table come twice. *)
Theorem C68_nested_table_refuted : map wb_kind (walk_element config_default 0 twice) = [WTable [["x"; "x"]; ["x"]]].
Proof. exact table_twice. Qed.
Print Assumptions C68_nested_table_refuted.

Theorem C69_grouped : forall (c : config) (X : statics) (w : content) (o : options) (intro : list block) (g : block * list block) (gl : list (block * list block)), by_headings c = true -> 1 <= max_bullets c -> (N.of_nat (max_slides c) < u32_max)%N -> content_ok w o = true -> outline (w_blocks w) intro (g :: gl) ->
  exists lss pss, Forall2 (lines_for c) ((intro ++ snd g)%list :: map snd gl) lss /\ Forall2 (paged (max_bullets c)) lss pss /\ Forall2 headed (map (fun g => wb_text (fst g)) (g :: gl)) pss
    /\ reads_as (convert c X w o) (fun l => Forall2 page_read l (firstn (max_slides c) ((deck_title w o, []) :: concat pss))).
Proof. exact grouped_deck. Qed.
Print Assumptions C69_grouped.
Example C69_grouped_example : outline (w_blocks sample_content) [para "An opening paragraph"] [(heading "First", [point "one"; point "two"; Block WCode "x = 1" 0]); (heading "Empty", []); (heading "Last", [Block WQuote "said" 0])].
Proof. exact sample_outline. Qed.
Example C69_grouped_pages : as_pages (build_slides sample_config sample_content (Options None true))
  = [("Great", ["about it"; "Source: https://example.org"]); ("First", ["An opening paragraph"; "• one"; "• two"]); ("First (cont.)", ["[Code] x = 1"]); ("Last", [s1 DQ ++ "said" ++ s1 DQ])].
Proof. exact sample_pages. Qed.
Theorem C69_linear : forall (c : config) (X : statics) (w : content) (o : options) (intro : list block) (gl : list (block * list block)), (by_headings c = false \/ gl = []) -> 1 <= max_bullets c -> (N.of_nat (max_slides c) < u32_max)%N -> content_ok w o = true -> outline (w_blocks w) intro gl -> w_blocks w <> [] ->
  opens intro = true -> Forall (flows (max_bullets c)) (intro :: map snd gl) ->
  exists lss pss, Forall2 (lines_for (text_only c)) (intro :: map snd gl) lss /\ Forall2 (paged (max_bullets c)) lss pss /\ Forall2 piled (opening intro :: map (fun g => wb_text (fst g)) gl) pss
    /\ reads_as (convert c X w o) (fun l => Forall2 page_read l (firstn (max_slides c) ((deck_title w o, []) :: concat pss))).
Proof. exact linear_deck. Qed.
Print Assumptions C69_linear.
Example C69_linear_example : outline (w_blocks linear_content) [para "An opening paragraph"; para "and another one"] [(heading "First", [point "one"])]
  /\ opens [para "An opening paragraph"; para "and another one"] = true /\ Forall (flows 1) [[para "An opening paragraph"; para "and another one"]; [point "one"]].
Proof. exact linear_hyps. Qed.
Example C69_linear_pages : as_pages (build_slides sample_linear linear_content plainly) = [("Great", []); ("Overview", ["An opening paragraph"]); ("Overview (cont.)", ["and another one"]); ("First", ["• one"])].
Proof. exact linear_pages. Qed.
Theorem C69_bounds : forall (c : config) (w : content) (o : options), 1 <= max_bullets c ->
  length (build_slides c w o) <= max_slides c /\ Forall (fun s => length (s_bullets s) <= max_bullets c) (tl (build_slides c w o)).
Proof. intros c w o H. exact (bounded c H w o). Qed.
Print Assumptions C69_bounds.
(** List items that do not fit are lost when slides do not follow the headings. *)
Theorem C69_items_refuted : as_pages (build_slides (Config 9 1 true true true false) (Content "T" "u" None [heading "H"; point "one"; point "two"]) plainly) = [("T", []); ("H", ["• one"])].
Proof. exact items_lost. Qed.
Print Assumptions C69_items_refuted.
(** So is a quote before the first heading. *)
Theorem C69_quote_refuted : as_pages (build_slides (Config 9 6 true true true false) (Content "T" "u" None [Block WQuote "said" 0; para "a paragraph"]) plainly) = [("T", []); ("Overview", ["a paragraph"])].
Proof. exact quote_lost. Qed.
Print Assumptions C69_quote_refuted.
(** Without headings code, tables and images are lost although they are wanted. *)
Theorem C69_code_refuted : as_pages (build_slides config_default (Content "T" "u" None [Block WCode "x = 1" 0; Block (WTable [["a"]]) "" 0; Block (WImage "s" "alt") "" 0]) plainly) = [("T", [])].
Proof. exact code_lost. Qed.
Print Assumptions C69_code_refuted.
(** No lines to a slide gives an empty slide and one with a line. *)
Theorem C69_none_refuted : as_pages (build_slides (Config 9 0 true true true true) (Content "T" "u" None [heading "H"; para "a paragraph"]) plainly) = [("T", []); ("H", []); ("H (cont.)", ["a paragraph"])].
Proof. exact none_allowed. Qed.
Print Assumptions C69_none_refuted.
(** A heading with nothing under it is lost. *)
Theorem C69_heading_refuted : as_pages (build_slides config_default (Content "T" "u" None [heading "H"; heading "I"; para "a paragraph"]) plainly) = [("T", []); ("I", ["a paragraph"])].
Proof. exact heading_lost. Qed.
Print Assumptions C69_heading_refuted.
