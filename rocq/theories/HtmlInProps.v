(** C33: the slides an HTML page gives. *)
From Coq Require Import String Ascii List Bool Arith NArith ZArith Lia.
From Verif Require Import Str Num ColorModel TableModel ConnectorModel ShapeModel SlideModel MdParseModel HtmlInModel HtmlInSpec HtmlInProofs HtmlInMore HtmlInTokens HtmlInDoc HtmlInEnd HtmlInRefute ExportModel ExportRefute.
Import ListNotations.
Open Scope nat_scope.
Open Scope string_scope.

(** Reading a page ends, whatever its text. *)
Theorem C33_ends : forall trim lower upper alnum font_size load_image options html, parse_html trim lower upper alnum font_size load_image options html <> None.
Proof. exact parse_ends. Qed.
Print Assumptions C33_ends.
(** Never more slides than the limit. *)
Theorem C33_max_slides : forall trim lower upper alnum font_size load_image options html out,
  parse_html trim lower upper alnum font_size load_image options html = Some (Ret (Some out)) -> length out <= max_slides options.
Proof. exact html_limit. Qed.
Print Assumptions C33_max_slides.
(** From the limit of lines on (one line is always let through), a slide has
    sub-headings only. *)
Theorem C33_max_bullets : forall trim lower upper alnum font_size load_image options html out,
  parse_html trim lower upper alnum font_size load_image options html = Some (Ret (Some out)) ->
  forall s i line, In s out -> Nat.max 1 (max_bullets options) <= i -> nth_error (s_content s) i = Some line -> exists u, line = "**" ++ u ++ "**".
Proof. exact html_lines. Qed.
Print Assumptions C33_max_bullets.
(** What comes later never changes the slides before the last one. *)
Theorem C33_prefix : forall trim lower upper font_size load_image options l1 l2 a b out,
  parse_events trim lower upper font_size load_image options l1 = Ret (Some (a ++ [b])%list) ->
  parse_events trim lower upper font_size load_image options (l1 ++ l2) = Ret (Some out) -> exists more, out = (a ++ more)%list.
Proof. exact parse_prefix. Qed.
Print Assumptions C33_prefix.
(** No panic, if the style attributes are in ASCII. *)
Theorem C33_no_panic : forall trim lower upper alnum font_size load_image options html events,
  (forall s, exists a b, s = a ++ trim s ++ b) -> tokenize trim lower alnum html = Some events -> (N.of_nat (length events) <= u32_max)%N ->
  (forall name attrs v, In (Open name attrs) events -> In ("style", v) attrs -> ascii_text v = true) ->
  parse_html trim lower upper alnum font_size load_image options html <> Some Panic.
Proof. exact html_no_panic. Qed.
Print Assumptions C33_no_panic.
(** The text of a page is read as written: tags with their attributes, texts with
    their characters, passing over white space between tags, comments and
    declarations. *)
Theorem C33_tokens : forall trim lower alnum (page : list piece),
  (forall c, ascii_char c = true -> alnum (s1 c) = letter_or_digit c) -> (forall n, sforall name_letter n = true -> lower n = n) -> trim "" = "" ->
  Forall (piece_ok trim) page -> apart page -> tokenize trim lower alnum (chars (write_html page)) = Some (flat_map piece_event page).
Proof. intros trim lower alnum page A L T. now apply tokenize_write. Qed.
Print Assumptions C33_tokens.
(** A written page whose tags and texts are those of a document gives exactly the
    slides of the document, up to the limit. *)
Theorem C33_deck : forall trim lower upper alnum font_size load_image options (d : hdoc) (page : list piece),
  (forall c, ascii_char c = true -> alnum (s1 c) = letter_or_digit c) -> (forall n, sforall name_letter n = true -> lower n = n) -> trim "" = "" ->
  Forall (piece_ok trim) page -> apart page -> flat_map piece_event page = hdoc_events d -> hdoc_ok d ->
  parse_html trim lower upper alnum font_size load_image options (chars (write_html page))
  = Some (Ret (match html_deck trim load_image options d with [] => None | l => Some (firstn (max_slides options) l) end)).
Proof. exact page_deck. Qed.
Print Assumptions C33_deck.
(** Without rules, the slides are those of the level-1 headings, in order, after at
    most one slide for what is before the first of them. *)
Theorem C33_titles : forall trim load_image options (d : hdoc), no_rules d ->
  exists before, length before <= 1 /\ map s_title (html_deck trim load_image options d) = (before ++ html_titles trim d)%list.
Proof. exact deck_titles. Qed.
Print Assumptions C33_titles.

(** A page with every kind of block. *)
Definition sample_doc : hdoc :=
  DIn "body" [("class", "a ""b""")] (DSeq (DHeading 1 [("id", "top")] (HSeq (HText "Plan & ") (HBold true (HText "A"))))
   (DSeq (DPara "p" [] (HSeq (HText "see") (HSeq HBreak (HIn "a" [("href", "u?x=1&y=2")] (HText "here")))))
   (DSeq (DSkip "nav" "menu") (DSeq (DList false [HText "one"; HText "two"])
   (DSeq (DHeading 2 [] (HText "Sub")) (DSeq (DTable [[(true, HText "k"); (true, HText "v")]; [(false, HSeq (HIn "a" [("href", "u")] (HText "a")) (HText " b")); (false, HText "1 < 2")]])
   (DSeq (DQuote (HIn "p" [] (HSeq (HText "remember ") (HSeq (HIn "a" [("href", "u")] (HText "this")) (HText " too"))))) (DSeq DRule (DSeq (DPre (HIn "code" [] (HSeq (HIn "span" [("class", "k")] (HText "fn")) (HText " main()")))) (DSeq (DImage "p.png" "pic") (DHeading 1 [] (HText "End")))))))))))).
Definition sample_page : list piece :=
  (Declaration "DOCTYPE html" :: Gap nl :: Comment " a <b> -- c " :: flat_map (fun e => match e with Open n a => [Tag n a] | Close n => [EndTag n] | Chars t => [Words t] end) (hdoc_events sample_doc) ++ [Gap (nl ++ nl)])%list.
Ltac letters := split; [discriminate|reflexivity].
Example sample_doc_ok : hdoc_ok sample_doc.
Proof.
  assert (N : forall n, existsb (String.eqb n) SPECIAL = false -> neutral n) by (intros n H I; assert (X : existsb (String.eqb n) SPECIAL = true) by (apply existsb_exists; exists n; split; [exact I|apply String.eqb_refl]); congruence).
  assert (NS : forall a, existsb (fun x => String.eqb (fst x) "style") a = false -> no_style a) by (intros a H v I; assert (X : existsb (fun x => String.eqb (fst x) "style") a = true) by (apply existsb_exists; exists ("style", v); split; [exact I|reflexivity]); congruence).

  split; [apply N; reflexivity|]. split; [apply NS; reflexivity|].
  split; [split; [lia|split; [apply NS; reflexivity|repeat constructor]]|].
  split; [split; [now left|split; [intros v []|]]; split; [exact I|split; [exact I|split; [apply N; reflexivity|split; [|split; [apply NS; reflexivity|exact I]]]]]; intros [H|[H|[H|[H|[H|[]]]]]]; discriminate|].
  split; [now (right; right; right; left)|]. split; [repeat constructor|]. split; [split; [lia|split; [intros v []|exact I]]|]. split; [constructor; [split; [cbn [length]; intros H; discriminate H|repeat constructor]|constructor; [split; [cbn [length]; intros H; discriminate H|constructor; [split; [|exact I]; split; [apply N; reflexivity|split; [apply NS; reflexivity|exact I]]|repeat constructor]]|constructor]]|].
  split; [split; [apply N; reflexivity|split; [intros v []|split; [exact I|split; [|exact I]; split; [apply N; reflexivity|split; [apply NS; reflexivity|exact I]]]]]|].
  split; [exact I|]. split; [split; [apply N; reflexivity|split; [intros v []|split; [|exact I]; split; [apply N; reflexivity|split; [apply NS; reflexivity|exact I]]]]|].
  split; [exact I|]. split; [lia|split; [intros v []|exact I]].
Qed.
Example sample_page_ok : Forall (piece_ok Str.trim) sample_page /\ apart sample_page /\ flat_map piece_event sample_page = hdoc_events sample_doc.
Proof.
  split; [|split; [vm_compute; tauto|vm_compute; reflexivity]]. unfold sample_page.
  apply Forall_cons; [repeat split|]. apply Forall_cons; [repeat split; discriminate|]. apply Forall_cons.
  - split; [reflexivity|]. intros a b E. apply comment_once in E; [exact E|vm_compute; reflexivity].
  - vm_compute flat_map. repeat (apply Forall_cons; [cbn [piece_ok fst snd]; repeat split; try discriminate; try (repeat constructor; cbn; try discriminate; try reflexivity)|]). apply Forall_nil.
Qed.
Example sample_slides :
  page (write_html sample_page) = Some (Some [("Plan & **A**", ["see" ++ nl ++ "here"; "one"; "two"; "**Sub**"], Some "remember this too"); ("Code", ["[Image: pic]"], None); ("End", [], None)]).
Proof. vm_compute. reflexivity. Qed.
Example trim_part : forall s, exists a b, s = a ++ Str.trim s ++ b. Proof. exact trim_within. Qed.
Example alnum_ok : forall c, ascii_char c = true -> ascii_alnum (s1 c) = letter_or_digit c. Proof. reflexivity. Qed.
Example lower_ok : forall n, sforall name_letter n = true -> lowercase n = n. Proof. exact lowercase_name. Qed.

(** What is lost or garbled, and what stops the program. *)
Theorem C33_skipped_void_refuted : page "<form><input></form><h1>T</h1><p>text</p>" = Some None /\ page "<h1>T</h1><nav><img src='logo.png'></nav><p>text</p>" = Some (Some [("T", [], None)]).
Proof. exact void_in_skipped. Qed.
Print Assumptions C33_skipped_void_refuted.
Theorem C33_script_refuted : page "<h1>T</h1><script>if (a<b) f()</script><p>text</p>" = Some (Some [("T", [], None)]).
Proof. exact script_less. Qed.
Print Assumptions C33_script_refuted.
Theorem C33_inline_space_refuted : page "<h1>T</h1><p><b>a</b> <i>b</i></p>" = Some (Some [("T", ["**a***b*"], None)]).
Proof. exact inline_space. Qed.
Print Assumptions C33_inline_space_refuted.
Theorem C33_bold_cell_refuted : page "<h1>T</h1><table><tr><td><b>k</b></td></tr></table><p>next</p>" = Some (Some [("T", ["****next"], None)])
  /\ page "<h1>T</h1><blockquote>q <b>k</b></blockquote><p>next</p>" = Some (Some [("T", ["****next"], Some "q k")]).
Proof. exact bold_cell. Qed.
Print Assumptions C33_bold_cell_refuted.
Theorem C33_nested_list_refuted : page "<ul><li>x</li><li>a<ul><li>b</li></ul></li><li>c</li></ul>" = Some (Some [("Key Points", ["ab"; "c"], None)]).
Proof. exact nested_lists. Qed.
Print Assumptions C33_nested_list_refuted.
Theorem C33_limit_refuted : read_page (HtmlIn 50 0 true true true) "<p>text</p>" = Some (Some [("Overview", ["text"], None)])
  /\ read_page (HtmlIn 50 1 true true true) "<h1>T</h1><h2>a</h2><h2>b</h2><h3>c</h3>" = Some (Some [("T", ["**a**"; "**b**"; "**c**"], None)]).
Proof. exact limit_lines. Qed.
Print Assumptions C33_limit_refuted.
Theorem C33_paragraphs_refuted : page "<h1>T</h1><blockquote><p>a</p><p>b</p></blockquote><p>x<p>y" = Some (Some [("T", ["xy"], Some "ab")]).
Proof. exact run_together. Qed.
Print Assumptions C33_paragraphs_refuted.
Theorem C33_entity_refuted : page "<p>caf&eacute; &copy;</p>" = Some (Some [("Overview", ["caf&eacute; &copy;"], None)]).
Proof. exact other_entity. Qed.
Print Assumptions C33_entity_refuted.
Theorem C33_panic_refuted : parse_html Str.trim lowercase (fun s => s) ascii_alnum (fun _ => None) (fun _ => None) html_in_default (chars ("<p style=""" ++ torn_color ++ """>x</p>")) = Some Panic.
Proof. exact (proj2 color_panics). Qed.
Print Assumptions C33_panic_refuted.
Theorem C33_exported_refuted : page (export_to_html html_default (deck "D" [talk1; talk1])) = Some None.
Proof. exact exported_page. Qed.
Print Assumptions C33_exported_refuted.
