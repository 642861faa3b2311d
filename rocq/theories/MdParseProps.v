(** C32: the slides a markdown document gives. *)
From Coq Require Import String Ascii List Bool Arith NArith ZArith.
From Verif Require Import Str Num ColorModel TableModel ConnectorModel ShapeModel SlideModel ValidSpec MdParseModel MdParseSpec MdParseProofs MdParseMore MdParseRefute.
Import ListNotations.
Open Scope nat_scope.
Open Scope string_scope.

(** Parsing the events of a document gives exactly the slides of the document:
    every level-1 heading begins a slide, a rule begins a continuation, and what
    is between goes onto the slide in order. *)
Theorem C32_deck : forall trim load_image diagram fit (d : list md_block), Forall plain_block d ->
  parse trim load_image diagram fit (flat_map block_events d) = Ret (match deck trim load_image diagram fit d with [] => None | l => Some l end).
Proof. exact parse_deck. Qed.
Print Assumptions C32_deck.
(** For a document that begins with a level-1 heading: the titles of the slides
    are the texts of these headings in order, each followed by a continuation for
    every rule after it; and the lines of the slides, taken together, are exactly
    the sub-headings, paragraphs and list items of the document, in order. *)
Theorem C32_titles : forall trim load_image diagram fit x (d : list md_block), Forall plain_block (Heading 1 x :: d) ->
  exists slides, parse trim load_image diagram fit (flat_map block_events (Heading 1 x :: d)) = Ret (Some slides)
  /\ map s_title slides = (reads trim x :: titles_after trim (reads trim x) d)%list
  /\ (~ In HorizontalRule d -> map s_title slides = titles_of trim (Heading 1 x :: d))
  /\ flat_map s_content slides = lines_of trim d.
Proof.
  intros trim load_image diagram fit x d F. exists (deck trim load_image diagram fit (Heading 1 x :: d)). rewrite parse_deck by exact F. split; [now rewrite begins_with|]. split; [apply deck_titles|]. split; [|apply deck_lines].
  intros NR. rewrite deck_titles, no_rules by exact NR. reflexivity.
Qed.
Print Assumptions C32_titles.
(** Parsing fails exactly when there is no level-1 heading and nothing that can
    open a slide. *)
Theorem C32_failure : forall trim load_image diagram fit (d : list md_block), Forall plain_block d ->
  (parse trim load_image diagram fit (flat_map block_events d) = Ret None <->
   forall b, In b d -> (forall x, b <> Heading 1 x) /\ forall e, In e (elements trim b) -> opens diagram e = None).
Proof.
  intros trim load_image diagram fit d F. rewrite parse_deck by exact F. rewrite <- (deck_empty trim load_image diagram fit d). split.
  - intros H. destruct (deck trim load_image diagram fit d); [reflexivity|discriminate].
  - now intros ->.
Qed.
Print Assumptions C32_failure.
(** Every stream of events, also those of documents with nested blocks: what comes
    later never changes the slides before the last one. *)
Theorem C32_prefix : forall trim load_image diagram fit l1 l2 a b out,
  parse trim load_image diagram fit l1 = Ret (Some (a ++ [b])%list) -> parse trim load_image diagram fit (l1 ++ l2) = Ret (Some out) -> exists more, out = (a ++ more)%list.
Proof. exact parse_prefix. Qed.
Print Assumptions C32_prefix.
(** Every stream of events whose HTML is in order is parsed without a panic. *)
Theorem C32_no_panic : forall trim load_image diagram fit l,
  (N.of_nat (length l) <= u32_max)%N -> (forall h, In (InlineHtml h) l -> orderly_html h) -> parse trim load_image diagram fit l <> Panic.
Proof. exact parse_no_panic. Qed.
Print Assumptions C32_no_panic.

(** A document with every kind of block. *)
Definition sample_md : list md_block :=
  [Heading 1 (ISeq (IText "Plan ") (IStrong (IText "A"))); Paragraph (ISeq (IText "see ") (ILink (IText "here")));
   FlatList false [IText "one"; IText ""; ISeq (IText "two ") (ISeq (ICode "x") (IImage "p.png" "pic" (IText "alt")))];
   Heading 2 (IText "Sub"); Grid [IText "k"; IText "v"] [[IText "a"; IEmphasis (IText "1")]];
   HorizontalRule; Listing (Some "rust") ["fn main()"]; Quote (IText "remember");
   Heading 1 (IText "End"); FlatList true [IText "last"]].
Example sample_plain : Forall plain_block sample_md.
Proof. unfold sample_md. repeat constructor; cbn; try discriminate. Qed.
Example sample_slides :
  option_map (map (fun s => (s_title s, s_content s, s_notes s))) (match parse (Str.trim) (fun _ => None) (fun _ => ([], [], "D")) (fun _ => 10%N) (flat_map block_events sample_md) with Ret o => o | Panic => None end)
  = Some [("Plan **A**", ["see here"; "one"; "two `x`alt"; "**Sub**"], None); ("Plan **A** (continued)", [], Some "remember"); ("End", ["last"], None)].
Proof. vm_compute. reflexivity. Qed.
Example sample_fails : parse (Str.trim) (fun _ => None) (fun _ => ([], [], "D")) (fun _ => 10%N) (flat_map block_events [Heading 2 (IText "only"); HorizontalRule; Quote (IText "q")]) = Ret None.
Proof. vm_compute. reflexivity. Qed.
Example html_in_order : orderly_html "<mark>x</mark>".
Proof.
  intros a b E. destruct (ValidProofs.prefix_cases "<mark>" a ("</" ++ b) "x</mark>" (eq_sym E)) as [(u & ->)|(u & P & NE & T)].
  - exists "<mark", u. reflexivity.
  - exfalso. do 6 (destruct a as [|? a]; [cbn in P; subst u; cbn in T; congruence|]; cbn in P; assert (P2 := f_equal (fun s => match s with String _ r => r | EmptyString => s end) P); cbn in P2; clear P; rename P2 into P). destruct a; cbn in P; congruence.
Qed.

(** What is lost or garbled, and what stops the program. *)
Theorem C32_nested_list_refuted : shown nested_events = Ret (Some [("T", ["b"], None)]).
Proof. exact nested_list_refuted. Qed.
Print Assumptions C32_nested_list_refuted.
Theorem C32_paragraphs_refuted :
  shown (h1 ++ [StartList; StartItem] ++ para "one" ++ para "two" ++ [EndItem; EndList] ++ [StartQuote] ++ para "red" ++ para "blue" ++ [EndQuote])%list
  = Ret (Some [("T", ["onetwo"], Some "redblue")]).
Proof. exact item_paragraphs_refuted. Qed.
Print Assumptions C32_paragraphs_refuted.
Theorem C32_bold_refuted :
  shown (h1 ++ [StartParagraph; StartStrong; Text "a"; Break; Text "b"; EndStrong; EndParagraph])%list = Ret (Some [("T", ["**a**** ****b**"], None)])
  /\ shown (h1 ++ [StartParagraph; StartStrong; Text "a"; StartStrong; Text "b"; EndStrong; Text "c"; EndStrong; EndParagraph])%list = Ret (Some [("T", ["**a****b**c"], None)]).
Proof. exact (conj bold_break_refuted nested_bold_refuted). Qed.
Print Assumptions C32_bold_refuted.
(** Text struck out within bold text is not struck out on the slide. *)
Theorem C32_struck_refuted :
  shown (h1 ++ [StartParagraph; StartStrong; StartStrike; Text "a"; EndStrike; EndStrong; EndParagraph])%list
  = shown (h1 ++ [StartParagraph; StartStrong; Text "a"; EndStrong; EndParagraph])%list
  /\ shown (h1 ++ [StartParagraph; StartStrike; Text "a"; EndStrike; EndParagraph])%list = Ret (Some [("T", ["~~a~~"], None)]).
Proof. split; vm_compute; reflexivity. Qed.
Print Assumptions C32_struck_refuted.
Theorem C32_panic_refuted : shown (h1 ++ [StartParagraph; InlineHtml "<!-- </<mark> -->"; EndParagraph])%list = Panic.
Proof. exact html_panic_refuted. Qed.
Print Assumptions C32_panic_refuted.
Theorem C32_headings_refuted :
  shown ([StartHeading 2; Text "early"; EndHeading 2] ++ h1)%list = Ret (Some [("T", [], None)])
  /\ shown [StartQuote; StartHeading 1; Text "quoted"; EndHeading 1; EndQuote] = Ret (Some [("", [], Some "quoted")])
  /\ shown (h1 ++ [Rule] ++ h1)%list = Ret (Some [("T", [], None); ("T (continued)", [], None); ("T", [], None)])
  /\ (forall l, parse (Str.trim) (fun _ => None) (fun _ => ([], [], "Diagram")) (fun _ => 10%N) [StartHeading 1; Text "T"; StartImage "u" "t"; Text "alt"; EndImage; EndHeading 1] = Ret (Some l) -> flat_map s_shapes l = []).
Proof. exact (conj early_heading_refuted (conj quoted_heading_refuted (conj rule_heading_refuted (proj2 heading_image_refuted)))). Qed.
Print Assumptions C32_headings_refuted.
Theorem C32_two_tables_refuted :
  let table t := [StartTable; StartHead; StartCell; Text t; EndCell; EndHead; EndTable] in
  parse (Str.trim) (fun _ => None) (fun _ => ([], [], "Diagram")) (fun _ => 10%N) (h1 ++ table "first" ++ table "second")%list
  = parse (Str.trim) (fun _ => None) (fun _ => ([], [], "Diagram")) (fun _ => 10%N) (h1 ++ table "second")%list.
Proof. exact two_tables_refuted. Qed.
Print Assumptions C32_two_tables_refuted.
Theorem C32_links_refuted : forall d,
  let plain := (h1 ++ [StartList; StartItem; Text "done"; EndItem; EndList; StartParagraph; Text "here"; EndParagraph])%list in
  shown ((h1 ++ [StartList; StartItem; Other; Text "done"; EndItem; EndList; StartParagraph; Other; Text "here"; Other; EndParagraph]) ++ d)%list = shown (plain ++ d)%list.
Proof. exact link_task_refuted. Qed.
Print Assumptions C32_links_refuted.
