(** C34, C35: exports to markdown and HTML. *)
From Coq Require Import String Ascii List Bool Arith NArith ZArith.
From Verif Require Import Str EscapeModel EscapeSpec EscapeProofs TableModel ShapeModel SlideModel DeckModel ExportModel MdSpec MdWant MdProofs HtmlSpec HtmlWant HtmlProofs ExportRefute.
Import ListNotations.
Open Scope nat_scope.
Open Scope string_scope.

(** C34: undoing the backslash escapes gives the text back, and no character of
    the escaped text can start markup. *)
Theorem C34_roundtrip s : md_unescape ascii_punct (escape_markdown s) = s.
Proof. exact (escape_markdown_roundtrip s). Qed.
Print Assumptions C34_roundtrip.
Theorem C34_inert s : md_inert (escape_markdown s) = true.
Proof. exact (escape_markdown_inert s). Qed.
Print Assumptions C34_inert.
Example C34_roundtrip_case : escape_markdown "a*b\_[c]`#<>" = "a\*b\\\_\[c\]\`\#\<\>".
Proof. reflexivity. Qed.

(** C34: the exported document, read line by line, is the presentation. *)
Theorem C34_document o p : sep_ok o = true -> title_ok (p_title p) = true -> forallb md_slide_ok (p_slides p) = true ->
  exists body, export_to_markdown o p = (if mo_front o then md_front (p_title p) (length (p_slides p)) else "") ++ body
    /\ read_md body = want_doc o (p_title p) (p_slides p).
Proof. intros A B C. exact (ex_intro _ _ (conj (md_export o p) (reads_body o _ _ A B C))). Qed.
Print Assumptions C34_document.
Example C34_document_case : sep_ok md_default = true /\ title_ok "My talk" = true /\ forallb md_slide_ok [talk1; talk1] = true
  /\ want_doc bare "My talk" [talk1] = [Heading 1 (Plain "My talk"); Heading 2 (Plain "A *star* and more"); Item (Plain "one [link]"); Item (Plain "two <b>"); Item (Plain "");
       Row [Plain "h_1"; Plain "h2"]; Row [Plain "---"; Plain "---"]; Row [Plain "x"; Plain "# y"]; Line "![Image 1 on slide 1](images/slide1_image1.png)"; Line "![Image 2 on slide 1](images/slide1_image2.jpg)";
       Fenced "rust" ["let x = 1 < 2;"; "x"]; Line "**Notes:**"; Quote (Plain "say `this`")].
Proof. repeat split. Qed.
(** C34: the header of the document gives the title and the number of slides. *)
Theorem C34_front title n : sforall (fun c => negb (Ascii.eqb c "010" || Ascii.eqb c "034" || Ascii.eqb c "\")) title = true ->
  md_front title n = "---
title: """ ++ title ++ """
slides: " ++ decn n ++ "
generator: ppt-rs
---

".
Proof. intros H. unfold md_front. rewrite (yaml_plain title H). reflexivity. Qed.
Print Assumptions C34_front.
Example C34_front_case : md_front "My talk" 2 = "---
title: ""My talk""
slides: 2
generator: ppt-rs
---

".
Proof. reflexivity. Qed.

(** Outside: the title of the presentation is not escaped. *)
Theorem C34_title_refuted : exists o p, forallb md_slide_ok (p_slides p) = true /\ mo_front o = false /\ In (Heading 1 (Marked "*x*")) (read_md (export_to_markdown o p)).
Proof. exists bare, (deck "*x*" []). repeat split. now left. Qed.
Print Assumptions C34_title_refuted.
(** A title with a quote breaks the header. *)
Theorem C34_yaml_refuted : exists title n, nth_error (split_char "010" (md_front title n)) 1 = Some "title: ""|".
Proof. exists "a ""b""", 1. reflexivity. Qed.
Print Assumptions C34_yaml_refuted.
(** A bar in a table cell makes two cells. *)
Theorem C34_bar_refuted : exists p, read_md (export_to_markdown bare p) = [Heading 1 (Plain "T"); Heading 2 (Plain "s"); Row [Plain "a"; Plain "b"]; Row [Plain "---"]]
  /\ p_slides p = [talk "s" [] (Some (grid [["a | b"]])) [] [] None].
Proof. exists (deck "T" [talk "s" [] (Some (grid [["a | b"]])) [] [] None]). split; reflexivity. Qed.
Print Assumptions C34_bar_refuted.
(** A bullet of two lines becomes two blocks, and one that starts with a dash a
    nested list. *)
Theorem C34_lines_refuted : exists p, read_md (export_to_markdown bare p) = [Heading 1 (Plain "T"); Heading 2 (Plain "s"); Item (Plain "a"); Item (Plain "b"); Item (Marked "- c")]
  /\ p_slides p = [talk "s" ["a
- b"; "- c"] None [] [] None].
Proof. eexists (deck "T" [_]). split; [|reflexivity]. reflexivity. Qed.
Print Assumptions C34_lines_refuted.
(** A character reference in a bullet is not escaped. *)
Theorem C34_reference_refuted : exists p, read_md (export_to_markdown bare p) = [Heading 1 (Plain "T"); Heading 2 (Plain "s"); Item (Marked "&lt;")]
  /\ p_slides p = [talk "s" ["&lt;"] None [] [] None].
Proof. eexists (deck "T" [_]). split; [|reflexivity]. reflexivity. Qed.
Print Assumptions C34_reference_refuted.
(** Code that contains a fence leaves the code block. *)
Theorem C34_fence_refuted : exists p, In (Heading 1 (Plain "out")) (read_md (export_to_markdown bare p)) /\ p_slides p = [talk "s" [] None [] [Code "```
# out" "x" 0 0 1 1] None].
Proof. eexists (deck "T" [_]). split; [|reflexivity]. right. right. right. now left. Qed.
Print Assumptions C34_fence_refuted.
(** The name of an image of another format has no dot. *)
Theorem C34_image_refuted : exists p, In (Line "![Image 1 on slide 1](images/slide1_image1gif)") (read_md (export_to_markdown bare p)) /\ p_slides p = [talk "s" [] None [shot "GIF"] [] None].
Proof. eexists (deck "T" [_]). split; [|reflexivity]. right. right. now left. Qed.
Print Assumptions C34_image_refuted.

(** C35: the exported page, read as tags and texts, is the presentation; code
    and notes may be any text. *)
Theorem C35_document o p : html_dir_ok o = true -> html_plain (p_title p) = true -> forallb (html_slide_ok o) (p_slides p) = true ->
  html_read (export_to_html o p) = Some (want_html o (p_title p) (p_slides p)).
Proof. exact (html_doc o p). Qed.
Print Assumptions C35_document.
Definition page0 : slide := talk "Title" ["one"; "two"] (Some (grid [["a"]])) [shot "PNG"] [Code "</code><script>alert('x' && y)</script>" "js" 0 0 1 1] (Some "</div><img onerror=""z"">").
Example C35_document_case : forallb (html_slide_ok html_default) [page0; page0] = true /\ html_plain "My talk" = true
  /\ want_page (HtmlOptions true false false true None) (1, page0) =
     [Tag "div class=""slide"" id=""slide-1"" data-slide=""1"""; Tag "div class=""slide-number"""; Text "1"; Tag "/div"; Tag "h2"; Text "Title"; Tag "/h2"; Tag "div class=""content""";
      Tag "ul"; Tag "li"; Text "one"; Tag "/li"; Tag "li"; Text "two"; Tag "/li"; Tag "/ul";
      Tag "table class=""ppt-table"""; Tag "tbody"; Tag "tr"; Tag "td"; Text "Table content"; Tag "/td"; Tag "/tr"; Tag "/tbody"; Tag "/table";
      Tag "div class=""image-container"""; Tag "img src=""slide_img_a.PNG"" alt=""a"" /"; Tag "/div";
      Tag "pre"; Tag "code"; Text "</code><script>alert('x' && y)</script>"; Tag "/code"; Tag "/pre";
      Tag "div class=""speaker-notes"""; Tag "strong"; Text "Notes:"; Tag "/strong"; Text " </div><img onerror=""z"">"; Tag "/div"; Tag "/div"; Tag "/div"].
Proof. repeat split. Qed.
(** C35: escaped text has no markup characters and stands for the original. *)
Theorem C35_escaped s c : HtmlDecodes (escape_html s) s /\ (c = "<"%char \/ c = ">"%char \/ c = """"%char \/ c = "'"%char -> ~ occurs c (escape_html s)).
Proof. exact (conj (escape_html_Decodes s) (HtmlDecodes_clean _ _ c (escape_html_Decodes s))). Qed.
Print Assumptions C35_escaped.
(** Outside: titles, bullets, languages and file names are not escaped. *)
Theorem C35_unescaped_refuted : exists o p, ho_nav o = false /\ ~ In (Tag "script") (want_html o (p_title p) (p_slides p))
  /\ exists l, html_read (export_to_html o p) = Some l /\ length (filter (fun t => match t with Tag "script" => true | _ => false end) l) = 3.
Proof.
  exists (HtmlOptions false false true true None), (deck "<script></script>" [talk "<script></script>" ["<b></b>"] None [] [] None]). split; [reflexivity|]. split.
  - vm_compute. intuition discriminate.
  - eexists. split; vm_compute; reflexivity.
Qed.
Print Assumptions C35_unescaped_refuted.
(** The cells of a table are not exported. *)
Theorem C35_table_refuted : exists o p q, s_table p <> s_table q /\ html_slide o 1 p = html_slide o 1 q.
Proof. exists html_default, (talk "a" [] (Some (grid [["x"]])) [] [] None), (talk "a" [] (Some (grid [["y"; "z"]; []])) [] [] None). split; [discriminate|reflexivity]. Qed.
Print Assumptions C35_table_refuted.
