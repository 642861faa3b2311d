(** HTML pages whose text the importer loses or garbles. *)
From Coq Require Import String Ascii List Bool Arith NArith ZArith.
From Verif Require Import Str Num ColorModel TableModel ConnectorModel ShapeModel SlideModel MdParseModel HtmlInModel HtmlInSpec ExportModel DeckRefute ExportRefute.
Import ListNotations.
Open Scope nat_scope.
Open Scope string_scope.

(** Titles, lines and notes read from a page in ASCII, where no picture can be
    loaded; the outer [None] is a panic, the inner one an error. *)
Definition ascii_alnum (c : string) : bool := match c with String a "" => letter_or_digit a | _ => false end.
Definition read_page (o : html_in) (h : string) : option (option (list (string * list string * option string))) :=
  match parse_html Str.trim lowercase (fun s => s) ascii_alnum (fun _ => None) (fun _ => None) o (chars h) with
  | Some (Ret l) => Some (option_map (map (fun s => (s_title s, s_content s, s_notes s))) l)
  | _ => None
  end.
Notation page := (read_page html_in_default).
(** A form field, or a picture in a navigation bar: the rest of the page is lost. *)
Lemma void_in_skipped : page "<form><input></form><h1>T</h1><p>text</p>" = Some None /\ page "<h1>T</h1><nav><img src='logo.png'></nav><p>text</p>" = Some (Some [("T", [], None)]).
Proof. split; vm_compute; reflexivity. Qed.
(** A comparison in a script: the rest of the page is lost. *)
Lemma script_less : page "<h1>T</h1><script>if (a<b) f()</script><p>text</p>" = Some (Some [("T", [], None)]).
Proof. vm_compute. reflexivity. Qed.
(** White space between inline elements. *)
Lemma inline_space : page "<h1>T</h1><p><b>a</b> <i>b</i></p>" = Some (Some [("T", ["**a***b*"], None)]).
Proof. vm_compute. reflexivity. Qed.
(** Bold text in a table or a quotation marks the next paragraph. *)
Lemma bold_cell : page "<h1>T</h1><table><tr><td><b>k</b></td></tr></table><p>next</p>" = Some (Some [("T", ["****next"], None)])
  /\ page "<h1>T</h1><blockquote>q <b>k</b></blockquote><p>next</p>" = Some (Some [("T", ["****next"], Some "q k")]).
Proof. split; vm_compute; reflexivity. Qed.
(** A list in a list: the items before it are lost, its first is run into the one around. *)
Lemma nested_lists : page "<ul><li>x</li><li>a<ul><li>b</li></ul></li><li>c</li></ul>" = Some (Some [("Key Points", ["ab"; "c"], None)]).
Proof. vm_compute. reflexivity. Qed.
(** The limit of lines: a slide opened by a paragraph has one even if none is
    allowed, and sub-headings are not counted out. *)
Lemma limit_lines : read_page (HtmlIn 50 0 true true true) "<p>text</p>" = Some (Some [("Overview", ["text"], None)])
  /\ read_page (HtmlIn 50 1 true true true) "<h1>T</h1><h2>a</h2><h2>b</h2><h3>c</h3>" = Some (Some [("T", ["**a**"; "**b**"; "**c**"], None)]).
Proof. split; vm_compute; reflexivity. Qed.
(** Two paragraphs of a quotation; paragraphs without end tags. *)
Lemma run_together : page "<h1>T</h1><blockquote><p>a</p><p>b</p></blockquote><p>x<p>y" = Some (Some [("T", ["xy"], Some "ab")]).
Proof. vm_compute. reflexivity. Qed.
(** Named entities other than the five of XML and the no-break space. *)
Lemma other_entity : page "<p>caf&eacute; &copy;</p>" = Some (Some [("Overview", ["caf&eacute; &copy;"], None)]).
Proof. vm_compute. reflexivity. Qed.
(** A colour of eight bytes whose sixth is within a character stops the program. *)
Definition torn_color : string := "color:#aaaaa" ++ String "195" (String "169" "a").
Lemma color_panics : page ("<h1>T</h1><p style=""" ++ torn_color ++ """>x</p>") = None
  /\ parse_html Str.trim lowercase (fun s => s) ascii_alnum (fun _ => None) (fun _ => None) html_in_default (chars ("<p style=""" ++ torn_color ++ """>x</p>")) = Some Panic.
Proof. split; vm_compute; reflexivity. Qed.
(** The library's own HTML export. *)
Lemma exported_page : page (export_to_html html_default (deck "D" [talk1; talk1])) = Some None.
Proof. vm_compute. reflexivity. Qed.
