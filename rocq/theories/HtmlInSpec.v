(** HTML documents and the slides they stand for. *)
From Coq Require Import String Ascii List Bool Arith NArith ZArith.
From Verif Require Import Str Num ColorModel TableModel ConnectorModel ShapeModel SlideModel MdParseModel HtmlInModel.
Import ListNotations.
Open Scope nat_scope.
Open Scope string_scope.

(** Text in ASCII. *)
Definition ascii_char (c : ascii) : bool := (N_of_ascii c <? 128)%N.
Definition ascii_text (s : string) : bool := sforall ascii_char s.

(** ** Documents *)
(** Text within a block.  [HIn]: any other inline element, such as a link. *)
Inductive hinline :=
  | HNone | HSeq (a b : hinline)
  | HText (s : string) | HBreak
  | HBold (short : bool) (x : hinline) | HItalic (short : bool) (x : hinline)
  | HIn (tag : string) (attrs : list (string * string)) (x : hinline).
(** Documents.  [DIn]: a container, such as the body or a division. *)
Inductive hdoc :=
  | DNone | DSeq (a b : hdoc) | DIn (tag : string) (attrs : list (string * string)) (d : hdoc)
  | DHeading (level : nat) (attrs : list (string * string)) (x : hinline)
  | DPara (tag : string) (attrs : list (string * string)) (x : hinline)
  | DList (ordered : bool) (items : list hinline)
  | DTable (rows : list (list (bool * hinline)))
  | DPre (x : hinline)
  | DQuote (x : hinline)
  | DImage (src alt : string)
  | DSkip (tag : string) (s : string)
  | DRule.
Definition heading_tag (level : nat) : string := "h" ++ dec (N.of_nat level).
Definition html_element (tag : string) (attrs : list (string * string)) (l : list tag_event) : list tag_event := (Open tag attrs :: l ++ [Close tag])%list.
Fixpoint hinline_events (x : hinline) : list tag_event :=
  match x with
  | HNone => [] | HSeq a b => (hinline_events a ++ hinline_events b)%list
  | HText s => [Chars s] | HBreak => [Open "br" []]
  | HBold short x => html_element (if short then "b" else "strong") [] (hinline_events x)
  | HItalic short x => html_element (if short then "i" else "em") [] (hinline_events x)
  | HIn tag attrs x => html_element tag attrs (hinline_events x)
  end.
Fixpoint hdoc_events (d : hdoc) : list tag_event :=
  match d with
  | DNone => [] | DSeq a b => (hdoc_events a ++ hdoc_events b)%list
  | DIn tag attrs d => html_element tag attrs (hdoc_events d)
  | DHeading n attrs x => html_element (heading_tag n) attrs (hinline_events x)
  | DPara tag attrs x => html_element tag attrs (hinline_events x)
  | DList ordered xs => html_element (if ordered then "ol" else "ul") [] (flat_map (fun x => html_element "li" [] (hinline_events x)) xs)
  | DTable rows => html_element "table" [] (flat_map (fun r => html_element "tr" [] (flat_map (fun c : bool * hinline => html_element (if fst c then "th" else "td") [] (hinline_events (snd c))) r)) rows)
  | DPre x => html_element "pre" [] (hinline_events x)
  | DQuote x => html_element "blockquote" [] (hinline_events x)
  | DImage src alt => [Open "img" [("src", src); ("alt", alt)]]
  | DSkip tag s => html_element tag [] [Chars s]
  | DRule => [Open "hr" []]
  end.

(** ** What they say *)
Fixpoint hsays (x : hinline) : string :=
  match x with
  | HNone => "" | HSeq a b => hsays a ++ hsays b
  | HText s => s | HBreak => nl
  | HBold _ x => "**" ++ hsays x ++ "**" | HItalic _ x => "*" ++ hsays x ++ "*"
  | HIn _ _ x => hsays x
  end.
(** Elements with a meaning of their own. *)
Definition SPECIAL : list string := (SKIP_TAGS ++ VOID_TAGS ++ ["h1"; "h2"; "h3"; "h4"; "h5"; "h6"; "pre"; "table"; "blockquote"; "ul"; "ol"; "li"; "th"; "td"; "tr"; "strong"; "b"; "em"; "i"])%list.
Definition BLOCKS : list string := ["p"; "div"; "article"; "section"; "main"].
Definition neutral (tag : string) : Prop := ~ In tag SPECIAL.
Definition no_style (attrs : list (string * string)) : Prop := forall v, ~ In ("style", v) attrs.
Fixpoint inline_ok (x : hinline) : Prop :=
  match x with
  | HSeq a b => inline_ok a /\ inline_ok b
  | HBold _ x | HItalic _ x => inline_ok x
  | HIn tag attrs x => neutral tag /\ ~ In tag BLOCKS /\ no_style attrs /\ inline_ok x
  | _ => True
  end.
(** Text without line breaks and marks, in any other elements: what a cell of a
    table, a listing or a quotation can hold. *)
Fixpoint bare (x : hinline) : Prop :=
  match x with
  | HSeq a b => bare a /\ bare b
  | HBold _ _ | HItalic _ _ | HBreak => False
  | HIn tag attrs x => neutral tag /\ no_style attrs /\ bare x
  | _ => True
  end.
Fixpoint hdoc_ok (d : hdoc) : Prop :=
  match d with
  | DSeq a b => hdoc_ok a /\ hdoc_ok b
  | DIn tag attrs d => neutral tag /\ no_style attrs /\ hdoc_ok d
  | DHeading n attrs x => 1 <= n <= 6 /\ no_style attrs /\ inline_ok x
  | DPara tag attrs x => In tag BLOCKS /\ no_style attrs /\ inline_ok x
  | DList _ xs => Forall inline_ok xs
  | DTable rows => Forall (fun r => (N.of_nat (length r) <= u32_max)%N /\ Forall (fun c => bare (snd c)) r) rows
  | DPre x | DQuote x => bare x
  | DSkip tag _ => In tag SKIP_TAGS
  | _ => True
  end.

(** ** Slides *)
(** What the blocks of a document are to a deck. *)
Inductive item :=
  | Title (t : string) | Cut
  | Para (t : string) | Items (ts : list string) | Sub (t : string)
  | Cells (rows : list (list string)) | Listing (code : string) | Pict (i : image) | Note (t : string).
Section Deck.
Context (trim : string -> string) (load_image : string -> option image) (options : html_in).
Definition hreads (x : hinline) : string := trim (hsays x).
Definition filled (s : string) : bool := negb (String.eqb s "").
Definition nonempty {A} (l : list A) : bool := match l with [] => false | _ => true end.
Fixpoint content (d : hdoc) : list item :=
  match d with
  | DNone => [] | DSeq a b => (content a ++ content b)%list | DIn _ _ d => content d
  | DHeading 1 _ x => [Title (hreads x)]
  | DHeading _ _ x => if filled (hreads x) then [Sub (hreads x)] else []
  | DPara _ _ x => if filled (hreads x) then [Para (hreads x)] else []
  | DList _ xs => match filter filled (map hreads xs) with [] => [] | ts => [Items ts] end
  | DTable rows =>
      match filter nonempty (map (map (fun c => hreads (snd c))) rows) with
      | [] => [] | rs => if with_tables options then [Cells rs] else []
      end
  | DPre x => if filled (hsays x) && with_codes options then [Listing (hreads x)] else []
  | DQuote x => if filled (hreads x) then [Note (hreads x)] else []
  | DImage src alt =>
      if filled src && with_images options
      then [match load_image src with Some i => Pict i | None => Para ("[Image: " ++ (if filled alt then alt else src) ++ "]") end]
      else []
  | DSkip _ _ => []
  | DRule => [Cut]
  end.
(** The part before the first title or cut, and the parts that each of these
    begins. *)
Fixpoint parts_of (l : list item) : list item * list (option string * list item) :=
  match l with
  | [] => ([], [])
  | e :: l =>
      let '(els, ps) := parts_of l in
      match e with Title t => ([], (Some t, els) :: ps) | Cut => ([], (None, els) :: ps) | _ => (e :: els, ps) end
  end.
(** The lines of a slide: a paragraph or an item of a list only while there are
    fewer than the limit, a sub-heading always. *)
Definition fits (ls : list string) (t : string) : list string := if Nat.ltb (length ls) (max_bullets options) then (ls ++ [t])%list else ls.
Definition more_lines (ls : list string) (e : item) : list string :=
  match e with Para t => fits ls t | Items ts => fold_left fits ts ls | Sub t => app ls ["**" ++ t ++ "**"] | _ => ls end.
Definition last_table (els : list item) : option table :=
  fold_left (fun t e => match e with Cells rs => match table_from_string_rows rs true with Ret t => Some t | Panic => None end | _ => t end) els None.
Definition last_note (els : list item) : option string := fold_left (fun n e => match e with Note t => Some t | _ => n end) els None.
Definition listings (els : list item) : list code_block := flat_map (fun e => match e with Listing c => [Code c "text" 500000 1800000 8000000 4000000] | _ => [] end) els.
Definition picts (els : list item) : list image := flat_map (fun e => match e with Pict i => [i] | _ => [] end) els.
Definition html_slide (title : string) (ls : list string) (els : list item) : slide :=
  Slide title ls (map (fun t => BulletPoint t 0 Bullet None) ls) Bullet (Some 44%N) (Some 28%N) true false false false false None None TitleAndContent NoTransition
    (last_table els) [] (picts els) (last_note els) [] [] (listings els) false.
(** A part without a title is named by the first thing that can open a slide: a
    paragraph (which always fits) or a list by the first title of the document
    that is not empty; what is before that is passed over. *)
Fixpoint untitled_part (doc_title : option string) (els : list item) : list slide :=
  match els with
  | [] => []
  | e :: l =>
      match e with
      | Para t => [html_slide (or_else doc_title "Overview") (fold_left more_lines l [t]) els]
      | Items _ => [html_slide (or_else doc_title "Key Points") (fold_left more_lines els []) els]
      | Sub _ => [html_slide "Slide" (fold_left more_lines els []) els]
      | Cells _ => [html_slide "Data Table" (fold_left more_lines els []) els]
      | Listing _ => [html_slide "Code" (fold_left more_lines els []) els]
      | Pict _ => [html_slide "Image" (fold_left more_lines els []) els]
      | _ => untitled_part doc_title l
      end
  end.
Fixpoint part_slides (doc_title : option string) (ps : list (option string * list item)) : list slide :=
  match ps with
  | [] => []
  | (None, els) :: ps => (untitled_part doc_title els ++ part_slides doc_title ps)%list
  | (Some t, els) :: ps =>
      html_slide (if filled t then t else "Slide") (fold_left more_lines els []) els
        :: part_slides (match doc_title with Some _ => doc_title | None => if filled t then Some t else None end) ps
  end.
Definition html_deck (d : hdoc) : list slide := let '(els, ps) := parts_of (content d) in part_slides None ((None, els) :: ps).
(** The titles of the level-1 headings, in order. *)
Fixpoint html_titles (d : hdoc) : list string :=
  match d with
  | DSeq a b => (html_titles a ++ html_titles b)%list | DIn _ _ d => html_titles d
  | DHeading 1 _ x => [if filled (hreads x) then hreads x else "Slide"]
  | _ => []
  end.
End Deck.
Fixpoint no_rules (d : hdoc) : Prop :=
  match d with DSeq a b => no_rules a /\ no_rules b | DIn _ _ d => no_rules d | DRule => False | _ => True end.

(** ** Source text *)
Definition html_char (c : ascii) : string :=
  if Ascii.eqb c "&" then "&amp;" else if Ascii.eqb c "<" then "&lt;" else if Ascii.eqb c ">" then "&gt;" else if Ascii.eqb c """" then "&quot;" else s1 c.
Definition html_text (s : string) : string := smap html_char s.
(** Besides tags and text: white space between tags, comments, declarations. *)
Inductive piece := Tag (name : string) (attrs : list (string * string)) | EndTag (name : string) | Words (t : string) | Gap (s : string) | Comment (s : string) | Declaration (s : string).
Definition write_attr (a : string * string) : string := " " ++ fst a ++ "=""" ++ html_text (snd a) ++ """".
Definition write_piece (p : piece) : string :=
  match p with
  | Tag n attrs => "<" ++ n ++ sconcat (map write_attr attrs) ++ ">"
  | EndTag n => "</" ++ n ++ ">"
  | Words t => html_text t
  | Gap s => s
  | Comment s => "<!--" ++ s ++ "-->"
  | Declaration s => "<!" ++ s ++ ">"
  end.
Definition write_html (l : list piece) : string := sconcat (map write_piece l).
Definition piece_event (p : piece) : list tag_event :=
  match p with Tag n attrs => [Open n attrs] | EndTag n => [Close n] | Words t => [Chars t] | _ => [] end.
Definition name_letter (c : ascii) : bool := let n := N_of_ascii c in ((97 <=? n) && (n <=? 122) || (48 <=? n) && (n <=? 57))%N.
Definition letter_or_digit (c : ascii) : bool := let n := N_of_ascii c in ((97 <=? n) && (n <=? 122) || (65 <=? n) && (n <=? 90) || (48 <=? n) && (n <=? 57))%N.
Definition tag_name (n : string) : Prop := n <> "" /\ sforall name_letter n = true.
(** A text that begins with a whole character. *)
Definition whole (s : string) : bool := match s with String c _ => negb (continues c) | "" => true end.
Definition piece_ok (trim : string -> string) (p : piece) : Prop :=
  match p with
  | Tag n attrs => tag_name n /\ Forall (fun a => tag_name (fst a) /\ whole (snd a) = true) attrs
  | EndTag n => tag_name n
  | Words t => whole t = true /\ trim (html_text t) <> ""
  | Gap s => s <> "" /\ whole s = true /\ sforall (fun c => negb (Ascii.eqb c "<")) s = true /\ trim s = ""
  | Comment s => whole s = true /\ forall a b, s ++ "-->" = a ++ "-->" ++ b -> b = ""
  | Declaration s => whole s = true /\ starts_with "--" s = false /\ sforall (fun c => negb (Ascii.eqb c ">")) s = true
  end.
(** Text and white space are set apart by tags. *)
Definition is_text (p : piece) : bool := match p with Words _ | Gap _ => true | _ => false end.
Fixpoint apart (l : list piece) : Prop :=
  match l with
  | p :: ((q :: _) as r) => (is_text p && is_text q = false) /\ apart r
  | _ => True
  end.
