(** Markdown documents, the events a CommonMark reader gives for them, and the
    slides they stand for. *)
From Coq Require Import String Ascii List Bool Arith NArith ZArith.
From Verif Require Import Str Num ColorModel TableModel ConnectorModel ShapeModel SlideModel ValidSpec MdParseModel.
Import ListNotations.
Open Scope nat_scope.
Open Scope string_scope.

(** ** Documents *)
(** Text within a block. *)
Inductive inl :=
  | INone | ISeq (a b : inl)
  | IText (s : string) | ICode (s : string) | IBreak
  | IStrong (x : inl) | IEmphasis (x : inl) | IStrike (x : inl) | ILink (x : inl)
  | IImage (url title : string) (alt : inl) | IHtml (s : string) | ITaskMarker.
(** Blocks; lists and quotes hold no further blocks. *)
Inductive md_block :=
  | Heading (level : nat) (x : inl)
  | Paragraph (x : inl)
  | FlatList (loose : bool) (xs : list inl)
  | Grid (head : list inl) (rows : list (list inl))
  | Listing (info : option string) (lines : list string)
  | Quote (x : inl)
  | HorizontalRule.

(** ** Their events *)
Fixpoint inl_events (x : inl) : list event :=
  match x with
  | INone => [] | ISeq a b => (inl_events a ++ inl_events b)%list
  | IText s => [Text s] | ICode s => [InlineCode s] | IBreak => [Break]
  | IStrong x => (StartStrong :: inl_events x ++ [EndStrong])%list
  | IEmphasis x => (StartEmphasis :: inl_events x ++ [EndEmphasis])%list
  | IStrike x => (StartStrike :: inl_events x ++ [EndStrike])%list
  | ILink x => (Other :: inl_events x ++ [Other])%list
  | IImage url title alt => (StartImage url title :: inl_events alt ++ [EndImage])%list
  | IHtml s => [InlineHtml s]
  | ITaskMarker => [Other]
  end.
Definition item_events (loose : bool) (x : inl) : list event :=
  (StartItem :: (if loose then StartParagraph :: inl_events x ++ [EndParagraph] else inl_events x) ++ [EndItem])%list.
Definition cell_events (x : inl) : list event := (StartCell :: inl_events x ++ [EndCell])%list.
Definition block_events (b : md_block) : list event :=
  match b with
  | Heading l x => (StartHeading l :: inl_events x ++ [EndHeading l])%list
  | Paragraph x => (StartParagraph :: inl_events x ++ [EndParagraph])%list
  | FlatList loose xs => (StartList :: flat_map (item_events loose) xs ++ [EndList])%list
  | Grid head rows => (StartTable :: (StartHead :: flat_map cell_events head ++ [EndHead]) ++ flat_map (fun r => StartRow :: flat_map cell_events r ++ [EndRow]) rows ++ [EndTable])%list
  | Listing info ls => (StartCode info :: map Text ls ++ [EndCode])%list
  | Quote x => (StartQuote :: StartParagraph :: inl_events x ++ [EndParagraph; EndQuote])%list
  | HorizontalRule => [Rule]
  end.

(** ** What they say *)
(** The text, with its formatting marks written out: three stars for bold and
    italic, two for bold, one for italic; tildes only for text that is neither. *)
Definition within (mark s : string) : string := mark ++ s ++ mark.
Definition in_marks (bold italic struck : bool) (s : string) : string :=
  match bold, italic, struck with
  | true, true, _ => within "***" s | true, false, _ => within "**" s | false, true, _ => within "*" s
  | false, false, true => within "~~" s | false, false, false => s
  end.
Fixpoint says (b i k : bool) (x : inl) : string :=
  match x with
  | INone => "" | ISeq x y => says b i k x ++ says b i k y
  | IText s => in_marks b i k s | ICode s => in_marks b i k (within "`" s) | IBreak => in_marks b i k " "
  | IStrong x => says true i k x | IEmphasis x => says b true k x | IStrike x => says b i true x
  | ILink x => says b i k x | IImage _ _ alt => says b i k alt
  | IHtml _ => "" | ITaskMarker => ""
  end.
Fixpoint pictures (x : inl) : list (string * string) :=
  match x with
  | ISeq x y => (pictures x ++ pictures y)%list
  | IStrong x | IEmphasis x | IStrike x | ILink x => pictures x
  | IImage url title _ => [(url, title)]
  | _ => []
  end.
(** HTML that is passed over in silence. *)
Definition quiet_html (h : string) : Prop := absent "</" h \/ (absent "<mark>" h /\ absent "<ins>" h /\ absent "<sub>" h /\ absent "<sup>" h).
(** No formatting within the same formatting, no image within the text of an image. *)
Fixpoint plain_inl (b i k : bool) (x : inl) : Prop :=
  match x with
  | ISeq x y => plain_inl b i k x /\ plain_inl b i k y
  | IStrong x => b = false /\ plain_inl true i k x
  | IEmphasis x => i = false /\ plain_inl b true k x
  | IStrike x => k = false /\ plain_inl b i true x
  | ILink x => plain_inl b i k x
  | IImage _ _ alt => pictures alt = [] /\ plain_inl b i k alt
  | IHtml h => quiet_html h
  | _ => True
  end.
Definition plain (x : inl) : Prop := plain_inl false false false x.
Definition plain_block (b : md_block) : Prop :=
  match b with
  | Heading l x => plain x /\ (l = 1 -> pictures x = [])
  | Paragraph x | Quote x => plain x
  | FlatList _ xs => Forall plain xs
  | Grid head rows => Forall (fun r => Forall plain r /\ (N.of_nat (length r) <= u32_max)%N) (head :: rows)
  | Listing _ _ | HorizontalRule => True
  end.

(** ** Slides *)
(** What goes onto a slide. *)
Inductive element := Line (s : string) | SubHeading (s : string) | TableOf (rows : list (list string)) | CodeOf (lang code : string) | Picture (url title : string) | NotesOf (s : string).
Section Deck.
Context (trim : string -> string) (load_image : string -> option image) (diagram : string -> list shape * list connector * string) (fit : string -> N).
Definition reads (x : inl) : string := trim (says false false false x).
Definition pics (x : inl) : list element := map (fun '(u, t) => Picture u t) (pictures x).
Definition line_of (x : inl) : list element := if String.eqb (reads x) "" then [] else [Line (reads x)].
Definition row_of (r : list inl) : list (list string) := match r with [] => [] | _ => [map reads r] end.
Definition elements (b : md_block) : list element :=
  match b with
  | Heading l x => if Nat.eqb l 1 then [] else (pics x ++ [SubHeading (reads x)])%list
  | Paragraph x => (pics x ++ line_of x)%list
  | FlatList _ xs => (flat_map pics xs ++ flat_map line_of xs)%list
  | Grid head rows =>
      (flat_map (flat_map pics) (head :: rows) ++ match flat_map row_of (head :: rows) with [] => [] | rs => [TableOf rs] end)%list
  | Listing info ls =>
      if String.eqb (sconcat ls) "" then [] else [CodeOf (match info with Some l => if String.eqb l "" then "text" else l | None => "text" end) (sconcat ls)]
  | Quote x => (pics x ++ if String.eqb (says false false false x) "" then [] else [NotesOf (reads x)])%list
  | HorizontalRule => []
  end.
(** The document up to the first level-1 heading or rule, and the pieces that
    each of these begins: with a title, or without one. *)
Fixpoint split_doc (d : list md_block) : list element * list (option string * list element) :=
  match d with
  | [] => ([], [])
  | b :: d =>
      let '(els, ps) := split_doc d in
      match b with
      | Heading 1 x => ([], (Some (reads x), els) :: ps)
      | HorizontalRule => ([], (None, els) :: ps)
      | _ => ((elements b ++ els)%list, ps)
      end
  end.
(** The slide of a title and what is under it: every line, picture and listing
    in order; the last table and the last quotation. *)
Definition lines_in (els : list element) : list string := flat_map (fun e => match e with Line s => [s] | SubHeading s => ["**" ++ s ++ "**"] | _ => [] end) els.
Definition table_in (els : list element) : option table :=
  fold_left (fun t e => match e with TableOf rs => match table_from_string_rows rs true with Ret t => Some t | Panic => None end | _ => t end) els None.
Definition notes_in (els : list element) : option string := fold_left (fun n e => match e with NotesOf s => Some s | _ => n end) els None.
Definition is_diagram (l : string) : bool := String.eqb l "mermaid".
Definition code_in (els : list element) : list code_block :=
  flat_map (fun e => match e with CodeOf l c => if is_diagram l then [] else [Code (trim c) l 500000 1800000 8000000 4000000] | _ => [] end) els.
Definition images_in (els : list element) : list image := flat_map (fun e => match e with Picture u _ => match load_image u with Some i => [i] | None => [] end | _ => [] end) els.
Definition shapes_in (els : list element) : list shape :=
  flat_map (fun e => match e with
    | Picture u t => match load_image u with Some _ => [] | None => [placeholder fit u t] end
    | CodeOf l c => if is_diagram l then fst (fst (diagram c)) else []
    | _ => [] end) els.
Definition connectors_in (els : list element) : list connector := flat_map (fun e => match e with CodeOf l c => if is_diagram l then snd (fst (diagram c)) else [] | _ => [] end) els.
Definition slide_with (title : string) (els : list element) : slide :=
  Slide title (lines_in els) (map (fun t => BulletPoint t 0 Bullet None) (lines_in els)) Bullet (Some 44%N) (Some 28%N) true false false false false None None TitleAndContent NoTransition
    (table_in els) (shapes_in els) (images_in els) (notes_in els) (connectors_in els) [] (code_in els) false.
(** Without a heading, the first thing that can open a slide names it; what is
    before that is passed over. *)
Definition opens (e : element) : option string :=
  match e with
  | Line _ => Some "Slide" | TableOf _ => Some "Data Table" | Picture _ _ => Some "Image"
  | CodeOf l c => Some (if is_diagram l then snd (diagram c) else "Code")
  | SubHeading _ | NotesOf _ => None
  end.
Fixpoint untitled (els : list element) : list slide :=
  match els with
  | [] => []
  | e :: l => match opens e with Some t => [slide_with t els] | None => untitled l end
  end.
Fixpoint slides_from (prev : option string) (ps : list (option string * list element)) : list slide :=
  match ps with
  | [] => []
  | (h, els) :: ps =>
      let made := match h, prev with
        | Some t, _ => [slide_with t els]
        | None, Some p => [slide_with (p ++ " (continued)") els]
        | None, None => untitled els
        end in
      (made ++ slides_from (match made with s :: _ => Some (s_title s) | [] => prev end) ps)%list
  end.
Definition deck (d : list md_block) : list slide := let '(els, ps) := split_doc d in slides_from None ((None, els) :: ps).
End Deck.
(** The titles of the level-1 headings and the lines of a document, in order. *)
Definition titles_of (trim : string -> string) (d : list md_block) : list string := flat_map (fun b => match b with Heading 1 x => [reads trim x] | _ => [] end) d.
Definition lines_of (trim : string -> string) (d : list md_block) : list string :=
  flat_map (fun b => match b with
    | Heading l x => if Nat.eqb l 1 then [] else ["**" ++ reads trim x ++ "**"]
    | Paragraph x => if String.eqb (reads trim x) "" then [] else [reads trim x]
    | FlatList _ xs => filter (fun s => negb (String.eqb s "")) (map (reads trim) xs)
    | _ => []
    end) d.
(** The titles of the slides after one titled [prev]: a heading names its slide,
    a rule names a continuation. *)
Fixpoint titles_after (trim : string -> string) (prev : string) (d : list md_block) : list string :=
  match d with
  | [] => []
  | Heading 1 x :: d => reads trim x :: titles_after trim (reads trim x) d
  | HorizontalRule :: d => let t := prev ++ " (continued)" in t :: titles_after trim t d
  | _ :: d => titles_after trim prev d
  end.
(** In a piece of HTML, whatever comes before a closing tag has a tag in it. *)
Definition orderly_html (h : string) : Prop := forall a b, h = a ++ "</" ++ b -> exists x y, a = x ++ ">" ++ y.
