(** Model of src/cli/markdown/parser.rs: from the events of the CommonMark
    reader (pulldown-cmark, not modelled: any list of events) to slides. *)
From Coq Require Import String Ascii List Bool Arith NArith ZArith.
From Verif Require Import Str Num ColorModel TableModel ConnectorModel ShapeModel SlideModel.
Import ListNotations.
Open Scope nat_scope.
Open Scope string_scope.

(** pulldown_cmark::Event with Tag and TagEnd, as far as parser.rs:104-308 tells
    them apart.  [StartCode]: the info string of a fenced block, [None] for an
    indented one.  [Break]: SoftBreak and HardBreak.  [Other]: everything the
    last arm ignores (links, HTML blocks, task markers, ...). *)
Inductive event :=
  | StartHeading (level : nat) | EndHeading (level : nat)
  | StartList | EndList | StartItem | EndItem
  | StartTable | EndTable | StartHead | EndHead | StartRow | EndRow | StartCell | EndCell
  | StartCode (info : option string) | EndCode
  | StartQuote | EndQuote
  | StartStrong | EndStrong | StartEmphasis | EndEmphasis | StartStrike | EndStrike
  | InlineCode (s : string) | InlineHtml (s : string)
  | StartImage (url title : string) | EndImage
  | Rule | Text (s : string) | Break | StartParagraph | EndParagraph | Other.

(** parser.rs:27-55 [MarkdownParser].  Left out: [task_items] (nothing is ever
    pushed to it), [in_table_head] and [current_task_checked] (never read). *)
Record state := State {
  slides : list slide; cur : option slide; txt : string;
  in_list : bool; items : list string;
  in_table : bool; trows : list (list string); trow : list string; tcell : string;
  in_code : bool; code : string; lang : option string;
  bold : bool; italic : bool; strike : bool;
  in_quote : bool; quote : string;
  pending : option (string * string) }.
(** parser.rs:58-82 [new] *)
Definition state0 : state := State [] None "" false [] false [] [] "" false "" None false false false false "" None.
(** Field updates. *)
Definition set_slides v s := State v (cur s) (txt s) (in_list s) (items s) (in_table s) (trows s) (trow s) (tcell s) (in_code s) (code s) (lang s) (bold s) (italic s) (strike s) (in_quote s) (quote s) (pending s).
Definition set_cur v s := State (slides s) v (txt s) (in_list s) (items s) (in_table s) (trows s) (trow s) (tcell s) (in_code s) (code s) (lang s) (bold s) (italic s) (strike s) (in_quote s) (quote s) (pending s).
Definition set_txt v s := State (slides s) (cur s) v (in_list s) (items s) (in_table s) (trows s) (trow s) (tcell s) (in_code s) (code s) (lang s) (bold s) (italic s) (strike s) (in_quote s) (quote s) (pending s).
Definition set_list b l s := State (slides s) (cur s) (txt s) b l (in_table s) (trows s) (trow s) (tcell s) (in_code s) (code s) (lang s) (bold s) (italic s) (strike s) (in_quote s) (quote s) (pending s).
Definition set_table b rs s := State (slides s) (cur s) (txt s) (in_list s) (items s) b rs (trow s) (tcell s) (in_code s) (code s) (lang s) (bold s) (italic s) (strike s) (in_quote s) (quote s) (pending s).
Definition set_row v s := State (slides s) (cur s) (txt s) (in_list s) (items s) (in_table s) (trows s) v (tcell s) (in_code s) (code s) (lang s) (bold s) (italic s) (strike s) (in_quote s) (quote s) (pending s).
Definition set_cell v s := State (slides s) (cur s) (txt s) (in_list s) (items s) (in_table s) (trows s) (trow s) v (in_code s) (code s) (lang s) (bold s) (italic s) (strike s) (in_quote s) (quote s) (pending s).
Definition set_code b c l s := State (slides s) (cur s) (txt s) (in_list s) (items s) (in_table s) (trows s) (trow s) (tcell s) b c l (bold s) (italic s) (strike s) (in_quote s) (quote s) (pending s).
Definition set_marks b i k s := State (slides s) (cur s) (txt s) (in_list s) (items s) (in_table s) (trows s) (trow s) (tcell s) (in_code s) (code s) (lang s) b i k (in_quote s) (quote s) (pending s).
Definition set_quote b v s := State (slides s) (cur s) (txt s) (in_list s) (items s) (in_table s) (trows s) (trow s) (tcell s) (in_code s) (code s) (lang s) (bold s) (italic s) (strike s) b v (pending s).
Definition set_pending v s := State (slides s) (cur s) (txt s) (in_list s) (items s) (in_table s) (trows s) (trow s) (tcell s) (in_code s) (code s) (lang s) (bold s) (italic s) (strike s) (in_quote s) (quote s) v.

(** Field updates of a slide. *)
(** slide_content/content.rs:101-105 [add_bullet] *)
Definition add_bullet (t : string) (s : slide) : slide :=
  Slide (s_title s) (s_content s ++ [t])%list (s_bullets s ++ [BulletPoint t 0 (s_style s) None])%list (s_style s) (s_tsize s) (s_csize s) (s_tbold s) (s_cbold s) (s_titalic s) (s_citalic s) (s_tunder s)
    (s_tcolor s) (s_ccolor s) (s_layout s) (s_transition s) (s_table s) (s_shapes s) (s_images s) (s_notes s) (s_connectors s) (s_charts s) (s_code s) (s_ink s).
Definition with_table (t : table) (s : slide) : slide :=
  Slide (s_title s) (s_content s) (s_bullets s) (s_style s) (s_tsize s) (s_csize s) (s_tbold s) (s_cbold s) (s_titalic s) (s_citalic s) (s_tunder s)
    (s_tcolor s) (s_ccolor s) (s_layout s) (s_transition s) (Some t) (s_shapes s) (s_images s) (s_notes s) (s_connectors s) (s_charts s) (s_code s) (s_ink s).
Definition with_drawing (shs : list shape) (cns : list connector) (s : slide) : slide :=
  Slide (s_title s) (s_content s) (s_bullets s) (s_style s) (s_tsize s) (s_csize s) (s_tbold s) (s_cbold s) (s_titalic s) (s_citalic s) (s_tunder s)
    (s_tcolor s) (s_ccolor s) (s_layout s) (s_transition s) (s_table s) (s_shapes s ++ shs)%list (s_images s) (s_notes s) (s_connectors s ++ cns)%list (s_charts s) (s_code s) (s_ink s).
Definition with_image (i : image) (s : slide) : slide :=
  Slide (s_title s) (s_content s) (s_bullets s) (s_style s) (s_tsize s) (s_csize s) (s_tbold s) (s_cbold s) (s_titalic s) (s_citalic s) (s_tunder s)
    (s_tcolor s) (s_ccolor s) (s_layout s) (s_transition s) (s_table s) (s_shapes s) (s_images s ++ [i])%list (s_notes s) (s_connectors s) (s_charts s) (s_code s) (s_ink s).
Definition with_notes (n : string) (s : slide) : slide :=
  Slide (s_title s) (s_content s) (s_bullets s) (s_style s) (s_tsize s) (s_csize s) (s_tbold s) (s_cbold s) (s_titalic s) (s_citalic s) (s_tunder s)
    (s_tcolor s) (s_ccolor s) (s_layout s) (s_transition s) (s_table s) (s_shapes s) (s_images s) (Some n) (s_connectors s) (s_charts s) (s_code s) (s_ink s).
Definition with_code (c : code_block) (s : slide) : slide :=
  Slide (s_title s) (s_content s) (s_bullets s) (s_style s) (s_tsize s) (s_csize s) (s_tbold s) (s_cbold s) (s_titalic s) (s_citalic s) (s_tunder s)
    (s_tcolor s) (s_ccolor s) (s_layout s) (s_transition s) (s_table s) (s_shapes s) (s_images s) (s_notes s) (s_connectors s) (s_charts s) (s_code s ++ [c])%list (s_ink s).

Section Parser.
(** [str::trim], which removes Unicode white space; any function. *)
Variable trim : string -> string.
(** parser.rs:553-585 [load_image]: the picture read from a file or an address,
    if it can be read; any function. *)
Variable load_image : string -> option image.
(** parser.rs:434-482, the first half of [add_mermaid_diagram]: the shapes and
    connectors of a diagram, moved to the middle, and its title; any function. *)
Variable diagram : string -> list shape * list connector * string.
(** The font size computed for the text of a placeholder (see [sh_autofit]). *)
Variable fit : string -> N.

(** The pattern [if let Some(ref mut slide) = self.current_slide { f(slide) }
    else { let mut slide = SlideContent::new(title); f(slide); ... }] *)
Definition on_slide (title : string) (f : slide -> slide) (s : state) : state :=
  set_cur (Some (f (match cur s with Some sl => sl | None => slide_new title end))) s.

(** parser.rs:310-331 [push_text] *)
Definition marked (b i k : bool) (t : string) : string :=
  if b && i then "***" ++ t ++ "***" else if b then "**" ++ t ++ "**" else if i then "*" ++ t ++ "*" else if k then "~~" ++ t ++ "~~" else t.
Definition push_text (t : string) (s : state) : state :=
  let formatted := marked (bold s) (italic s) (strike s) t in
  if in_code s then set_code true (code s ++ t) (lang s) s
  else if in_table s then set_cell (tcell s ++ formatted) s
  else if in_quote s then set_quote true (quote s ++ formatted) s
  else set_txt (txt s ++ formatted) s.
(** parser.rs:333-341 [add_paragraph] *)
Definition add_paragraph (t : string) (s : state) : state := on_slide "Slide" (add_bullet t) s.
(** parser.rs:343-360 [flush_list_items]; there are never task items *)
Definition flush_list_items (s : state) : state :=
  match items s with
  | [] => s
  | l => on_slide "Slide" (fun sl => fold_left (fun sl i => add_bullet i sl) l sl) (set_list (in_list s) [] s)
  end.
(** parser.rs:391-409 [flush_table] *)
Definition flush_table (s : state) : outcome state :=
  match trows s with
  | [] => Ret s
  | rs => match table_from_string_rows rs true with
          | Ret t => Ret (on_slide "Data Table" (with_table t) (set_table (in_table s) [] s))
          | Panic => Panic
          end
  end.
(** parser.rs:411-434 [flush_code_block], 484-504 [add_mermaid_diagram] *)
Definition flush_code_block (s : state) : state :=
  if String.eqb (code s) "" then s
  else
    let c := code s in let l := match lang s with Some l => l | None => "text" end in
    let s := set_code (in_code s) "" None s in
    if String.eqb l "mermaid" then let '(shs, cns, title) := diagram c in on_slide title (with_drawing shs cns) s
    else on_slide "Code" (with_code (Code (trim c) l 500000 1800000 8000000 4000000)) s.
(** parser.rs:506-516 [flush_blockquote] *)
Definition flush_blockquote (s : state) : state :=
  if String.eqb (quote s) "" then s
  else let notes := trim (quote s) in let s := set_quote (in_quote s) "" s in
       set_cur (option_map (with_notes notes) (cur s)) s.
(** parser.rs:518-544 [add_image_placeholder] *)
Definition placeholder (url alt : string) : shape :=
  let t := "[Image: " ++ (if String.eqb alt "" then url else alt) ++ "]" in
  Shape KRectangle 2000000 2000000 5000000 3000000 (Some (Fill "E0E0E0" None)) None None (Some t) None None None (fit t) false.
Definition add_image (url alt : string) (s : state) : state :=
  match load_image url with
  | Some i => on_slide "Image" (with_image i) s
  | None => on_slide "Image" (with_drawing [placeholder url alt] []) s
  end.
(** parser.rs:609-615 [finalize_current_slide] *)
Definition finalize (s : state) : state :=
  let s := flush_list_items s in
  match cur s with Some sl => set_cur None (set_slides (slides s ++ [sl])%list s) | None => s end.
(** parser.rs:231-259: the text between the first ">" and the first "</"; the
    slice panics when it would end before it starts. *)
Definition between (h : string) : outcome (option string) :=
  match split_once ">" h, split_once "</" h with
  | Some (a, _), Some (b, _) =>
      if Nat.leb (S (String.length a)) (String.length b) then Ret (Some (substring (S (String.length a)) (String.length b - S (String.length a)) h)) else Panic
  | _, _ => Ret None
  end.
Definition inline_html (h : string) (s : state) : outcome state :=
  let wrap m := match between h with Ret (Some t) => Ret (push_text (m ++ t ++ m) s) | Ret None => Ret s | Panic => Panic end in
  if contains "<mark>" h || contains "<ins>" h then wrap "=="
  else if contains "<sub>" h then wrap "~"
  else if contains "<sup>" h then wrap "^"
  else Ret s.
Definition outside (s : state) : bool := negb (in_list s) && negb (in_table s) && negb (in_quote s) && negb (in_code s).
Definition push_row (s : state) : state :=
  match trow s with [] => s | r => set_row [] (set_table (in_table s) (trows s ++ [r])%list s) end.

(** parser.rs:104-308 [handle_event] *)
Definition handle_event (s : state) (e : event) : outcome state :=
  match e with
  | StartHeading level => Ret (set_txt "" (if Nat.eqb level 1 then finalize s else s))
  | EndHeading level =>
      let title := trim (txt s) in let s := set_txt "" s in
      if Nat.eqb level 1 then Ret (set_cur (Some (slide_new title)) s)
      else Ret (set_cur (option_map (add_bullet ("**" ++ title ++ "**")) (cur s)) s)
  | StartList => Ret (set_list true [] s)
  | EndList => Ret (flush_list_items (set_list false (items s) s))
  | StartItem => Ret (set_txt "" s)
  | EndItem =>
      let item := trim (txt s) in let s := set_txt "" s in
      Ret (if String.eqb item "" then s else set_list (in_list s) (items s ++ [item])%list s)
  | StartTable => Ret (set_table true [] s)
  | EndTable => flush_table (set_table false (trows s) s)
  | StartHead => Ret (set_row [] s)
  | EndHead => Ret (push_row s)
  | StartRow => Ret (set_row [] s)
  | EndRow => Ret (push_row s)
  | StartCell => Ret (set_cell "" s)
  | EndCell => Ret (set_row (trow s ++ [trim (tcell s)])%list (set_cell "" s))
  | StartCode info => Ret (set_code true "" (match info with Some l => if String.eqb l "" then None else Some l | None => None end) s)
  | EndCode => Ret (flush_code_block (set_code false (code s) (lang s) s))
  | StartQuote => Ret (set_quote true "" s)
  | EndQuote => Ret (flush_blockquote (set_quote false (quote s) s))
  | StartStrong => Ret (set_marks true (italic s) (strike s) s)
  | EndStrong => Ret (set_marks false (italic s) (strike s) s)
  | StartEmphasis => Ret (set_marks (bold s) true (strike s) s)
  | EndEmphasis => Ret (set_marks (bold s) false (strike s) s)
  | StartStrike => Ret (set_marks (bold s) (italic s) true s)
  | EndStrike => Ret (set_marks (bold s) (italic s) false s)
  | InlineCode c => Ret (push_text ("`" ++ c ++ "`") s)
  | InlineHtml h => inline_html h s
  | StartImage url title => Ret (set_pending (Some (url, title)) s)
  | EndImage => match pending s with Some (url, alt) => Ret (add_image url alt (set_pending None s)) | None => Ret s end
  | Rule =>
      let s := finalize s in
      match rev (slides s) with
      | last :: _ => Ret (set_cur (Some (slide_new (s_title last ++ " (continued)"))) s)
      | [] => Ret s
      end
  | Text t => Ret (push_text t s)
  | Break => Ret (push_text " " s)
  | StartParagraph => Ret (if outside s then set_txt "" s else s)
  | EndParagraph =>
      if outside s then
        let t := trim (txt s) in let s := set_txt "" s in
        Ret (if String.eqb t "" then s else add_paragraph t s)
      else Ret s
  | Other => Ret s
  end.
Fixpoint handle_all (s : state) (l : list event) : outcome state :=
  match l with
  | [] => Ret s
  | e :: l => match handle_event s e with Ret s => handle_all s l | Panic => Panic end
  end.
(** parser.rs:84-102 [parse]; [Ret None] is the error "No slides found" *)
Definition parse (l : list event) : outcome (option (list slide)) :=
  match handle_all state0 l with
  | Ret s => let out := slides (finalize s) in Ret (match out with [] => None | _ => Some out end)
  | Panic => Panic
  end.
End Parser.
