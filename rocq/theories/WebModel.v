(** Model of src/web2ppt/{config,parser,converter}.rs: a web page as slides.

    The page is taken as the tree the HTML library builds, and what the library
    finds for a selector in the whole page as an arbitrary function.
    [char::is_whitespace] and [str::to_lowercase] are the ASCII ones (the latter
    is only compared with ASCII words). *)
From Coq Require Import String Ascii List Bool Arith NArith.
From Verif Require Import Str ColorModel ShapeModel SlideModel DeckModel MdParseModel.
Import ListNotations.
Open Scope nat_scope.
Open Scope string_scope.

(** config.rs:5-28, without what only the fetcher uses and the font sizes and
    links, which are never used *)
Record config := Config { max_slides : nat; max_bullets : nat; with_images : bool; with_tables : bool; with_code : bool; by_headings : bool }.
(** config.rs:30-48 *)
Definition config_default : config := Config 20 6 true true true true.

(** ** parser.rs *)
(** Nodes of the page: text, elements, and comments and the like *)
Inductive dom := Text (t : string) | Elem (name : string) (attrs : list (string * string)) (kids : list dom) | Silent.
(** [element.text().collect::<String>()] *)
Fixpoint text_of (d : dom) : string := match d with Text t => t | Elem _ _ kids => sconcat (map text_of kids) | Silent => "" end.
(** [element.value().attr(k)] *)
Fixpoint attr_of (k : string) (l : list (string * string)) : option string :=
  match l with [] => None | (k', v) :: l => if String.eqb k k' then Some v else attr_of k l end.
Definition one_among (l : list string) (n : string) : bool := existsb (String.eqb n) l.
(** [element.select]: the elements below, in document order *)
Fixpoint subtree (d : dom) : list dom := d :: match d with Elem _ _ kids => flat_map subtree kids | _ => [] end.
Definition select (names : list string) (d : dom) : list dom :=
  filter (fun e => match e with Elem n _ _ => one_among names n | _ => false end) (tl (subtree d)).

(** parser.rs:24-45 [ContentType] *)
Inductive kind := WTitle | WHeading (level : N) | WPara | WItem | WCode | WImage (src alt : string) | WTable (rows : list (list string)) | WQuote | WLink (text href : string).
(** parser.rs:47-56 [ContentBlock], 59-66 [new], 69-72 [with_level], 75-77 [is_heading] *)
Record block := Block { wb_kind : kind; wb_text : string; wb_level : N }.
Definition block_new (k : kind) (t : string) : block := Block k (trim t) 0.
Definition is_heading (b : block) : bool := match wb_kind b with WTitle | WHeading _ => true | _ => false end.

(** [split_whitespace] *)
Fixpoint split_ws (s : string) : list string :=
  match s with
  | "" => [""]
  | String c s => if is_ws c then "" :: split_ws s else match split_ws s with x :: l => String c x :: l | [] => [s1 c] end
  end.
Definition words_of (s : string) : list string := filter (fun w => negb (String.eqb w "")) (split_ws s).
(** parser.rs:402-407 [clean_text] *)
Definition clean_text (d : dom) : string := trim (sjoin " " (words_of (text_of d))).

(** parser.rs:410-437 [extract_table] *)
Definition extract_table (d : dom) : list block :=
  let rows := filter (fun r => match r with [] => false | _ => true end) (map (fun r => map clean_text (select ["th"; "td"] r)) (select ["tr"] d)) in
  if negb (match rows with [] => true | _ => false end) && Nat.leb (length rows) 30 then [block_new (WTable rows) ""] else [].

Section Page.
Variable c : config.
(** parser.rs:315-389: what an element gives itself.  [to_digit] of the last
    character of the name; links give nothing *)
Definition own_block (depth : N) (name : string) (attrs : list (string * string)) (d : dom) : list block :=
  if String.eqb name "h1" then
    let t := clean_text d in if negb (String.eqb t "") && Nat.ltb (String.length t) 300 then [block_new WTitle t] else []
  else if one_among ["h2"; "h3"; "h4"; "h5"; "h6"] name then
    let t := clean_text d in
    let level := match name with String _ (String c _) => (N_of_ascii c - 48)%N | _ => 0%N end in
    if negb (String.eqb t "") && Nat.ltb (String.length t) 300 then [block_new (WHeading level) t] else []
  else if String.eqb name "p" then
    let t := clean_text d in if Nat.leb 10 (String.length t) then [block_new WPara t] else []
  else if String.eqb name "li" then
    let t := clean_text d in
    if negb (String.eqb t "") && Nat.ltb (String.length t) 500 then [Block WItem (trim t) depth] else []
  else if String.eqb name "blockquote" then
    let t := clean_text d in if negb (String.eqb t "") then [block_new WQuote t] else []
  else if one_among ["pre"; "code"] name then
    if with_code c then
      let t := trim (text_of d) in if negb (String.eqb t "") && Nat.leb (String.length t) 1000 then [block_new WCode t] else []
    else []
  else if String.eqb name "img" then
    if with_images c then
      match attr_of "src" attrs with
      | Some src =>
        let alt := match attr_of "alt" attrs with Some a => a | None => "" end in
        if negb (starts_with "data:" src) && negb (String.eqb alt "") then [block_new (WImage src alt) ""] else []
      | None => []
      end
    else []
  else if String.eqb name "table" then if with_tables c then extract_table d else []
  else [].
(** parser.rs:293-313, 391-400 [walk_element]; the [u8] depth wraps.  The list of
    images, which nothing else reads, is left out. *)
Definition skip_tags : list string := ["script"; "style"; "noscript"; "svg"; "form"; "button"; "input"; "select"; "textarea"; "iframe"].
Definition skip_classes : list string := ["advertisement"; "ad-container"; "social-share"; "comment-section"].
Definition no_recurse_tags : list string := ["p"; "li"; "pre"; "code"; "img"; "table"; "blockquote"; "h1"; "h2"; "h3"; "h4"; "h5"; "h6"].
Definition skipped (name : string) (attrs : list (string * string)) : bool :=
  one_among skip_tags name
  || match attr_of "class" attrs with Some v => existsb (fun w => contains w (lowercase v)) skip_classes | None => false end.
Fixpoint walk_element (depth : N) (d : dom) : list block :=
  match d with
  | Elem name attrs kids =>
    if skipped name attrs then []
    else (own_block depth name attrs d ++ (if one_among no_recurse_tags name then [] else flat_map (walk_element ((depth + 1) mod 256)) kids))%list
  | _ => []
  end.

(** parser.rs:88-99 [WebContent] *)
Record content := Content { w_title : string; w_url : string; w_description : option string; w_blocks : list block }.
(** [document.select(..).next()] *)
Variable found : string -> option dom.
Definition meta_content (d : dom) : option string := match d with Elem _ attrs _ => attr_of "content" attrs | _ => None end.
(** parser.rs:186-217 [extract_title] *)
Definition text_title (sel : string) : option string :=
  match found sel with Some e => let t := trim (text_of e) in if String.eqb t "" then None else Some t | None => None end.
Definition extract_title : string :=
  match text_title "title" with
  | Some t => t
  | None => match text_title "h1" with
    | Some t => t
    | None => match found "meta[property='og:title']" with
      | Some e => match meta_content e with Some t => trim t | None => "Untitled" end
      | None => "Untitled"
      end
    end
  end.
(** parser.rs:219-247 [extract_meta_description] *)
Definition meta_text (sel : string) : option string :=
  match found sel with
  | Some e => match meta_content e with Some t => let t := trim t in if String.eqb t "" then None else Some t | None => None end
  | None => None
  end.
Definition extract_meta_description : option string :=
  match meta_text "meta[name='description']" with Some t => Some t | None => meta_text "meta[property='og:description']" end.
(** parser.rs:249-290 [extract_content] *)
Definition main_selectors : list string :=
  ["main article"; "article"; "main"; "[role='main']"; ".content"; ".post-content"; ".article-content"; ".entry-content"; ".markdown-body"; ".prose"; "#content"; "#main"; "#article"; ".article"; "body"].
Definition main_element : option dom :=
  fold_left (fun r s => match r with Some _ => r | None =>
    match found s with Some e => if Nat.ltb 100 (String.length (text_of e)) then Some e else None | None => None end end) main_selectors None.
(** parser.rs:165-183 [parse]; [None] is the error *)
Definition parse (url : string) : option content :=
  match main_element with
  | Some m => match walk_element 0 m with [] => None | l => Some (Content extract_title url extract_meta_description l) end
  | None => None
  end.
End Page.

(** parser.rs:122-148 [grouped_by_headings]; the state is the groups, the
    current heading and the current blocks *)
Definition group_step (s : list (block * list block) * option block * list block) (b : block) : list (block * list block) * option block * list block :=
  let '(groups, heading, cur) := s in
  if is_heading b then
    match heading with
    | Some h => ((groups ++ [(h, cur)])%list, Some b, [])
    | None => (groups, Some b, cur)
    end
  else (groups, heading, (cur ++ [b])%list).
Definition grouped_by_headings (blocks : list block) : list (block * list block) :=
  let '(groups, heading, cur) := fold_left group_step blocks ([], None, []) in
  match heading with Some h => (groups ++ [(h, cur)])%list | None => groups end.

(** ** converter.rs *)
(** converter.rs:12-16: the last boundary not after [n] *)
Fixpoint back_to (n : nat) (t : string) : nat :=
  match n with O => O | S m => if boundary n t then n else back_to m t end.
(** [rfind] of a character *)
Fixpoint rfind (c : ascii) (s : string) : option nat :=
  match s with
  | "" => None
  | String x s => match rfind c s with Some i => Some (S i) | None => if Ascii.eqb x c then Some O else None end
  end.
(** converter.rs:7-26 [truncate_text] *)
Definition truncate_text (t : string) (n : nat) : string :=
  if Nat.leb (String.length t) n then t
  else
    let e := back_to n t in
    let e := match rfind " " (substring 0 e t) with Some i => if Nat.ltb (n / 2) i then i else e | None => e end in
    trim_end_by is_ws (substring 0 e t) ++ "...".
(** slide_content/content.rs [layout] *)
Definition with_layout (l : layout) (s : slide) : slide :=
  Slide (s_title s) (s_content s) (s_bullets s) (s_style s) (s_tsize s) (s_csize s) (s_tbold s) (s_cbold s) (s_titalic s) (s_citalic s) (s_tunder s)
    (s_tcolor s) (s_ccolor s) l (s_transition s) (s_table s) (s_shapes s) (s_images s) (s_notes s) (s_connectors s) (s_charts s) (s_code s) (s_ink s).
Definition text_slide (t : string) : slide := with_layout TitleAndContent (slide_new t).
(** converter.rs:28-39; the author and page numbers are never used *)
Record options := Options { o_title : option string; o_source : bool }.

Section Convert.
Variable c : config.
(** converter.rs:171-216: the line a block gives *)
Definition line_of (b : block) : option string :=
  match wb_kind b with
  | WPara => Some (truncate_text (wb_text b) 200)
  | WItem => Some ("• " ++ truncate_text (wb_text b) 180)
  | WQuote => Some (dq ++ truncate_text (wb_text b) 180 ++ dq)
  | WCode => if with_code c then Some ("[Code] " ++ truncate_text (wb_text b) 150) else None
  | WTable rows =>
    if with_tables c && negb (match rows with [] => true | _ => false end)
    then Some ("[Table: " ++ decn (length rows) ++ " rows × " ++ decn (match rows with r :: _ => length r | [] => 0 end) ++ " cols]") else None
  | WImage _ alt => if with_images c && negb (String.eqb alt "") then Some ("[Image: " ++ alt ++ "]") else None
  | _ => None
  end.
(** converter.rs:158-217, one block of a group; the last part of the state says
    that the loop has been left *)
Definition put_block (heading : string) (s : list slide * slide * nat * bool) (b : block) : list slide * slide * nat * bool :=
  let '(slides, sl, n, stop) := s in
  if stop then s
  else
    let full := Nat.leb (max_bullets c) n in
    let '(slides, sl, n) := if full then ((slides ++ [sl])%list, text_slide (heading ++ " (cont.)"), 0) else (slides, sl, n) in
    if full && Nat.leb (max_slides c) (length slides) then (slides, sl, n, true)
    else match line_of b with Some t => (slides, add_bullet t sl, n + 1, false) | None => (slides, sl, n, false) end.
(** converter.rs:148-223, one group *)
Definition put_group (slides : list slide) (g : block * list block) : list slide :=
  let '(h, blocks) := g in
  if Nat.leb (max_slides c) (length slides) then slides
  else
    let '(slides, sl, n, _) := fold_left (put_block (wb_text h)) blocks (slides, text_slide (wb_text h), 0, false) in
    if Nat.ltb 0 n then (slides ++ [sl])%list else slides.
(** converter.rs:243-318, one block; the state is the slides, the current slide
    and the number of its bullets *)
Definition put_line (first : string) (t : string) (more : bool) (s : list slide * option slide * nat) : list slide * option slide * nat :=
  let '(slides, cur, n) := s in
  let sl := match cur with Some sl => sl | None => text_slide first end in
  if Nat.ltb n (max_bullets c) then (slides, Some (add_bullet t sl), n + 1)
  else if more then ((slides ++ [sl])%list, Some (add_bullet t (text_slide (s_title sl ++ " (cont.)"))), 1)
  else (slides, Some sl, n).
Definition linear_block (s : list slide * option slide * nat) (b : block) : list slide * option slide * nat :=
  let '(slides, cur, n) := s in
  if Nat.leb (max_slides c) (length slides) then s
  else match wb_kind b with
  | WTitle | WHeading _ =>
    (match cur with Some sl => if Nat.ltb 0 n then (slides ++ [sl])%list else slides | None => slides end, Some (text_slide (wb_text b)), 0)
  | WPara => put_line "Overview" (truncate_text (wb_text b) 200) true s
  | WItem => put_line "Key Points" ("• " ++ truncate_text (wb_text b) 180) false s
  | WQuote => match cur with Some _ => put_line "" (dq ++ truncate_text (wb_text b) 180 ++ dq) false s | None => s end
  | _ => s
  end.
(** converter.rs:228-327 [build_linear_slides] *)
Definition build_linear_slides (w : content) (slides : list slide) : list slide :=
  match w_blocks w with
  | [] => match w_description w with Some d => (slides ++ [add_bullet d (text_slide "Content")])%list | None => slides end
  | l =>
    let '(slides, cur, n) := fold_left linear_block l (slides, None, 0) in
    match cur with Some sl => if Nat.ltb 0 n then (slides ++ [sl])%list else slides | None => slides end
  end.
(** converter.rs:138-226 [build_grouped_slides] *)
Definition build_grouped_slides (w : content) (slides : list slide) : list slide :=
  match grouped_by_headings (w_blocks w) with
  | [] => build_linear_slides w slides
  | groups => fold_left put_group groups slides
  end.
(** converter.rs:104-136 [build_slides] *)
Definition build_slides (w : content) (o : options) : list slide :=
  let t := match o_title o with Some t => t | None => w_title w end in
  let s := with_layout CenteredTitle (slide_new t) in
  let s := match w_description w with Some d => add_bullet d s | None => s end in
  let s := if o_source o then add_bullet ("Source: " ++ w_url w) s else s in
  let slides := if by_headings c then build_grouped_slides w [s] else build_linear_slides w [s] in
  if Nat.ltb (max_slides c) (length slides) then firstn (max_slides c) slides else slides.
(** converter.rs:95-102 [convert] *)
Definition convert (X : statics) (w : content) (o : options) : list entry :=
  create_pptx_with_settings X (match o_title o with Some t => t | None => w_title w end) (build_slides w o) no_settings.
(** converter.rs:376-393 [html_to_pptx_with_options], on the tree of the page *)
Definition html_to_pptx (X : statics) (found : string -> option dom) (url : string) (o : options) : option (list entry) :=
  match parse c found url with Some w => Some (convert X w o) | None => None end.
End Convert.
