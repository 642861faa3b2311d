(** What a web page should give as slides. *)
From Coq Require Import String Ascii List Bool Arith NArith.
From Verif Require Import Str ReaderModel SlideBackSpec WebModel.
Import ListNotations.
Open Scope nat_scope.
Open Scope string_scope.

(** ** Words: [s] is made of these words with white space between them. *)
Definition gap (g : string) : Prop := sforall is_ws g = true.
Definition word (w : string) : Prop := w <> "" /\ sforall (fun c => negb (is_ws c)) w = true.
Inductive spaced : string -> list string -> Prop :=
| spaced_end g : gap g -> spaced g []
| spaced_word g w rest ws : gap g -> word w -> match rest with "" => True | String c _ => is_ws c = true end -> spaced rest ws -> spaced (g ++ w ++ rest) (w :: ws).
(** The text of the element, with single blanks. *)
Definition says (d : dom) (t : string) : Prop := exists ws, spaced (text_of d) ws /\ t = sjoin " " ws.

(** ** What is on a page *)
Inductive item := Head (level : nat) (t : string) | Para (t : string) | Point (t : string) | Quote (t : string) | Sample (t : string) | Picture (src alt : string) | Grid (rows : list (list string)).
(** Tables without tables in them *)
Definition named (l : list string) (d : dom) : bool := match d with Elem n _ _ => existsb (String.eqb n) l | _ => false end.
Inductive all_below (P : dom -> Prop) : dom -> Prop :=
| below_leaf t : all_below P (Text t) | below_silent : all_below P Silent
| below_elem n a k : Forall (fun d => P d /\ all_below P d) k -> all_below P (Elem n a k).
Inductive cells_in : dom -> list string -> Prop :=
| cells_text t : cells_in (Text t) [] | cells_silent : cells_in Silent []
| cells_cell n a k t : In n ["td"; "th"] -> all_below (fun d => named ["td"; "th"; "tr"] d = false) (Elem n a k) -> says (Elem n a k) t -> cells_in (Elem n a k) [t]
| cells_box n a k cs : ~ In n ["td"; "th"; "tr"] -> Forall2 cells_in k cs -> cells_in (Elem n a k) (concat cs).
Inductive rows_in : dom -> list (list string) -> Prop :=
| rows_text t : rows_in (Text t) [] | rows_silent : rows_in Silent []
| rows_row a k cs : Forall2 cells_in k cs -> rows_in (Elem "tr" a k) [concat cs]
| rows_box n a k rs : n <> "tr" -> Forall2 rows_in k rs -> rows_in (Elem n a k) (concat rs).
Definition filled_rows (rows : list (list string)) : list (list string) := filter (fun r => match r with [] => false | _ => true end) rows.
(** How an element holds an item *)
Inductive holds : dom -> item -> Prop :=
| holds_head n l a k t : In (n, l) [("h1", 1); ("h2", 2); ("h3", 3); ("h4", 4); ("h5", 5); ("h6", 6)] -> says (Elem n a k) t -> t <> "" -> String.length t < 300 -> holds (Elem n a k) (Head l t)
| holds_para a k t : says (Elem "p" a k) t -> 10 <= String.length t -> holds (Elem "p" a k) (Para t)
| holds_point a k t : says (Elem "li" a k) t -> t <> "" -> String.length t < 500 -> holds (Elem "li" a k) (Point t)
| holds_quote a k t : says (Elem "blockquote" a k) t -> t <> "" -> holds (Elem "blockquote" a k) (Quote t)
| holds_sample n a k t : In n ["pre"; "code"] -> t = trim (text_of (Elem n a k)) -> t <> "" -> String.length t <= 1000 -> holds (Elem n a k) (Sample t)
| holds_picture a k src alt : attr_of "src" a = Some src -> attr_of "alt" a = Some alt -> starts_with "data:" src = false -> alt <> "" -> holds (Elem "img" a k) (Picture src alt)
| holds_grid a k rs rows : Forall2 rows_in k rs -> rows = filled_rows (concat rs) -> rows <> [] -> length rows <= 30 -> holds (Elem "table" a k) (Grid rows).
(** Scripts, forms and advertisements are left out; everything else is a box
    around other things. *)
Definition machinery : list string := ["script"; "style"; "noscript"; "svg"; "form"; "button"; "input"; "select"; "textarea"; "iframe"].
Definition bearing : list string := ["h1"; "h2"; "h3"; "h4"; "h5"; "h6"; "p"; "li"; "blockquote"; "pre"; "code"; "img"; "table"].
Definition noise (a : list (string * string)) : bool :=
  match attr_of "class" a with Some v => existsb (fun w => contains w (ShapeModel.lowercase v)) ["advertisement"; "ad-container"; "social-share"; "comment-section"] | None => false end.
Inductive on_page : dom -> list item -> Prop :=
| page_blank t : gap t -> on_page (Text t) []
| page_silent : on_page Silent []
| page_machinery n a k : In n machinery -> on_page (Elem n a k) []
| page_noise n a k : noise a = true -> on_page (Elem n a k) []
| page_item n a k it : noise a = false -> holds (Elem n a k) it -> on_page (Elem n a k) [it]
| page_box n a k l : noise a = false -> ~ In n machinery -> ~ In n bearing -> Forall2 on_page k l -> on_page (Elem n a k) (concat l).
(** The blocks that stand for an item *)
Definition wants (c : config) (it : item) : bool := match it with Sample _ => with_code c | Picture _ _ => with_images c | Grid _ => with_tables c | _ => true end.
Definition stands (it : item) (b : block) : Prop :=
  match it with
  | Head 1 t => wb_kind b = WTitle /\ wb_text b = t
  | Head l t => wb_kind b = WHeading (N.of_nat l) /\ wb_text b = t
  | Para t => wb_kind b = WPara /\ wb_text b = t
  | Point t => wb_kind b = WItem /\ wb_text b = t
  | Quote t => wb_kind b = WQuote /\ wb_text b = t
  | Sample t => wb_kind b = WCode /\ wb_text b = t
  | Picture s a => wb_kind b = WImage s a
  | Grid rows => wb_kind b = WTable rows
  end.
(** Where the contents of a page are looked for: the first of these with more
    than a hundred bytes of text. *)
Definition areas : list string :=
  ["main article"; "article"; "main"; "[role='main']"; ".content"; ".post-content"; ".article-content"; ".entry-content"; ".markdown-body"; ".prose"; "#content"; "#main"; "#article"; ".article"; "body"].
Definition long_enough (d : dom) : Prop := 100 < String.length (text_of d).
Definition main_part (found : string -> option dom) (m : dom) : Prop :=
  exists before s after, areas = (before ++ s :: after)%list /\ found s = Some m /\ long_enough m /\ forall p d, In p before -> found p = Some d -> ~ long_enough d.
(** The title of a page *)
Definition nonblank_text (o : option dom) (t : string) : Prop := exists d, o = Some d /\ t = trim (text_of d) /\ t <> "".
Definition no_text (o : option dom) : Prop := forall d, o = Some d -> trim (text_of d) = "".
Definition titled (found : string -> option dom) (t : string) : Prop :=
  nonblank_text (found "title") t
  \/ (no_text (found "title") /\ nonblank_text (found "h1") t)
  \/ (no_text (found "title") /\ no_text (found "h1") /\
      ((exists n a k v, found "meta[property='og:title']" = Some (Elem n a k) /\ attr_of "content" a = Some v /\ t = trim v)
       \/ ((forall n a k, found "meta[property='og:title']" = Some (Elem n a k) -> attr_of "content" a = None) /\ t = "Untitled"))).
(** Its description *)
Definition meta_says (found : string -> option dom) (sel t : string) : Prop :=
  exists n a k v, found sel = Some (Elem n a k) /\ attr_of "content" a = Some v /\ t = trim v /\ t <> "".
Definition described (found : string -> option dom) (o : option string) : Prop :=
  match o with
  | Some t => meta_says found "meta[name='description']" t \/ (forall u, ~ meta_says found "meta[name='description']" u) /\ meta_says found "meta[property='og:description']" t
  | None => forall u, ~ meta_says found "meta[name='description']" u /\ ~ meta_says found "meta[property='og:description']" u
  end.

(** ** Slides: a title and lines *)
Definition page : Type := string * list string.
(** [u] is [t], or the beginning of it and three dots: whole characters, and not
    much shorter than [n] unless it ends before a blank *)
Definition continuing (c : ascii) : bool := let n := N_of_ascii c in (128 <=? n)%N && (n <=? 191)%N.
Definition shortened (n : nat) (t u : string) : Prop :=
  (String.length t <= n /\ u = t)
  \/ (n < String.length t /\ exists p c rest, t = p ++ String c rest /\ String.length p <= n /\ (p <> "" -> continuing c = false)
      /\ (c = " "%char /\ n / 2 < String.length p \/ forall k x, String.length p < k <= n -> String.get k t = Some x -> continuing x = true)
      /\ u = trim_end_by is_ws p ++ "...").
(** The line for a block, if there is one *)
Definition line_for (c : config) (b : block) (o : option string) : Prop :=
  match wb_kind b with
  | WPara => exists u, shortened 200 (wb_text b) u /\ o = Some u
  | WItem => exists u, shortened 180 (wb_text b) u /\ o = Some ("• " ++ u)
  | WQuote => exists u, shortened 180 (wb_text b) u /\ o = Some (s1 DQ ++ u ++ s1 DQ)
  | WCode => if with_code c then exists u, shortened 150 (wb_text b) u /\ o = Some ("[Code] " ++ u) else o = None
  | WTable (r :: l) => o = if with_tables c then Some ("[Table: " ++ decn (S (length l)) ++ " rows × " ++ decn (length r) ++ " cols]") else None
  | WImage _ alt => o = if with_images c && negb (String.eqb alt "") then Some ("[Image: " ++ alt ++ "]") else None
  | _ => o = None
  end.
Definition somes {A} (l : list (option A)) : list A := flat_map (fun o => match o with Some x => [x] | None => [] end) l.
Definition lines_for (c : config) (bs : list block) (ls : list string) : Prop := exists os, Forall2 (line_for c) bs os /\ ls = somes os.
(** Lines over pages of at most [m]: all but the last page are full. *)
Definition paged (m : nat) (ls : list string) (ps : list page) : Prop :=
  flat_map snd ps = ls /\ Forall (fun p => length (snd p) = m) (removelast ps) /\ Forall (fun p => 1 <= length (snd p) <= m) ps.
Definition headed (h : string) (ps : list page) : Prop := map fst ps = match ps with [] => [] | _ :: r => h :: map (fun _ => h ++ " (cont.)") r end.
(** In the other mode the addition piles up, and code, tables and images are left
    out. *)
Definition text_only (c : config) : config := Config (max_slides c) (max_bullets c) false false false (by_headings c).
(** What comes before the first heading gets a title by its first line; quotes
    cannot come first. *)
Fixpoint opening (l : list block) : string := match l with [] => "" | b :: l => match wb_kind b with WPara => "Overview" | WItem => "Key Points" | _ => opening l end end.
Fixpoint opens (l : list block) : bool := match l with [] => true | b :: l => match wb_kind b with WPara | WItem => true | WQuote => false | _ => opens l end end.
(** Only paragraphs go on to another page. *)
Definition flows (m : nat) (l : list block) : Prop :=
  Forall (fun b => wb_kind b <> WItem /\ wb_kind b <> WQuote) l
  \/ length (filter (fun b => match wb_kind b with WPara | WItem | WQuote => true | _ => false end) l) <= m.
Fixpoint piled (h : string) (ps : list page) : Prop := match ps with [] => True | p :: ps => fst p = h /\ piled (h ++ " (cont.)") ps end.
(** Blocks under their headings *)
Definition free_of_headings (l : list block) : Prop := Forall (fun b => is_heading b = false) l.
Definition outline (blocks intro : list block) (groups : list (block * list block)) : Prop :=
  blocks = (intro ++ flat_map (fun g => fst g :: snd g) groups)%list /\ free_of_headings intro /\ Forall (fun g => is_heading (fst g) = true /\ free_of_headings (snd g)) groups.
(** Texts that a file can hold *)
Definition block_ok (b : block) : bool := XmlSpec.text_ok (wb_text b) && match wb_kind b with WImage _ alt => XmlSpec.text_ok alt | _ => true end.
Definition content_ok (w : content) (o : options) : bool :=
  XmlSpec.text_ok (w_title w) && XmlSpec.text_ok (w_url w) && match o_title o with Some t => XmlSpec.text_ok t | None => true end
  && match w_description w with Some d => XmlSpec.text_ok d | None => true end && forallb block_ok (w_blocks w).
Definition deck_title (w : content) (o : options) : string := match o_title o with Some t => t | None => w_title w end.
(** What a reader finds on a slide *)
Definition page_read (r : pslide) (p : page) : Prop :=
  sl_title r = Some (visible (fst p)) /\ sl_body r = filter nonblank (snd p) /\ sl_tables r = [] /\ Forall (fun p => ps_title p || ps_body p = true) (sl_shapes r).
