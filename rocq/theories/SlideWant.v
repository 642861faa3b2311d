(** What a slide should show, from the caller's description of it. *)
From Coq Require Import String Ascii List Bool Arith NArith ZArith.
From Verif Require Import Str Num XmlSpec XmlProofs XmlTpl OpcSpec XmlPath ConnectorModel ConnectorSpec TableModel ChartModel ShapeModel SlideModel SlideSpec SlideInput LookSpec TableSpec GeomSpec.
Import ListNotations.
Open Scope nat_scope.
Open Scope string_scope.

(** The relationship ids given by the package writer. *)
Definition rids_ok (rids : list string) (ink : option string) : bool :=
  forallb (sforall plain_val) rids && opt_ok (sforall plain_val) ink.
(** The bullets of a slide: the styled ones; plain texts only when there are none. *)
Definition wanted (s : slide) : list bullet :=
  match s_bullets s with [] => map (fun t => BulletPoint t 0 (s_style s) None) (s_content s) | l => l end.
(** A size in points is written in hundredths. *)
Definition points (n : N) : string := dec (n * 100).
Definition or_default {A} (o : option A) (d : A) : A := match o with Some x => x | None => d end.
(** How one bullet must appear when the slide's default size is [d] points:
    level, text, size, bold, italic, underline, strike-through, baseline. *)
Definition bit (b : bool) : string := if b then "1" else "0".
(** ECMA-376 part 1, 20.1.10.61: the kinds of automatic numbers. *)
Definition want_mark (b : bullet_style) : list string * list string * nat :=
  match b with
  | Bullet => (["•"], [], 0) | Custom ch => ([ch], [], 0) | NoBullet => ([], [], 1)
  | Number => ([], ["arabicPeriod"], 0) | LetterLower => ([], ["alphaLcPeriod"], 0) | LetterUpper => ([], ["alphaUcPeriod"], 0)
  | RomanLower => ([], ["romanLcPeriod"], 0) | RomanUpper => ([], ["romanUcPeriod"], 0)
  end.
Definition want_colors (color highlight font : option string) : list string * list string * list string :=
  (opt_list (option_map color_value color), opt_list (option_map color_value highlight), opt_list font).
Definition bullet_view (s : slide) (d : N) (b : bullet) :=
  let default := or_default (s_csize s) d in
  match b_format b with
  | None => ([dec (b_level b)], b_text b, [(points default, bit (s_cbold s), bit (s_citalic s))], [(None, None, None)],
      (want_mark (b_style b), [want_colors (s_ccolor s) None None]))
  | Some f => ([dec (b_level b)], b_text b,
      [(points (or_default (bf_size f) default), bit (bf_bold f || s_cbold s), bit (bf_italic f || s_citalic s))],
      [(if bf_underline f then Some "sng" else None, if bf_strike f then Some "sngStrike" else None,
        if bf_sub f then Some "-25000" else if bf_super f then Some "30000" else None)],
      (want_mark (b_style b), [want_colors (match bf_color f with Some c => Some c | None => s_ccolor s end) (bf_highlight f) (bf_font f)]))
  end.
(** Sizes small enough for the hundredths to fit 32 bits. *)
Definition size_ok (o : option N) : bool := match o with Some n => (n * 100 <=? u32_max)%N | None => true end.
Definition sizes_ok (s : slide) : bool :=
  size_ok (s_csize s) && forallb (fun b => match b_format b with Some f => size_ok (bf_size f) | None => true end) (s_bullets s).

(** The title: aligned and formatted as the caller asked; the default size
    depends on the layout, and section headers are always bold. *)
Definition title_want (s : slide) :=
  let size := or_default (s_tsize s) match s_layout s with SectionHeader => 48%N | CenteredTitle => 54%N | _ => 44%N end in
  let bold := match s_layout s with SectionHeader => true | _ => s_tbold s end in
  ([match s_layout s with SectionHeader | CenteredTitle => "ctr" | _ => "l" end],
   [(Some (bit bold), Some (bit (s_titalic s)), on "sng" (s_tunder s), Some (points size), opt_list (option_map color_value (s_tcolor s)), @nil string)]).
(** The transition effects and their attributes; a cut is written as none. *)
Definition want_transition (t : transition) : list (string * list (string * string)) :=
  match t with
  | NoTransition | Cut => [] | Fade => [("p:fade", [])] | Push => [("p:push", [("dir", "r")])] | Wipe => [("p:wipe", [("dir", "r")])]
  | Split => [("p:split", [("dir", "out"); ("orient", "horz")])] | Reveal => [("p:reveal", [("dir", "r")])]
  | Cover => [("p:cover", [("dir", "r")])] | Zoom => [("p:zoom", [("dir", "in")])]
  end.
(** A picture: place, crop (sides that are not cropped are left out), effects. *)
Definition nonzero (n : N) : option string := if (n =? 0)%N then None else Some (dec n).
Definition want_effect (e : effect) : string :=
  match e with Shadow => "a:outerShdw" | Reflection => "a:reflection" | Glow => "a:glow" | SoftEdges => "a:softEdge" | InnerShadow => "a:innerShdw" | Blur => "a:blur" end.
Definition want_picture (i : image) :=
  ([[("x", dec (im_x i)); ("y", dec (im_y i))]; [("cx", dec (im_w i)); ("cy", dec (im_h i))]],
   opt_list (option_map (fun c => (nonzero (cr_l c), nonzero (cr_t c), nonzero (cr_r c), nonzero (cr_b c))) (im_crop i)),
   map want_effect (im_effects i)).
(** A shape: angles are in 60000ths of a degree; a gradient replaces the fill. *)
Definition degrees (d : direction) : N :=
  match d with Horizontal => 0 | Vertical => 90 | DiagonalDown => 45 | DiagonalUp => 315 | Angle n => n end%N.
Definition want_tint (c : string) (a : option N) : string * list string := (c, opt_list (option_map dec a)).
Definition want_paint (t : shape) :=
  (match sh_gradient t with Some _ => [] | None => opt_list (option_map (fun f => want_tint (fl_color f) (fl_alpha f)) (sh_fill t)) end,
   match sh_gradient t with Some g => map (fun s => (dec (st_pos s), [want_tint (st_color s) (st_alpha s)])) (stops g) | None => [] end,
   match sh_gradient t with Some g => [dec (degrees (g_dir g) * 60000)] | None => [] end,
   opt_list (option_map (fun l => (dec (ln_width l), [ln_color l])) (sh_line t)),
   [option_map (fun r => zdec (r * 60000)) (sh_rotation t)]).
(** Angles small enough for the 60000ths to fit 32 bits. *)
Definition turns_ok (t : shape) : bool :=
  match sh_rotation t with Some r => (Z.leb (-2147483648) (r * 60000) && Z.leb (r * 60000) 2147483647)%Z | None => true end
  && match sh_gradient t with Some g => (degrees (g_dir g) * 60000 <=? u32_max)%N | None => true end.

(** The paragraphs [ps] show the text [t]: as one paragraph or line by line. *)
Definition shows_text (t : string) (ps : list string) : Prop := ps = [t] \/ sjoin nl ps = t \/ sjoin nl ps ++ nl = t.
(** The element [n] shows the shape [t]: geometry, place, size, text, hyperlink,
    paint. *)
Definition shape_shown (n : node) (t : shape) : Prop :=
  (forall g, figure (sh_type t) = Some g -> map (attr "prst") (at_path ["p:spPr"; "a:prstGeom"] n) = [g])
  /\ placed n = [[("x", dec (sh_x t)); ("y", dec (sh_y t))]; [("cx", dec (sh_w t)); ("cy", dec (sh_h t))]]
  /\ match sh_text t with Some u => shows_text u (shape_paragraphs n) | None => sconcat (shape_paragraphs n) = "" end
  /\ map (attr "r:id") (at_path ["p:nvSpPr"; "p:cNvPr"; "a:hlinkClick"] n)
     = match sh_link t with Some h => match h_rid h with Some r => [r] | None => [] end | None => [] end
  /\ (turns_ok t = true -> paint n = want_paint t).
(** A chart: the relationship id and the place of its frame. *)
Definition chart_shown (f : node) (c : chart * string) : Prop :=
  chart_ids f = [snd c] /\ frame f = [(dec (cx0 (fst c)), dec (cy0 (fst c))); (dec (cw (fst c)), dec (ch (fst c)))].
(** A code block: place, size and the code, unchanged. *)
Definition code_shown (n : node) (c : code_block) : Prop :=
  placed n = [[("x", zdec (cb_x c)); ("y", zdec (cb_y c))]; [("cx", zdec (cb_w c)); ("cy", zdec (cb_h c))]]
  /\ map text_in (at_path ["p:txBody"; "a:t"] n) = [cb_code c].
(** A connector: end points, glue, label and line (see ConnectorSpec). *)
Definition connector_shown (n : node) (c : connector) : Prop := exists b, shows n b /\
  start_of b = (start_x c, start_y c) /\ end_of b = (end_x c, end_y c) /\
  glued n "a:stCxn" (both (start_shape c) (option_map site_index (start_site c))) /\
  glued n "a:endCxn" (both (end_shape c) (option_map site_index (end_site c))) /\
  map text_in (at_path ["p:txBody"; "a:p"; "a:r"; "a:t"] n) = match label c with Some l => [l] | None => [] end /\
  line_look n = want_line c.
(** The image with index [i] has relationship id [rId2 + i], or one more when
    the slide has notes. *)
Definition image_rid (s : slide) (i : nat) : string := "rId" ++ decn (2 + (match s_notes s with Some _ => 1 | None => 0 end) + i).
(** The relationship id of a shape's hyperlink, when the caller gave one. *)
Definition link_ids (t : shape) : list string := match sh_link t with Some h => match h_rid h with Some r => [r] | None => [] end | None => [] end.
