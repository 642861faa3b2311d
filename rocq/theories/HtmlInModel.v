(** Model of src/import/html.rs: from HTML text to slides.
    A text of characters is a list of strings, one per character (its UTF-8
    bytes), where the program indexes a [Vec<char>], and their concatenation
    where it uses a [str]. *)
From Coq Require Import String Ascii List Bool Arith NArith ZArith.
From Verif Require Import Str Num ColorModel TableModel ConnectorModel ShapeModel SlideModel MdParseModel.
Import ListNotations.
Open Scope nat_scope.
Open Scope string_scope.

(** html.rs:45-58 [HtmlParseOptions], 60-70 [default] *)
Record html_in := HtmlIn { max_slides : nat; max_bullets : nat; with_codes : bool; with_tables : bool; with_images : bool }.
Definition html_in_default : html_in := HtmlIn 50 10 true true true.
(** html.rs:117-122 [HtmlEvent] *)
Inductive tag_event := Open (name : string) (attrs : list (string * string)) | Close (name : string) | Chars (t : string).

(** ** Entities *)
(** [char::from_u32] and its UTF-8 bytes *)
Definition byte (n : N) : ascii := ascii_of_N n.
Definition utf8 (n : N) : option string :=
  (if n <? 128 then Some (String (byte n) "")
   else if n <? 2048 then Some (String (byte (192 + n / 64)) (String (byte (128 + n mod 64)) ""))
   else if (n <? 55296) || ((57344 <=? n) && (n <? 65536)) then Some (String (byte (224 + n / 4096)) (String (byte (128 + (n / 64) mod 64)) (String (byte (128 + n mod 64)) "")))
   else if (65536 <=? n) && (n <? 1114112) then Some (String (byte (240 + n / 262144)) (String (byte (128 + (n / 4096) mod 64)) (String (byte (128 + (n / 64) mod 64)) (String (byte (128 + n mod 64)) ""))))
   else None)%N.
(** html.rs:132-158: the character an entity stands for *)
Definition entity (e : string) : option string :=
  if String.eqb e "amp" then Some "&" else if String.eqb e "lt" then Some "<" else if String.eqb e "gt" then Some ">"
  else if String.eqb e "quot" then Some """" else if String.eqb e "apos" || String.eqb e "#39" || String.eqb e "#x27" then Some "'"
  else if String.eqb e "nbsp" then utf8 160
  else if String.eqb e "#x2018" then utf8 8216 else if String.eqb e "#x2019" then utf8 8217
  else if String.eqb e "#x201c" then utf8 8220 else if String.eqb e "#x201d" then utf8 8221
  else if String.eqb e "#x2014" then utf8 8212 else if String.eqb e "#x2013" then utf8 8211
  else match strip_prefix "#x" e with
       | Some hex => match from_hex_str u32_max hex with Some n => utf8 n | None => None end
       | None => match strip_prefix "#" e with
                 | Some num => match parse_uint u32_max num with Some n => utf8 n | None => None end
                 | None => None
                 end
       end.
(** html.rs:125-168 [decode_entities]; the fuel is the length, every turn takes
    at least one byte.  A character is copied byte by byte. *)
Fixpoint decode (fuel : nat) (s : string) : string :=
  match fuel, s with
  | O, _ => s
  | _, "" => ""
  | S f, String c r =>
      if Ascii.eqb c "&" then
        match split_once ";" r with
        | Some (e, rest) => match entity e with Some u => u ++ decode f rest | None => String c (decode f r) end
        | None => String c (decode f r)
        end
      else String c (decode f r)
  end.
Definition decode_entities (s : string) : string := decode (String.length s) s.

Section Import.
(** [str::trim], [str::to_lowercase], [str::to_uppercase] and
    [char::is_alphanumeric], which depend on Unicode tables; any functions. *)
Variable trim : string -> string.
Variables lower upper : string -> string.
Variable alnum : string -> bool.
(** html.rs:255-266 [parse_font_size]: uses floating-point numbers; any function *)
Variable font_size : string -> option N.
(** html.rs:1015-1046 [load_image]; any function *)
Variable load_image : string -> option image.

(** ** Reading tags *)
(** html.rs:423-570 [tokenize_html] *)
Definition is (c : string) (x : string) : bool := String.eqb x c.
Definition blank (c : string) : bool := is " " c || is (String "009" "") c || is (String "010" "") c || is (String "013" "") c.
Definition name_char (c : string) : bool := alnum c || is "-" c || is ":" c || is "_" c || is "." c.
(** [while i < len && p(chars[i])] *)
Fixpoint span (p : string -> bool) (l : list string) : list string * list string :=
  match l with
  | [] => ([], [])
  | c :: r => if p c then let '(a, b) := span p r in (c :: a, b) else ([], l)
  end.
(** html.rs:437-444 *)
Fixpoint skip_comment (l : list string) : list string :=
  match l with
  | a :: ((b :: c :: rest) as r) => if is "-" a && is "-" b && is ">" c then rest else skip_comment r
  | _ => []
  end.
(** html.rs:491-545: the attributes, and the text from ">" on.  [None]: out of
    fuel. *)
Fixpoint attributes (fuel : nat) (l : list string) : option (list (string * string) * list string) :=
  match fuel with
  | O => None
  | S f =>
      match l with
      | [] => Some ([], [])
      | c :: _ =>
          if is ">" c then Some ([], l)
          else
            match snd (span blank l) with
            | [] => Some ([], [])
            | c :: r =>
                if is ">" c then Some ([], c :: r)
                else if is "/" c then attributes f r
                else
                  let '(n, l) := span (fun c => negb (is "=" c || is ">" c || blank c || is "/" c)) (c :: r) in
                  let l := snd (span blank l) in
                  let '(v, l) :=
                    match l with
                    | c :: r =>
                        if is "=" c then
                          match snd (span blank r) with
                          | q :: r2 =>
                              if is """" q || is "'" q then
                                let '(v, l) := span (fun c => negb (String.eqb c q)) r2 in (v, match l with _ :: l => l | [] => [] end)
                              else span (fun c => negb (is ">" c || blank c || is "/" c)) (q :: r2)
                          | [] => ([], [])
                          end
                        else ([], l)
                    | [] => ([], [])
                    end in
                  match attributes f l with
                  | Some (attrs, l) => Some ((lower (sconcat n), decode_entities (sconcat v)) :: attrs, l)
                  | None => None
                  end
            end
      end
  end.
Definition tail (l : list string) : list string := match l with _ :: l => l | [] => [] end.
Fixpoint tokens (fuel : nat) (l : list string) : option (list tag_event) :=
  match fuel with
  | O => None
  | S f =>
      match l with
      | [] => Some []
      | c :: r =>
          if is "<" c then
            match r with
            | [] => Some []
            | b :: r2 =>
                if is "!" b && match r2 with x :: y :: _ => is "-" x && is "-" y | _ => false end then tokens f (skip_comment (tail (tail r2)))
                else if is "!" b then tokens f (tail (snd (span (fun c => negb (is ">" c)) r)))
                else if is "/" b then
                  let '(n, l) := span (fun c => negb (is ">" c)) (snd (span blank r2)) in
                  let name := sconcat (filter name_char n) in
                  match tokens f (tail l) with
                  | Some evs => Some (if String.eqb name "" then evs else Close (lower name) :: evs)
                  | None => None
                  end
                else
                  let '(n, l) := span name_char (snd (span blank r)) in
                  let name := lower (sconcat n) in
                  match attributes (S (length l)) l with
                  | Some (attrs, l) =>
                      match tokens f (tail l) with
                      | Some evs => Some (if String.eqb name "" then evs else Open name attrs :: evs)
                      | None => None
                      end
                  | None => None
                  end
            end
          else
            let '(t, l) := span (fun c => negb (is "<" c)) l in
            match tokens f l with
            | Some evs => Some (if String.eqb (trim (sconcat t)) "" then evs else Chars (decode_entities (sconcat t)) :: evs)
            | None => None
            end
      end
  end.
Definition tokenize (l : list string) : option (list tag_event) := tokens (S (length l)) l.

(** ** Styles *)
(** html.rs:175-224 [css_named_color] *)
Definition named_colors : list (string * string) :=
  [("red", "FF0000"); ("blue", "0000FF"); ("green", "008000"); ("yellow", "FFFF00"); ("white", "FFFFFF"); ("black", "000000");
   ("gray", "808080"); ("grey", "808080"); ("silver", "C0C0C0"); ("maroon", "800000"); ("purple", "800080"); ("fuchsia", "FF00FF");
   ("lime", "00FF00"); ("olive", "808000"); ("navy", "000080"); ("teal", "008080"); ("aqua", "00FFFF"); ("orange", "FFA500");
   ("pink", "FFC0CB"); ("coral", "FF7F50"); ("tomato", "FF6347"); ("darkred", "8B0000"); ("darkblue", "00008B"); ("darkgreen", "006400");
   ("darkgray", "A9A9A9"); ("darkgrey", "A9A9A9"); ("lightgray", "D3D3D3"); ("lightgrey", "D3D3D3"); ("darkorange", "FF8C00");
   ("brown", "A52A2A"); ("crimson", "DC143C"); ("gold", "FFD700"); ("goldenrod", "DAA520"); ("indigo", "4B0082"); ("salmon", "FA8072");
   ("chocolate", "D2691E"); ("steelblue", "4682B4"); ("violet", "EE82EE"); ("orchid", "DA70D6"); ("plum", "DDA0DD"); ("wheat", "F5DEB3");
   ("deeppink", "FF1493"); ("hotpink", "FF69B4"); ("royalblue", "4169E1"); ("skyblue", "87CEEB"); ("seagreen", "2E8B57"); ("forestgreen", "228B22")].
Definition assoc (k : string) (l : list (string * string)) : option string := option_map snd (find (fun '(n, _) => String.eqb n k) l).
(** The characters of a UTF-8 text, each as its bytes. *)
Definition continues (c : ascii) : bool := let n := N_of_ascii c in (128 <=? n)%N && (n <=? 191)%N.
Fixpoint chars (s : string) : list string :=
  match s with
  | "" => []
  | String c r => match chars r with
                  | (String d x) :: l => if continues d then String c (String d x) :: l else String c "" :: String d x :: l
                  | l => String c "" :: l
                  end
  end.
(** html.rs:226-252 [parse_css_color]; [hex[..6]] panics within a character *)
Definition css_color (value : string) : outcome (option string) :=
  let value := trim value in
  match strip_prefix "#" value with
  | Some hex =>
      match String.length hex with
      | 3 => Ret (Some (upper (sconcat (map (fun c => c ++ c) (chars hex)))))
      | 6 => Ret (Some (upper hex))
      | 8 => bind (slice 0 6 hex) (fun h => Ret (Some (upper h)))
      | _ => Ret None
      end
  | None =>
      match assoc value named_colors with
      | Some h => Ret (Some h)
      | None =>
          match (match strip_prefix "rgba(" value with Some r => Some r | None => strip_prefix "rgb(" value end) with
          | Some rgb =>
              match split_once ")" (srev rgb) with
              | Some (_, inside) =>
                  match split_char "," (srev inside) with
                  | r :: g :: b :: _ =>
                      Ret (match parse_uint u8_max (trim r), parse_uint u8_max (trim g), parse_uint u8_max (trim b) with
                           | Some r, Some g, Some b => Some (hexw 2 r ++ hexw 2 g ++ hexw 2 b)
                           | _, _, _ => None
                           end)
                  | _ => Ret None
                  end
              | None => Ret None
              end
          | None => Ret None
          end
      end
  end.
(** html.rs:269-277 *)
Definition weight_bold (v : string) : bool := existsb (String.eqb (lower (trim v))) ["bold"; "bolder"; "700"; "800"; "900"].
Definition style_italic (v : string) : bool := existsb (String.eqb (lower (trim v))) ["italic"; "oblique"].
(** html.rs:278-298 [InlineStyle]; [y_other]: whether one of the nine properties
    that are only kept, never used, is set. *)
Record style := Style { y_color : option string; y_back : option string; y_size : option N; y_weight : option string; y_style : option string; y_deco : option string; y_family : option string; y_other : bool }.
Definition style0 : style := Style None None None None None None None false.
(** html.rs:300-334 [InlineStyle::parse] *)
Definition OTHER_PROPERTIES : list string := ["text-align"; "margin-top"; "margin-bottom"; "margin-left"; "margin-right"; "padding"; "border"; "line-height"; "letter-spacing"].
Definition trim_matches (q : ascii) (s : string) : string := trim_end_by (Ascii.eqb q) (trim_start_by (Ascii.eqb q) s).
Definition declare (y : style) (decl : string) : outcome style :=
  let decl := trim decl in
  match split_once ":" decl with
  | None => Ret y
  | Some (p, v) =>
      let p := lower (trim p) in let v := trim v in
      if String.eqb p "color" then bind (css_color v) (fun c => Ret (Style c (y_back y) (y_size y) (y_weight y) (y_style y) (y_deco y) (y_family y) (y_other y)))
      else if String.eqb p "background-color" then bind (css_color v) (fun c => Ret (Style (y_color y) c (y_size y) (y_weight y) (y_style y) (y_deco y) (y_family y) (y_other y)))
      else if String.eqb p "font-size" then Ret (Style (y_color y) (y_back y) (font_size v) (y_weight y) (y_style y) (y_deco y) (y_family y) (y_other y))
      else if String.eqb p "font-weight" then Ret (Style (y_color y) (y_back y) (y_size y) (Some v) (y_style y) (y_deco y) (y_family y) (y_other y))
      else if String.eqb p "font-style" then Ret (Style (y_color y) (y_back y) (y_size y) (y_weight y) (Some v) (y_deco y) (y_family y) (y_other y))
      else if String.eqb p "text-decoration" then Ret (Style (y_color y) (y_back y) (y_size y) (y_weight y) (y_style y) (Some v) (y_family y) (y_other y))
      else if String.eqb p "font-family" then Ret (Style (y_color y) (y_back y) (y_size y) (y_weight y) (y_style y) (y_deco y) (Some (trim_matches "'" (trim_matches """" v))) (y_other y))
      else if existsb (String.eqb p) OTHER_PROPERTIES then Ret (Style (y_color y) (y_back y) (y_size y) (y_weight y) (y_style y) (y_deco y) (y_family y) true)
      else Ret y
  end.
Fixpoint declare_all (y : style) (l : list string) : outcome style :=
  match l with [] => Ret y | d :: l => bind (declare y d) (fun y => declare_all y l) end.
Definition style_parse (s : string) : outcome style := declare_all style0 (split_char ";" s).
(** html.rs:337-356 [merge] *)
Definition merge_styles (a b : style) : style :=
  Style (orelse (y_color b) (y_color a)) (orelse (y_back b) (y_back a)) (orelse (y_size b) (y_size a)) (orelse (y_weight b) (y_weight a))
    (orelse (y_style b) (y_style a)) (orelse (y_deco b) (y_deco a)) (orelse (y_family b) (y_family a)) (y_other b || y_other a).
(** html.rs:359-376 [is_empty] *)
Definition unstyled (y : style) : bool :=
  match y_color y, y_back y, y_size y, y_weight y, y_style y, y_deco y, y_family y with
  | None, None, None, None, None, None, None => negb (y_other y)
  | _, _, _, _, _, _, _ => false
  end.
(** html.rs:379-409 [to_bullet_format] *)
Definition clean_color (c : string) : string := upper (trim_start_by is_hash c).
Definition holds {A} (p : A -> bool) (o : option A) : bool := match o with Some a => p a | None => false end.
Definition bullet_style_of (y : style) : option bullet_format :=
  if unstyled y then None
  else Some (Format (holds weight_bold (y_weight y)) (holds style_italic (y_style y)) (holds (contains "underline") (y_deco y)) (holds (contains "line-through") (y_deco y)) false false
         (option_map clean_color (y_color y)) (option_map clean_color (y_back y)) (y_size y) (y_family y)).

(** ** Slides *)
(** html.rs:417-421, 577-580 *)
Definition VOID_TAGS : list string := ["area"; "base"; "br"; "col"; "embed"; "hr"; "img"; "input"; "link"; "meta"; "param"; "source"; "track"; "wbr"].
Definition SKIP_TAGS : list string := ["script"; "style"; "noscript"; "nav"; "form"; "svg"; "canvas"; "iframe"; "title"].
Definition among (l : list string) (n : string) : bool := existsb (String.eqb n) l.
(** html.rs:582-603 [HtmlSlideParser]; the stacks have their top first.  Left
    out: [in_list], [italic] and [current_href], which nothing reads. *)
Record hstate := HState {
  hslides : list slide; hcur : option slide; buf : string; tags : list string; styles : list style;
  tabling : bool; coding : bool; quoting : bool;
  hitems : list (string * option bullet_format); hrows : list (list string); hrow : list string; hcell : string;
  hcode : string; hquote : string; ptitle : option string }.
Definition hstate0 : hstate := HState [] None "" [] [] false false false [] [] [] "" "" "" None.
(** Field updates. *)
Definition with_slides v s := HState v (hcur s) (buf s) (tags s) (styles s) (tabling s) (coding s) (quoting s) (hitems s) (hrows s) (hrow s) (hcell s) (hcode s) (hquote s) (ptitle s).
Definition with_cur v s := HState (hslides s) v (buf s) (tags s) (styles s) (tabling s) (coding s) (quoting s) (hitems s) (hrows s) (hrow s) (hcell s) (hcode s) (hquote s) (ptitle s).
Definition with_buf v s := HState (hslides s) (hcur s) v (tags s) (styles s) (tabling s) (coding s) (quoting s) (hitems s) (hrows s) (hrow s) (hcell s) (hcode s) (hquote s) (ptitle s).
Definition with_tags v s := HState (hslides s) (hcur s) (buf s) v (styles s) (tabling s) (coding s) (quoting s) (hitems s) (hrows s) (hrow s) (hcell s) (hcode s) (hquote s) (ptitle s).
Definition with_styles v s := HState (hslides s) (hcur s) (buf s) (tags s) v (tabling s) (coding s) (quoting s) (hitems s) (hrows s) (hrow s) (hcell s) (hcode s) (hquote s) (ptitle s).
Definition with_modes t c q s := HState (hslides s) (hcur s) (buf s) (tags s) (styles s) t c q (hitems s) (hrows s) (hrow s) (hcell s) (hcode s) (hquote s) (ptitle s).
Definition with_items v s := HState (hslides s) (hcur s) (buf s) (tags s) (styles s) (tabling s) (coding s) (quoting s) v (hrows s) (hrow s) (hcell s) (hcode s) (hquote s) (ptitle s).
Definition with_rows v s := HState (hslides s) (hcur s) (buf s) (tags s) (styles s) (tabling s) (coding s) (quoting s) (hitems s) v (hrow s) (hcell s) (hcode s) (hquote s) (ptitle s).
Definition with_row v s := HState (hslides s) (hcur s) (buf s) (tags s) (styles s) (tabling s) (coding s) (quoting s) (hitems s) (hrows s) v (hcell s) (hcode s) (hquote s) (ptitle s).
Definition with_cell v s := HState (hslides s) (hcur s) (buf s) (tags s) (styles s) (tabling s) (coding s) (quoting s) (hitems s) (hrows s) (hrow s) v (hcode s) (hquote s) (ptitle s).
Definition with_hcode v s := HState (hslides s) (hcur s) (buf s) (tags s) (styles s) (tabling s) (coding s) (quoting s) (hitems s) (hrows s) (hrow s) (hcell s) v (hquote s) (ptitle s).
Definition with_hquote v s := HState (hslides s) (hcur s) (buf s) (tags s) (styles s) (tabling s) (coding s) (quoting s) (hitems s) (hrows s) (hrow s) (hcell s) (hcode s) v (ptitle s).
Definition with_ptitle v s := HState (hslides s) (hcur s) (buf s) (tags s) (styles s) (tabling s) (coding s) (quoting s) (hitems s) (hrows s) (hrow s) (hcell s) (hcode s) (hquote s) v.

Variable options : html_in.

(** html.rs:630-632 [active_style] with [to_bullet_format] *)
Definition active (s : hstate) : option style := match styles s with y :: _ => Some y | [] => None end.
Definition active_format (s : hstate) : option bullet_format := match active s with Some y => bullet_style_of y | None => None end.
(** Pushing a line and its bullet. *)
Definition add_line (t : string) (f : option bullet_format) (s : slide) : slide :=
  Slide (s_title s) (s_content s ++ [t])%list (s_bullets s ++ [BulletPoint t 0 (s_style s) f])%list (s_style s) (s_tsize s) (s_csize s) (s_tbold s) (s_cbold s) (s_titalic s) (s_citalic s) (s_tunder s)
    (s_tcolor s) (s_ccolor s) (s_layout s) (s_transition s) (s_table s) (s_shapes s) (s_images s) (s_notes s) (s_connectors s) (s_charts s) (s_code s) (s_ink s).
Definition limited (s : slide) : bool := Nat.ltb (length (s_content s)) (max_bullets options).
(** html.rs:872-891 [add_formatted_text] *)
Definition add_formatted_text (t : string) (s : hstate) : hstate :=
  with_cur (Some (add_line t (active_format s) (match hcur s with Some sl => sl | None => slide_new "Slide" end))) s.
(** html.rs:893-915 [add_paragraph] *)
Definition or_else (o : option string) (d : string) : string := match o with Some t => t | None => d end.
Definition h_paragraph (t : string) (s : hstate) : hstate :=
  match hcur s with
  | Some sl => if limited sl then with_cur (Some (add_line t (active_format s) sl)) s else s
  | None => with_cur (Some (add_line t (active_format s) (slide_new (or_else (ptitle s) "Overview")))) s
  end.
(** html.rs:917-923 [flush_text_buffer] *)
Definition flush_buf (s : hstate) : hstate :=
  let t := trim (buf s) in let s := with_buf "" s in if String.eqb t "" then s else h_paragraph t s.
(** html.rs:925-957 [flush_list_items] *)
Definition flush_items (s : hstate) : hstate :=
  match hitems s with
  | [] => s
  | l => let sl := match hcur s with Some sl => sl | None => slide_new (or_else (ptitle s) "Key Points") end in
         with_cur (Some (fold_left (fun sl '(t, f) => if limited sl then add_line t f sl else sl) l sl)) (with_items [] s)
  end.
(** The pattern that puts something on the current slide or a new one. *)
Definition on_cur (title : string) (f : slide -> slide) (s : hstate) : hstate :=
  with_cur (Some (f (match hcur s with Some sl => sl | None => slide_new title end))) s.
(** html.rs:959-976 [flush_table] *)
Definition h_flush_table (s : hstate) : outcome hstate :=
  if negb (with_tables options) then Ret s
  else match hrows s with
       | [] => Ret s
       | rs => bind (table_from_string_rows rs true) (fun t => Ret (on_cur "Data Table" (with_table t) (with_rows [] s)))
       end.
(** html.rs:978-993 [flush_code_block] *)
Definition h_flush_code (s : hstate) : hstate :=
  if negb (with_codes options) || String.eqb (hcode s) "" then s
  else on_cur "Code" (with_code (Code (trim (hcode s)) "text" 500000 1800000 8000000 4000000)) (with_hcode "" s).
(** html.rs:995-1004 [flush_blockquote] *)
Definition h_flush_quote (s : hstate) : hstate :=
  let t := trim (hquote s) in let s := with_hquote "" s in
  if String.eqb t "" then s else with_cur (option_map (with_notes t) (hcur s)) s.
(** html.rs:1006-1012 [finalize_current_slide] *)
Definition h_finalize (s : hstate) : hstate :=
  let s := flush_items (flush_buf s) in
  match hcur s with Some sl => with_cur None (with_slides (hslides s ++ [sl])%list s) | None => s end.
(** html.rs:665-667 [is_inside_skip_tag] *)
Definition skipping (s : hstate) : bool := existsb (among SKIP_TAGS) (tags s).
Definition attr (k : string) (attrs : list (string * string)) : string := or_else (assoc k attrs) "".
(** html.rs:674-683: the style of an opened element *)
Definition push_style (name : string) (attrs : list (string * string)) (s : hstate) : outcome hstate :=
  if among VOID_TAGS name then Ret s
  else let parent := match active s with Some y => y | None => style0 end in
       match assoc "style" attrs with
       | Some v => bind (style_parse v) (fun y => Ret (with_styles (merge_styles parent y :: styles s) s))
       | None => Ret (with_styles (parent :: styles s) s)
       end.
Definition HEADINGS : list string := ["h2"; "h3"; "h4"; "h5"; "h6"].
(** html.rs:669-758 [handle_open_tag] *)
Definition open_tag (name : string) (attrs : list (string * string)) (s : hstate) : outcome hstate :=
  if skipping s then Ret s
  else bind (push_style name attrs s) (fun s => Ret (
    if String.eqb name "h1" then h_finalize (flush_buf s)
    else if among HEADINGS name then flush_buf s
    else if String.eqb name "pre" then with_hcode "" (with_modes (tabling s) true (quoting s) s)
    else if String.eqb name "table" then with_rows [] (with_modes true (coding s) (quoting s) s)
    else if String.eqb name "blockquote" then with_hquote "" (with_modes (tabling s) (coding s) true s)
    else if among ["ul"; "ol"] name then with_items [] s
    else if among ["strong"; "b"] name then with_buf (buf s ++ "**") s
    else if among ["em"; "i"] name then with_buf (buf s ++ "*") s
    else if String.eqb name "img" then
      if with_images options && negb (String.eqb (attr "src" attrs) "") then
        match load_image (attr "src" attrs) with
        | Some i => on_cur "Image" (with_image i) s
        | None => h_paragraph ("[Image: " ++ (if String.eqb (attr "alt" attrs) "" then attr "src" attrs else attr "alt" attrs) ++ "]") s
        end
      else s
    else if String.eqb name "br" then with_buf (buf s ++ nl) s
    else if String.eqb name "hr" then h_finalize (flush_buf s)
    else s)).
(** html.rs:766-783: the title of a new slide, with the style of the heading *)
Definition styled_slide (title : string) (y : option style) : slide :=
  let s := slide_new title in
  match y with
  | None => s
  | Some y =>
      Slide (s_title s) [] [] (s_style s) (orelse (y_size y) (s_tsize s)) (s_csize s) (holds weight_bold (y_weight y) || s_tbold s) (s_cbold s)
        (holds style_italic (y_style y) || s_titalic s) (s_citalic s) (holds (contains "underline") (y_deco y) || s_tunder s)
        (orelse (option_map clean_color (y_color y)) (s_tcolor s)) (s_ccolor s) (s_layout s) (s_transition s) (s_table s) (s_shapes s) (s_images s) (s_notes s) (s_connectors s) (s_charts s) (s_code s) (s_ink s)
  end.
(** html.rs:760-854 [handle_close_tag] *)
Definition pop_style (name : string) (s : hstate) : hstate :=
  if among VOID_TAGS name then s else with_styles (match styles s with _ :: l => l | [] => [] end) s.
Definition close_tag (name : string) (s : hstate) : outcome hstate :=
  if skipping s then Ret s
  else bind (
    let t := trim (buf s) in
    if String.eqb name "h1" then
      let s := with_buf "" s in
      let s := match ptitle s with None => if String.eqb t "" then s else with_ptitle (Some t) s | Some _ => s end in
      Ret (with_cur (Some (styled_slide (if String.eqb t "" then "Slide" else t) (active s))) s)
    else if among HEADINGS name then
      let s := with_buf "" s in Ret (if String.eqb t "" then s else add_formatted_text ("**" ++ t ++ "**") s)
    else if among ["p"; "div"; "article"; "section"; "main"] name then
      let s := with_buf "" s in Ret (if String.eqb t "" then s else h_paragraph t s)
    else if String.eqb name "li" then
      let s := with_buf "" s in Ret (if String.eqb t "" then s else with_items (hitems s ++ [(t, active_format s)])%list s)
    else if among ["ul"; "ol"] name then Ret (flush_items s)
    else if String.eqb name "pre" then Ret (h_flush_code (with_modes (tabling s) false (quoting s) s))
    else if String.eqb name "table" then h_flush_table (with_modes false (coding s) (quoting s) s)
    else if String.eqb name "blockquote" then Ret (h_flush_quote (with_modes (tabling s) (coding s) false s))
    else if among ["th"; "td"] name then Ret (with_row (hrow s ++ [trim (hcell s)])%list (with_cell "" s))
    else if String.eqb name "tr" then Ret (match hrow s with [] => s | r => with_row [] (with_rows (hrows s ++ [r])%list s) end)
    else if among ["strong"; "b"] name then Ret (with_buf (buf s ++ "**") s)
    else if among ["em"; "i"] name then Ret (with_buf (buf s ++ "*") s)
    else Ret s) (fun s => Ret (pop_style name s)).
(** html.rs:856-870 [handle_text] *)
Definition chars_in (t : string) (s : hstate) : hstate :=
  if skipping s then s
  else if coding s then with_hcode (hcode s ++ t) s
  else if tabling s then with_cell (hcell s ++ t) s
  else if quoting s then with_hquote (hquote s ++ t) s
  else with_buf (buf s ++ t) s.
(** html.rs:635-649: one event *)
Definition tag_step (s : hstate) (e : tag_event) : outcome hstate :=
  match e with
  | Open n attrs => open_tag n attrs (with_tags (n :: tags s) s)
  | Close n => bind (close_tag n s) (fun s => Ret (with_tags (match tags s with _ :: l => l | [] => [] end) s))
  | Chars t => Ret (chars_in t s)
  end.
Fixpoint tag_steps (s : hstate) (l : list tag_event) : outcome hstate :=
  match l with [] => Ret s | e :: l => bind (tag_step s e) (fun s => tag_steps s l) end.
(** html.rs:634-663 [parse]; [Ret None] is the error "No slide content found in
    HTML" *)
Definition parse_events (l : list tag_event) : outcome (option (list slide)) :=
  bind (tag_steps hstate0 l) (fun s =>
    match hslides (h_finalize s) with [] => Ret None | out => Ret (Some (firstn (max_slides options) out)) end).
(** html.rs:1087-1090 [Html2Ppt::parse]; the outer [None]: out of fuel (never,
    see the proofs) *)
Definition parse_html (html : list string) : option (outcome (option (list slide))) := option_map parse_events (tokenize html).
End Import.
