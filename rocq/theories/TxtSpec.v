(** What a reader finds of runs, paragraphs and frames of text. *)
From Coq Require Import String Ascii List Bool Arith NArith.
From Verif Require Import Str Num XmlSpec XmlProofs OpcSpec XmlPath LookSpec TableModel TableSpec TxtModel.
Import ListNotations.
Open Scope string_scope.

(** Texts and typefaces XML can carry, colours of hexadecimal digits, sizes that
    fit in 32 bits as hundredths of a point. *)
Definition points_ok (o : option N) : bool := match o with Some n => (n * 100 <=? u32_max)%N | None => true end.
Definition trun_ok (r : trun) : bool :=
  text_ok (r_text r) && opt_ok color_ok (f_color (r_format r)) && opt_ok attr_ok (f_font (r_format r)) && points_ok (f_size (r_format r)).
Definition tframe_ok (f : tframe) : bool := forallb (fun p => forallb trun_ok (p_runs p)) (t_paras f).

(** A run: its text, and its looks. *)
Definition run_seen (r : node) := (map text_in (at_path ["a:t"] r), map run_look (at_path ["a:rPr"] r)).
(** A paragraph: alignment, level, space before and after, bullets; its runs. *)
Definition vals_at (p : list string) (x : node) : list string := map (attr "val") (at_path p x).
Definition para_seen (p : node) :=
  (map (fun q => (attr_opt "algn" q, attr_opt "lvl" q, vals_at ["a:spcBef"; "a:spcPts"] q, vals_at ["a:spcAft"; "a:spcPts"] q, map (attr "char") (at_path ["a:buChar"] q))) (at_path ["a:pPr"] p),
   map run_seen (at_path ["a:r"] p)).
(** The frame: wrapping, margins left, right, top, bottom, where the text sits. *)
Definition body_seen (x : node) :=
  map (fun b => (attr_opt "wrap" b, [attr_opt "lIns" b; attr_opt "rIns" b; attr_opt "tIns" b; attr_opt "bIns" b], attr_opt "anchor" b)) (at_path ["a:bodyPr"] x).

(** What is asked for. A size not given is 18 points. *)
Definition bit (b : bool) : string := if b then "1" else "0".
Definition want_trun (r : trun) :=
  let f := r_format r in
  ([r_text r], [(Some (bit (f_bold f)), Some (bit (f_italic f)), on "sng" (f_underline f), Some (dec (match f_size f with Some n => n * 100 | None => 1800 end)), opt_list (f_color f), opt_list (f_font f))]).
Definition want_talign (a : talign) : string := match a with TaLeft => "l" | TaCenter => "ctr" | TaRight => "r" | TaJustify => "just" end.
Definition want_tpara (p : tpara) :=
  ([(Some (want_talign (p_align p)), Some (dec (p_level p)), map dec (opt_list (p_before p)), map dec (opt_list (p_after p)), if p_bullet p then ["•"] else [])],
   map want_trun (p_runs p)).
Definition want_body (f : tframe) :=
  [(Some (if t_wrap f then "square" else "none"), map (fun n => Some (dec n)) [t_left f; t_right f; t_top f; t_bottom f],
    Some (match t_anchor f with TnTop => "t" | TnMiddle => "ctr" | TnBottom => "b" end))].

(** The properties of a run as the format on its own writes them. *)
Definition format_text (f : fmt) : string := "<a:rPr" ++ fmt_attrs f ++ ">" ++ fmt_highlight_xml f ++ "</a:rPr>".
Definition format_seen (x : node) :=
  ([attr_opt "b" x; attr_opt "i" x; attr_opt "u" x; attr_opt "strike" x; attr_opt "baseline" x; attr_opt "sz" x], vals_at ["a:highlight"; "a:srgbClr"] x).
Definition want_format (f : fmt) :=
  ([on "1" (f_bold f); on "1" (f_italic f); on "sng" (f_underline f); on "sngStrike" (f_strike f);
    if f_sub f then Some "-25000" else on "30000" (f_super f); option_map (fun n => dec (n * 100)) (f_size f)], opt_list (f_highlight f)).
(** Paragraph and run properties with what is said of text from the right. *)
Definition rtl_texts (x : rtl) : string := "<r><a:pPr" ++ rtl_ppr x ++ "/><a:rPr" ++ rtl_rpr x ++ ">" ++ rtl_font x ++ "</a:rPr></r>".
Definition rtl_seen (x : node) :=
  (map (attr_opt "rtl") (at_path ["a:pPr"] x), map (attr_opt "lang") (at_path ["a:rPr"] x), map (attr_opt "typeface") (at_path ["a:rPr"; "a:cs"] x)).
Definition root_name (x : node) : string := match x with Elem n _ _ => n | Txt _ => "" end.
(** The languages, by their tags. *)
Definition nth_lang (l : rtl_lang) : string :=
  nth (match l with Arabic => 0 | Hebrew => 1 | Urdu => 2 | Persian => 3 | Pashto => 4 | Sindhi => 5 | Kurdish => 6 | Yiddish => 7 end)
      ["ar-SA"; "he-IL"; "ur-PK"; "fa-IR"; "ps-AF"; "sd-PK"; "ku-IQ"; "yi-001"] "".
