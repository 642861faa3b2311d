(** Runs, paragraphs and frames of text on their own (src/generator/text). *)
From Coq Require Import String Ascii List Bool Arith NArith.
From Verif Require Import Str Num EscapeModel TableModel.
Import ListNotations.
Open Scope string_scope.

(** text/mod.rs:21-41 [TextAlign], [to_xml] *)
Inductive talign := TaLeft | TaCenter | TaRight | TaJustify.
Definition talign_value (a : talign) : string := match a with TaLeft => "l" | TaCenter => "ctr" | TaRight => "r" | TaJustify => "just" end.
(** text/mod.rs:43-61 [TextAnchor], [to_xml] *)
Inductive tanchor := TnTop | TnMiddle | TnBottom.
Definition tanchor_value (a : tanchor) : string := match a with TnTop => "t" | TnMiddle => "ctr" | TnBottom => "b" end.
(** text/format.rs:3-16 [TextFormat] *)
Record fmt := Fmt { f_bold : bool; f_italic : bool; f_underline : bool; f_strike : bool; f_color : option string; f_highlight : option string;
  f_size : option N; f_font : option string; f_sub : bool; f_super : bool }.
(** text/format.rs:18-22 [new] *)
Definition fmt_new : fmt := Fmt false false false false None None None None false false.
(** text/format.rs:48-58 [color], [highlight]; [to_uppercase] for ASCII ([clean]) *)
Definition fmt_color (c : string) (f : fmt) : fmt :=
  Fmt (f_bold f) (f_italic f) (f_underline f) (f_strike f) (Some (clean c)) (f_highlight f) (f_size f) (f_font f) (f_sub f) (f_super f).
Definition fmt_highlight (c : string) (f : fmt) : fmt :=
  Fmt (f_bold f) (f_italic f) (f_underline f) (f_strike f) (f_color f) (Some (clean c)) (f_size f) (f_font f) (f_sub f) (f_super f).
(** text/format.rs:72-84 [subscript], [superscript] *)
Definition fmt_sub (f : fmt) : fmt :=
  Fmt (f_bold f) (f_italic f) (f_underline f) (f_strike f) (f_color f) (f_highlight f) (f_size f) (f_font f) true false.
Definition fmt_super (f : fmt) : fmt :=
  Fmt (f_bold f) (f_italic f) (f_underline f) (f_strike f) (f_color f) (f_highlight f) (f_size f) (f_font f) false true.
(** text/format.rs:86-117 [to_xml_attrs]; the size is a [u32] product, wrapping as
    in a release build *)
Definition fmt_attrs (f : fmt) : string :=
  (if f_bold f then " b=""1""" else "") ++ (if f_italic f then " i=""1""" else "") ++ (if f_underline f then " u=""sng""" else "")
  ++ (if f_strike f then " strike=""sngStrike""" else "")
  ++ (if f_sub f then " baseline=""-25000""" else if f_super f then " baseline=""30000""" else "")
  ++ (match f_size f with Some n => (" sz=""" ++ dec (wmul u32_max n 100) ++ """") | None => "" end).
(** text/format.rs:119-126 [to_highlight_xml] *)
Definition fmt_highlight_xml (f : fmt) : string :=
  match f_highlight f with Some c => ("<a:highlight><a:srgbClr val=""" ++ c ++ """/></a:highlight>") | None => "" end.
(** text/run.rs:7-12 [Run] *)
Record trun := TRun { r_text : string; r_format : fmt }.
Definition trun_new (s : string) : trun := TRun s fmt_new.
(** text/run.rs:65-85 [Run::to_xml]; [u32] product, wrapping *)
Definition trun_xml (r : trun) : string :=
  let f := r_format r in
  let size := wmul u32_max (match f_size f with Some n => n | None => 18%N end) 100 in
  let color := match f_color f with Some c => ("<a:solidFill><a:srgbClr val=""" ++ c ++ """/></a:solidFill>") | None => "" end in
  let font := match f_font f with Some g => ("<a:latin typeface=""" ++ escape_xml g ++ """/>") | None => "" end in
  let bold := if f_bold f then "1" else "0" in
  let italic := if f_italic f then "1" else "0" in
  let underline := if f_underline f then " u=""sng""" else "" in
  ("<a:r><a:rPr lang=""en-US"" sz=""" ++ dec size ++ """ b=""" ++ bold ++ """ i=""" ++ italic ++ """" ++ underline ++ " dirty=""0"">" ++ color ++ font ++ "</a:rPr><a:t>" ++ escape_xml (r_text r) ++ "</a:t></a:r>").
(** text/paragraph.rs:7-17 [Paragraph] *)
Record tpara := TPara { p_runs : list trun; p_align : talign; p_level : N; p_bullet : bool; p_before : option N; p_after : option N; p_line : option N }.
(** text/paragraph.rs:20-38 [new], [with_text] *)
Definition tpara_new : tpara := TPara [] TaLeft 0 false None None None.
Definition tpara_text (s : string) : tpara := TPara [trun_new s] TaLeft 0 false None None None.
(** text/paragraph.rs:40-50 [add_run], [add_text] *)
Definition tpara_add (r : trun) (p : tpara) : tpara := TPara (p_runs p ++ [r])%list (p_align p) (p_level p) (p_bullet p) (p_before p) (p_after p) (p_line p).
(** text/paragraph.rs:64-68 [level] *)
Definition tpara_level (n : N) (p : tpara) : tpara := TPara (p_runs p) (p_align p) (N.min n 8) (p_bullet p) (p_before p) (p_after p) (p_line p).
(** text/paragraph.rs:70-80 [spacing_before], [spacing_after]: wrapping products *)
Definition tpara_before (n : N) (p : tpara) : tpara := TPara (p_runs p) (p_align p) (p_level p) (p_bullet p) (Some (wmul u32_max n 100)) (p_after p) (p_line p).
Definition tpara_after (n : N) (p : tpara) : tpara := TPara (p_runs p) (p_align p) (p_level p) (p_bullet p) (p_before p) (Some (wmul u32_max n 100)) (p_line p).
(** text/paragraph.rs:82-117 [Paragraph::to_xml] *)
Definition some {A} (o : option A) : bool := match o with Some _ => true | None => false end.
Definition ppr_head (p : tpara) : string := ("<a:pPr algn=""" ++ talign_value (p_align p) ++ """ lvl=""" ++ dec (p_level p) ++ """").
Definition tpara_xml (p : tpara) : string :=
  "<a:p>" ++ ppr_head p
  ++ (if some (p_before p) || some (p_after p) || some (p_line p) then
        ">" ++ (match p_before p with Some n => ("<a:spcBef><a:spcPts val=""" ++ dec n ++ """/></a:spcBef>") | None => "" end)
        ++ (match p_after p with Some n => ("<a:spcAft><a:spcPts val=""" ++ dec n ++ """/></a:spcAft>") | None => "" end)
        ++ (if p_bullet p then "<a:buChar char=""•""/>" else "") ++ "</a:pPr>"
      else if p_bullet p then "><a:buChar char=""•""/></a:pPr>" else "/>")
  ++ sconcat (map trun_xml (p_runs p)) ++ "</a:p>".
(** text/frame.rs:7-17 [TextFrame] *)
Record tframe := TFrame { t_paras : list tpara; t_anchor : tanchor; t_wrap : bool; t_left : N; t_right : N; t_top : N; t_bottom : N }.
(** text/frame.rs:20-31 [new] *)
Definition tframe_new : tframe := TFrame [] TnTop true 91440 91440 45720 45720.
(** text/frame.rs:40-50 [add_paragraph], [add_text] *)
Definition tframe_add (p : tpara) (f : tframe) : tframe := TFrame (t_paras f ++ [p])%list (t_anchor f) (t_wrap f) (t_left f) (t_right f) (t_top f) (t_bottom f).
Definition tframe_text (s : string) (f : tframe) : tframe := tframe_add (tpara_text s) f.
(** text/frame.rs:67-87 [TextFrame::to_xml] *)
Definition tframe_xml (f : tframe) : string :=
  let wrap := if t_wrap f then "square" else "none" in
  ("<p:txBody><a:bodyPr wrap=""" ++ wrap ++ """ lIns=""" ++ dec (t_left f) ++ """ rIns=""" ++ dec (t_right f) ++ """ tIns=""" ++ dec (t_top f) ++ """ bIns=""" ++ dec (t_bottom f) ++ """ anchor=""" ++ tanchor_value (t_anchor f) ++ """/><a:lstStyle/>")
  ++ sconcat (map tpara_xml (t_paras f)) ++ (match t_paras f with [] => "<a:p><a:endParaRPr/></a:p>" | _ => "" end) ++ "</p:txBody>".
(** text/rtl.rs:28-39 [RtlLanguage] *)
Inductive rtl_lang := Arabic | Hebrew | Urdu | Persian | Pashto | Sindhi | Kurdish | Yiddish.
(** text/rtl.rs:42-54 [lang_tag], 56-63 [default_font], 65-68 [direction]: always
    from the right *)
Definition lang_tag (l : rtl_lang) : string :=
  match l with Arabic => "ar-SA" | Hebrew => "he-IL" | Urdu => "ur-PK" | Persian => "fa-IR" | Pashto => "ps-AF" | Sindhi => "sd-PK" | Kurdish => "ku-IQ" | Yiddish => "yi-001" end.
Definition lang_font (l : rtl_lang) : string := "Arial".
(** text/rtl.rs:71-77 [RtlTextProps]; the direction as whether it is from the right *)
Record rtl := Rtl { x_right : bool; x_lang : option string; x_font : option string }.
(** text/rtl.rs:79-114 [new], [language], [from_language], [complex_script_font] *)
Definition rtl_new : rtl := Rtl false None None.
Definition rtl_language (l : string) (x : rtl) : rtl := Rtl (x_right x) (Some l) (x_font x).
Definition rtl_from (l : rtl_lang) (x : rtl) : rtl := Rtl true (Some (lang_tag l)) (Some (lang_font l)).
(** text/rtl.rs:116-141 [to_ppr_xml_attr], [to_rpr_xml_attrs], [to_cs_font_xml] *)
Definition rtl_ppr (x : rtl) : string := if x_right x then " rtl=""1""" else "".
Definition rtl_rpr (x : rtl) : string := match x_lang x with Some l => (" lang=""" ++ l ++ """") | None => "" end.
Definition rtl_font (x : rtl) : string := match x_font x with Some f => ("<a:cs typeface=""" ++ escape_xml f ++ """/>") | None => "" end.
