(** C84: frames of text on their own. *)
From Coq Require Import String List Bool Arith NArith.
From Verif Require Import Str Num XmlSpec XmlProofs OpcSpec XmlPath LookSpec TableModel TableSpec TxtModel TxtSpec TxtProofs.
Import ListNotations.
Open Scope string_scope.

(** A frame is written as well-formed XML that shows its wrapping, margins and
    anchor and every paragraph in order: alignment, level, space before and after,
    bullet, and every run with its text, bold, italic, underline, size, colour and
    typeface. A frame with no paragraph shows an empty one. *)
Theorem C84_shown (f : tframe) : tframe_ok f = true ->
  exists x, xml_read (tframe_xml f) = Some x /\ root_name x = "p:txBody" /\ body_seen x = want_body f
  /\ map para_seen (at_path ["a:p"] x) = match t_paras f with [] => [([], [])] | l => map want_tpara l end.
Proof. exact (frame_shown f). Qed.
Print Assumptions C84_shown.
Example C84_shown_case :
  let f := TFrame [TPara [TRun "a & <b>" (Fmt true false true false (Some "FF0000") None (Some 24%N) (Some "A&B") false false); trun_new "c"] TaCenter 2 true (Some 600%N) None None;
                   tpara_text "d"] TnMiddle false 1 2 3 4 in
  tframe_ok f = true /\ map want_tpara (t_paras f)
  = [([(Some "ctr", Some "2", ["600"], [], ["•"])],
      [(["a & <b>"], [(Some "1", Some "0", Some "sng", Some "2400", ["FF0000"], ["A&B"])]); (["c"], [(Some "0", Some "0", None, Some "1800", [], [])])]);
     ([(Some "l", Some "0", [], [], [])], [(["d"], [(Some "0", Some "0", None, Some "1800", [], [])])])].
Proof. split; vm_compute; reflexivity. Qed.

(** Paragraphs and runs are added at the end and change nothing else. *)
Theorem C84_added (p : tpara) (r : trun) (f : tframe) :
  t_paras (tframe_add p f) = (t_paras f ++ [p])%list /\ want_body (tframe_add p f) = want_body f
  /\ want_tpara (tpara_add r p) = (fst (want_tpara p), snd (want_tpara p) ++ [want_trun r])%list.
Proof. exact (added_end p r f). Qed.
Print Assumptions C84_added.

(** A level over 8 is taken as 8; others are kept. Space is in points, up to
    42949672. *)
Theorem C84_level (n : N) (p : tpara) : p_level (tpara_level n p) = (if n <=? 8 then n else 8)%N.
Proof. exact (level_capped n p). Qed.
Print Assumptions C84_level.
Theorem C84_space (n : N) (p : tpara) : (n * 100 <= u32_max)%N ->
  p_before (tpara_before n p) = Some (n * 100)%N /\ p_after (tpara_after n p) = Some (n * 100)%N.
Proof. exact (spaced n p). Qed.
Print Assumptions C84_space.
Example C84_space_case : (72 * 100 <= u32_max)%N. Proof. discriminate. Qed.

(** Colours are kept without their [#], in upper case. *)
Theorem C84_color (c : string) (f : fmt) : color_ok c = true ->
  f_color (fmt_color c f) = Some (color_value c) /\ f_highlight (fmt_highlight c f) = Some (color_value c).
Proof. exact (colored c f). Qed.
Print Assumptions C84_color.
Example C84_color_case : color_ok "#ff00aa" = true /\ color_value "#ff00aa" = "FF00AA". Proof. split; reflexivity. Qed.

(** The attributes and the highlight a format writes on its own say all it holds
    but colour and typeface; asking for one of subscript and superscript takes the
    other back. *)
Theorem C84_format (f : fmt) : points_ok (f_size f) = true -> opt_ok color_ok (f_highlight f) = true ->
  exists x, xml_read (format_text f) = Some x /\ format_seen x = want_format f.
Proof. exact (format_shown f). Qed.
Print Assumptions C84_format.
Theorem C84_baseline (f : fmt) : nth_error (fst (want_format (fmt_sub f))) 4 = Some (Some "-25000") /\ nth_error (fst (want_format (fmt_super f))) 4 = Some (Some "30000").
Proof. exact (conj eq_refl eq_refl). Qed.
Print Assumptions C84_baseline.
Example C84_format_case : let f := fmt_super (Fmt true false false true None (Some "FFFF00") (Some 12%N) None true false) in
  points_ok (f_size f) = true /\ opt_ok color_ok (f_highlight f) = true
  /\ want_format f = ([Some "1"; None; None; Some "sngStrike"; Some "30000"; Some "1200"], ["FFFF00"]).
Proof. repeat split. Qed.

(** Text from the right: the paragraph says so, the run names its language and the
    typeface. A preset sets all three. *)
Theorem C84_right (x : rtl) : opt_ok (sforall plain_val) (x_lang x) = true -> opt_ok attr_ok (x_font x) = true ->
  exists y, xml_read (rtl_texts x) = Some y /\ rtl_seen y = ([on "1" (x_right x)], [x_lang x], map Some (opt_list (x_font x))).
Proof. exact (rtl_shown x). Qed.
Print Assumptions C84_right.
Theorem C84_preset (l : rtl_lang) (x : rtl) :
  exists y, xml_read (rtl_texts (rtl_from l x)) = Some y /\ rtl_seen y = ([Some "1"], [Some (nth_lang l)], [Some "Arial"]).
Proof. exact (preset_shown l x). Qed.
Print Assumptions C84_preset.
Example C84_right_case : let x := Rtl true (Some "he-IL") (Some "A&B") in
  opt_ok (sforall plain_val) (x_lang x) = true /\ opt_ok attr_ok (x_font x) = true /\ opt_list (x_font x) = ["A&B"].
Proof. repeat split. Qed.

(** Findings. A run writes neither strikethrough, highlight, subscript nor
    superscript, whatever it holds; a paragraph never writes its line spacing. *)
Theorem C84_style_refuted (s : string) (f g : fmt) :
  f_bold f = f_bold g -> f_italic f = f_italic g -> f_underline f = f_underline g -> f_color f = f_color g -> f_size f = f_size g -> f_font f = f_font g ->
  trun_xml (TRun s f) = trun_xml (TRun s g).
Proof. exact (style_dropped s f g). Qed.
Print Assumptions C84_style_refuted.
Example C84_style_case : let f := fmt_sub (fmt_highlight "FFFF00" fmt_new) in
  f <> fmt_new /\ f_bold f = f_bold fmt_new /\ f_color f = f_color fmt_new /\ f_size f = f_size fmt_new.
Proof. repeat split. discriminate. Qed.
Theorem C84_line_refuted (p : tpara) (n : N) : p_before p <> None ->
  tpara_xml (TPara (p_runs p) (p_align p) (p_level p) (p_bullet p) (p_before p) (p_after p) (Some n)) = tpara_xml p.
Proof. exact (line_dropped p n). Qed.
Print Assumptions C84_line_refuted.
Example C84_line_case : p_before (tpara_before 6 (tpara_text "a")) <> None /\ p_line (tpara_before 6 (tpara_text "a")) <> Some 150%N.
Proof. split; discriminate. Qed.
(** A size of 42949673 points is written as 0.04 points; a colour or a language is
    not escaped. *)
Theorem C84_points_refuted : exists x, xml_read (trun_xml (TRun "a" (Fmt false false false false None None (Some 42949673%N) None false false))) = Some x
  /\ map (attr "sz") (at_path ["a:rPr"] x) = ["4"].
Proof. exact points_wrap. Qed.
Print Assumptions C84_points_refuted.
Theorem C84_escape_refuted : text_ok "<" = true /\ xml_read (trun_xml (TRun "a" (fmt_color "<" fmt_new))) = None /\ xml_read (rtl_texts (rtl_language "<" rtl_new)) = None.
Proof. exact unescaped. Qed.
Print Assumptions C84_escape_refuted.
