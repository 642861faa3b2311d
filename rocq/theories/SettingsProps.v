(** C56, C57, C58, C59, C60, C61: what the settings of a deck put into it. *)
From Coq Require Import String Ascii List Bool Arith NArith ZArith.
From Verif Require Import Str Num XmlSpec XmlProofs XmlPath OpcSpec FontsModel SlideModel SlideSpec SlideInput DeckModel ResolveSpec DeckSpec DeckInput DeckRefute SettingsModel SettingsSpec SettingsKinds ShowProofs PrintProofs MasterProofs LayoutProofs ThemeProofs SignProofs SettingsThms SettingsRefute.
Import ListNotations.
Open Scope nat_scope.
Open Scope string_scope.

(** C56: the slide show settings are read back from the presentation properties:
    who presents, looping, animations, the range, the pen's colour, media
    controls. *)
Theorem C56_show r title slides p s n : ps_show p = Some s -> sforall plain_val (ss_pen s) = true -> hex_number (ss_pen s) = Some n ->
  exists x v, shows (generate r title slides p) "ppt/presProps.xml" x /\ at_path ["p:showPr"] x = [v]
    /\ show_kind v = (match ss_type s with Speaker => true | _ => false end, match ss_type s with Kiosk => true | _ => false end, match ss_type s with Browsed => true | _ => false end)
    /\ show_loops v = ss_loop s /\ show_animates v = negb (ss_no_animation s)
    /\ (ss_range s = RangeAll -> show_extent v = Every)
    /\ (forall a b, ss_range s = RangeFromTo a b -> exists f l, show_extent v = Between f l /\ integer f = Some (Z.of_N a) /\ integer l = Some (Z.of_N b))
    /\ map hex_number (show_pen v) = [Some n] /\ map hex_number (show_laser v) = [Some n] /\ show_media_controls v = ss_media s.
Proof. exact (show_kept r title slides p s n). Qed.
Print Assumptions C56_show.
Example C56_show_case : ps_show set0 = Some show0 /\ sforall plain_val (ss_pen show0) = true /\ hex_number (ss_pen show0) = hex_number "00FF7f" /\ hex_number "00FF7f" = Some 65407%N.
Proof. repeat split. Qed.
(** C56: a pen keeps the number of its hexadecimal colour, with or without a
    hash sign before it. *)
Theorem C56_pen c n : hex_number c = Some n ->
  hex_number (strip_hash_upper c) = Some n /\ hex_number (strip_hash_upper ("#" ++ c)) = Some n /\ sforall plain_val (strip_hash_upper c) = true.
Proof. exact (strip_color c n). Qed.
Print Assumptions C56_pen.
Example C56_pen_case : hex_number "ff0080" = Some 16711808%N.
Proof. reflexivity. Qed.
Theorem C56_no_show r title slides p : ps_show p = None -> exists x, shows (generate r title slides p) "ppt/presProps.xml" x /\ at_path ["p:showPr"] x = [].
Proof. exact (show_absent r title slides p). Qed.
Print Assumptions C56_no_show.
(** C56, what is false: whatever the settings say, narration reads as switched off
    and saved timings as switched on, and a custom list of slides names no custom
    show. *)
Theorem C56_show_refuted r title slides p s : ps_show p = Some s -> sforall plain_val (ss_pen s) = true ->
  exists x v, shows (generate r title slides p) "ppt/presProps.xml" x /\ at_path ["p:showPr"] x = [v] /\ show_narrates v = false /\ show_timed v = true
    /\ (forall l, ss_range s = RangeCustom l -> exists c, named "p:custShow" (children v) = [c] /\ attr_opt "id" c = None).
Proof. exact (show_lost r title slides p s). Qed.
Print Assumptions C56_show_refuted.
Example C56_show_refuted_case : ss_no_narration show1 = false /\ ss_timings show1 = false /\ ss_range show1 = RangeCustom [1; 3]%N /\ sforall plain_val (ss_pen show1) = true.
Proof. repeat split. Qed.

(** C57: with handouts to print, the handout master shows the header, the footer,
    the date and the page number that were asked for, and nothing else. *)
Theorem C57_handout r title slides p q : ps_print p = Some q -> pr_what q = PrintHandouts -> texts_ok q = true ->
  exists x, shows (generate r title slides p) "ppt/handoutMasters/handoutMaster1.xml" x /\ page_says (option_map (fun h => [h]) (pr_header q)) (pr_footer q) (pr_date q) (pr_numbers q) x.
Proof. exact (handout_kept r title slides p q). Qed.
Print Assumptions C57_handout.
Example C57_handout_case : ps_print set0 = Some print0 /\ pr_what print0 = PrintHandouts /\ texts_ok print0 = true /\ footer_ok print0 = true.
Proof. repeat split. Qed.
(** C57: and without handouts to print there is no handout master. *)
Theorem C57_handout_part r title slides p : 
  family "ppt/handoutMasters/handoutMaster1.xml" (generate r title slides p) <> [] <-> exists q, ps_print p = Some q /\ pr_what q = PrintHandouts.
Proof. exact (handout_iff r title slides p). Qed.
Print Assumptions C57_handout_part.
Example C57_handout_part_case : map fst (family "ppt/handoutMasters/handoutMaster1.xml" (generate rest0 "T" [] set0)) = ["ppt/handoutMasters/handoutMaster1.xml"]
  /\ family "ppt/handoutMasters/handoutMaster1.xml" (generate rest0 "T" [] (PresentationSettings None None (Some print_new) [] None)) = [].
Proof. split; vm_compute; reflexivity. Qed.
(** C57: the slide master shows the footer, the date and the slide number that
    were asked for, a header placeholder if there is a header, and nothing else. *)
Theorem C57_master r title slides p q : ps_print p = Some q -> footer_ok q = true ->
  exists x, shows (generate r title slides p) "ppt/slideMasters/slideMaster1.xml" x /\ page_says (option_map (fun _ => []) (pr_header q)) (pr_footer q) (pr_date q) (pr_numbers q) x.
Proof. exact (master_kept r title slides p q). Qed.
Print Assumptions C57_master.
Theorem C57_master_bare r title slides p : ps_print p = None -> exists x, shows (generate r title slides p) "ppt/slideMasters/slideMaster1.xml" x /\ shapes_of x = [].
Proof. exact (master_bare r title slides p). Qed.
Print Assumptions C57_master_bare.
(** C57, what is false: the slide master's header has no text. *)
Theorem C57_header_refuted r title slides p q h : ps_print p = Some q -> footer_ok q = true -> pr_header q = Some h ->
  exists x, shows (generate r title slides p) "ppt/slideMasters/slideMaster1.xml" x /\ map shape_runs (placeholders "hdr" x) = [[]].
Proof. exact (master_header_empty r title slides p q h). Qed.
Print Assumptions C57_header_refuted.
Example C57_header_refuted_case : pr_header print0 = Some "A & B".
Proof. reflexivity. Qed.
(** C57, what is false: colour mode, handout layout, frames, scaling, hidden
    slides and orientation make no difference to the deck. *)
Theorem C57_ignored_refuted r title slides theme show fonts sign w h f d n c l fr sc hi o c' l' fr' sc' hi' o' :
  generate r title slides (PresentationSettings theme show (Some (PrintSettings w c l fr sc hi o h f d n)) fonts sign)
  = generate r title slides (PresentationSettings theme show (Some (PrintSettings w c' l' fr' sc' hi' o' h f d n)) fonts sign).
Proof. exact (print_ignored r title slides theme show fonts sign w h f d n c l fr sc hi o c' l' fr' sc' hi' o'). Qed.
Print Assumptions C57_ignored_refuted.

(** C58: each slide has one relationship to a layout; the layout part is the one
    the slide asked for, belongs to the slide master, and is in the master's list
    of layouts. *)
Theorem C58_slide_layout r title slides p i s : nth_error slides i = Some s -> deck_slide_ok s = true -> stored s = true ->
  match ps_print p with Some q => footer_ok q | None => true end = true ->
  exists rels rel f c x m y, relations (generate r title slides p) ["ppt"; "slides"] ("slide" ++ decn (i + 1) ++ ".xml") rels /\ rels_kind "slideLayout" rels = [rel]
    /\ linked (generate r title slides p) ["ppt"; "slides"] ("slide" ++ decn (i + 1) ++ ".xml") (rel_id rel) "slideLayout" (path ["ppt"; "slideLayouts"; f]) c
    /\ xml_read c = Some x /\ is_layout (s_layout s) x
    /\ linked (generate r title slides p) ["ppt"; "slideLayouts"] f "rId1" "slideMaster" "ppt/slideMasters/slideMaster1.xml" m /\ xml_read m = Some y
    /\ exists e, In e (at_path ["p:sldLayoutIdLst"; "p:sldLayoutId"] y) /\ linked (generate r title slides p) ["ppt"; "slideMasters"] "slideMaster1.xml" (attr "r:id" e) "slideLayout" (path ["ppt"; "slideLayouts"; f]) c.
Proof. exact (layout_chain r title slides p i s). Qed.
Print Assumptions C58_slide_layout.
Example C58_slide_layout_case : forallb deck_slide_ok deck0 = true /\ forallb stored deck0 = true /\ length deck0 = 3.
Proof. repeat split. Qed.
(** C58: the master lists the seven layouts, each once, under ids that differ from
    each other and from the master's. *)
Theorem C58_layouts r title slides p : match ps_print p with Some q => footer_ok q | None => true end = true ->
  exists x, shows (generate r title slides p) "ppt/slideMasters/slideMaster1.xml" x
    /\ NoDup ("2147483648" :: map (attr "id") (at_path ["p:sldLayoutIdLst"; "p:sldLayoutId"] x))
    /\ Forall2 (fun e l => exists f c y, linked (generate r title slides p) ["ppt"; "slideMasters"] "slideMaster1.xml" (attr "r:id" e) "slideLayout" (path ["ppt"; "slideLayouts"; f]) c /\ xml_read c = Some y /\ is_layout l y
                 /\ exists m, linked (generate r title slides p) ["ppt"; "slideLayouts"] f "rId1" "slideMaster" "ppt/slideMasters/slideMaster1.xml" m)
         (at_path ["p:sldLayoutIdLst"; "p:sldLayoutId"] x) [CenteredTitle; TitleAndContent; TwoColumn; SectionHeader; Blank; TitleOnly; TitleAndBigContent].
Proof. exact (layouts_listed r title slides p). Qed.
Print Assumptions C58_layouts.
Example C58_layouts_case : match ps_print set0 with Some q => footer_ok q | None => true end = true.
Proof. reflexivity. Qed.

(** C59: a theme's name, twelve colours and two fonts are read back from the
    deck. *)
Theorem C59_theme r title slides p t : ps_theme p = Some t -> theme_ok t = true ->
  (th_name t = "Office Theme" -> th_colors t = office_colors -> th_major t = "Calibri" /\ th_minor t = "Calibri") ->
  exists x, shows (generate r title slides p) "ppt/theme/theme1.xml" x /\ attr "name" x = th_name t /\ theme_colors x = map (fun c => [c]) (theme_list (th_colors t))
    /\ latin_face x "a:majorFont" = [th_major t] /\ latin_face x "a:minorFont" = [th_minor t].
Proof. exact (theme_kept r title slides p t). Qed.
Print Assumptions C59_theme.
Example C59_theme_case : ps_theme set0 = Some theme0 /\ theme_ok theme0 = true /\ th_name theme0 <> "Office Theme".
Proof. repeat split. discriminate. Qed.
Theorem C59_default_theme r title slides p : ps_theme p = None ->
  exists x, shows (generate r title slides p) "ppt/theme/theme1.xml" x /\ attr "name" x = "Office Theme"
    /\ theme_colors x = map (fun c => [c]) ["000000"; "FFFFFF"; "1F497D"; "EEECE1"; "4F81BD"; "C0504D"; "9BBB59"; "8064A2"; "4BACC6"; "F79646"; "0000FF"; "800080"]
    /\ latin_face x "a:majorFont" = ["Calibri"] /\ latin_face x "a:minorFont" = ["Calibri"].
Proof. exact (theme_default r title slides p). Qed.
Print Assumptions C59_default_theme.
(** C59: a theme made from a palette of hexadecimal colours, with or without a
    hash sign, has these colours in the slots of the scheme. *)
Theorem C59_palette r title slides p name dk lt dk2 lt2 a b c primary secondary accent background text light dark n1 n2 n3 n4 n5 n6 n7 :
  ps_theme p = Some (theme_from_palette name primary secondary accent background text light dark) -> attr_ok name = true -> name <> "Office Theme" ->
  written_as a primary -> written_as b secondary -> written_as c accent -> written_as lt background -> written_as dk text -> written_as lt2 light -> written_as dk2 dark ->
  hex_number a = Some n1 -> hex_number b = Some n2 -> hex_number c = Some n3 -> hex_number lt = Some n4 -> hex_number dk = Some n5 -> hex_number lt2 = Some n6 -> hex_number dk2 = Some n7 ->
  exists x, shows (generate r title slides p) "ppt/theme/theme1.xml" x /\ attr "name" x = name
    /\ map (map hex_number) (firstn 11 (theme_colors x)) = map (fun n => [Some n]) [n5; n4; n7; n6; n1; n2; n3; n1; n3; n1; n1].
Proof. exact (palette_kept r title slides p name dk lt dk2 lt2 a b c primary secondary accent background text light dark n1 n2 n3 n4 n5 n6 n7). Qed.
Print Assumptions C59_palette.
Example C59_palette_case : written_as "0a0B0c" "#0a0B0c" /\ hex_number "0a0B0c" = Some 658188%N /\ attr_ok "Corporate ""blue""" = true.
Proof. split; [now right|]. split; reflexivity. Qed.
(** C59, what is false: a theme named "Office Theme" with the Office colours loses
    its fonts. *)
Theorem C59_office_fonts_refuted r title slides p t : ps_theme p = Some t -> th_name t = "Office Theme" -> th_colors t = office_colors ->
  exists x, shows (generate r title slides p) "ppt/theme/theme1.xml" x /\ latin_face x "a:majorFont" = ["Calibri"] /\ latin_face x "a:minorFont" = ["Calibri"].
Proof. exact (office_fonts_lost r title slides p t). Qed.
Print Assumptions C59_office_fonts_refuted.
Example C59_office_fonts_refuted_case : th_name theme1 = "Office Theme" /\ th_colors theme1 = office_colors /\ th_major theme1 = "Calibri Light".
Proof. repeat split. Qed.

(** C60: a signature's name, comment, commitment, date and algorithm are read
    back from the signature part. *)
Theorem C60_signature r title slides p g : ps_signature p = Some g -> sign_ok g = true ->
  exists x, shows (generate r title slides p) "_xmlsignatures/sig1.xml" x /\ key_name x = [sg_name (sn_signer g)] /\ signature_info x "SignatureText" = [sg_name (sn_signer g)]
    /\ signature_info x "SignatureComments" = match sn_comments g with Some c => [c] | None => [] end
    /\ signature_info x "CommitmentTypeId" = [proof_name (sn_commitment g)] /\ signature_info x "CommitmentTypeQualifier" = [proof_word (sn_commitment g)]
    /\ (forall d, sn_date g = Some d -> signature_info x "SigningTime" = [d])
    /\ signature_info x "ManifestHashAlgorithm" = [digest_name (sn_hash g)] /\ signature_method x = [digest_name (sn_hash g)].
Proof. exact (signature_kept r title slides p g). Qed.
Print Assumptions C60_signature.
Example C60_signature_case : ps_signature set0 = Some sign0 /\ sign_ok sign0 = true.
Proof. split; reflexivity. Qed.
(** C60, what is false: the signer's address, organisation and title make no
    difference to the deck. *)
Theorem C60_signer_refuted r title slides theme show print fonts name e o t e' o' t' h d c m :
  generate r title slides (PresentationSettings theme show print fonts (Some (Signature (Signer name e o t) h d c m)))
  = generate r title slides (PresentationSettings theme show print fonts (Some (Signature (Signer name e' o' t') h d c m))).
Proof. exact (sign_ignored r title slides theme show print fonts name e o t e' o' t' h d c m). Qed.
Print Assumptions C60_signer_refuted.

(** C61: a slide with ink has one relationship to an ink part, used on the slide;
    the part has a trace for each stroke, in order, with its points, and each
    trace's brush is the stroke's pen. *)
Theorem C61_ink r title slides p i s : nth_error slides i = Some s -> deck_slide_ok s = true -> stored s = true -> s_ink s = true -> r_ink r s <> [] -> strokes_ok (r_ink r s) = true ->
  exists y rels rel f c x, shows (generate r title slides p) ("ppt/slides/slide" ++ decn (i + 1) ++ ".xml") y
    /\ relations (generate r title slides p) ["ppt"; "slides"] ("slide" ++ decn (i + 1) ++ ".xml") rels /\ rels_kind "ink" rels = [rel] /\ In (rel_id rel) (rel_ids_used y)
    /\ linked (generate r title slides p) ["ppt"; "slides"] ("slide" ++ decn (i + 1) ++ ".xml") (rel_id rel) "ink" (path ["ppt"; "ink"; f]) c
    /\ xml_read c = Some x /\ length (traces x) = length (r_ink r s) /\ length (brushes x) = length (r_ink r s)
    /\ forall j k, nth_error (r_ink r s) j = Some k -> exists t b, nth_error (traces x) j = Some t /\ brush_of x t = Some b
         /\ attr "color" b = "#" ++ pn_color (sk_pen k) /\ integer (attr "width" b) = Some (Z.of_N (pn_width (sk_pen k))) /\ attr "tip" b = tip_name (pn_tip (sk_pen k))
         /\ attr_opt "transparency" b = pn_transparency (sk_pen k) /\ trace_points t = Some (sk_points k).
Proof. exact (ink_kept r title slides p i s). Qed.
Print Assumptions C61_ink.
Example C61_ink_case : map s_ink deck0 = [true; false; false] /\ strokes_ok (r_ink rest0 (nth 0 deck0 (slide_new "x"))) = true /\ length strokes0 = 2.
Proof. repeat split. Qed.
(** C61, what is false: ink without strokes is written as an empty part, which is
    no XML document. *)
Theorem C61_empty_refuted r title slides p i s : nth_error slides i = Some s -> s_ink s = true -> r_ink r s = [] ->
  exists n c, In (n, c) (generate r title slides p) /\ starts_with "ppt/ink/" n = true /\ xml_read c = None.
Proof. exact (no_strokes r title slides p i s). Qed.
Print Assumptions C61_empty_refuted.
Example C61_empty_refuted_case : r_ink (Rest "<n/>" (fun _ => []) "PK" "now") (nth 0 deck0 (slide_new "x")) = [] /\ nth_error (map s_ink deck0) 0 = Some true.
Proof. split; reflexivity. Qed.
