(** The settings of a deck as a reader of the deck finds them. *)
From Coq Require Import String Ascii List Bool Arith NArith ZArith Lia.
From Verif Require ValidProofs.
From Verif Require Import Str Num XmlSpec XmlProofs XmlTpl OpcSpec SlideSpec GenModel TplRead XmlPath FontsModel SlideModel DeckModel ResolveSpec ResolveProofs DeckSpec DeckInput DeckParts DeckWhole DeckRels DeckThms DeckRefute DeckLinks SettingsModel SettingsSpec SettingsKinds ShowProofs PrintProofs MasterProofs LayoutProofs ThemeProofs SignProofs.
Import ListNotations.
Open Scope nat_scope.
Open Scope string_scope.

Section DECK.
  Context (r : rest) (title : string) (slides : list slide) (p : presentation_settings).
  Notation deck := (generate r title slides p).

  Lemma show_kept s n : ps_show p = Some s -> sforall plain_val (ss_pen s) = true -> hex_number (ss_pen s) = Some n ->
    exists x v, shows deck "ppt/presProps.xml" x /\ at_path ["p:showPr"] x = [v]
      /\ show_kind v = (match ss_type s with Speaker => true | _ => false end, match ss_type s with Kiosk => true | _ => false end, match ss_type s with Browsed => true | _ => false end)
      /\ show_loops v = ss_loop s /\ show_animates v = negb (ss_no_animation s)
      /\ (ss_range s = RangeAll -> show_extent v = Every)
      /\ (forall a b, ss_range s = RangeFromTo a b -> exists f l, show_extent v = Between f l /\ integer f = Some (Z.of_N a) /\ integer l = Some (Z.of_N b))
      /\ map hex_number (show_pen v) = [Some n] /\ map hex_number (show_laser v) = [Some n] /\ show_media_controls v = ss_media s.
  Proof.
    intros E P N. exists (tnode (presT (Some s))), (tnode (showT s)). split.
    { exists (pres_props_xml (Some s)). split; [rewrite <- E; apply in_pres_props|]. apply presT_read. intros ? [= <-]. exact P. }
    split; [exact (pres_show (Some s))|]. destruct (show_reads s) as (K & L & _ & A & _ & X & Q & W & M).
    split; [exact K|]. split; [exact L|]. split; [exact A|]. rewrite X, Q, W. split; [intros ->; reflexivity|]. split.
    - intros a b ->. exists (dec a), (dec b). split; [reflexivity|]. split; apply integer_dec.
    - cbn [map]. rewrite N. auto.
  Qed.
  Lemma show_absent : ps_show p = None -> exists x, shows deck "ppt/presProps.xml" x /\ at_path ["p:showPr"] x = [].
  Proof.
    intros E. exists (tnode (presT None)). split; [|exact (pres_show None)]. exists (pres_props_xml None). split; [rewrite <- E; apply in_pres_props|]. apply presT_read. discriminate.
  Qed.
  Lemma show_lost s : ps_show p = Some s -> sforall plain_val (ss_pen s) = true ->
    exists x v, shows deck "ppt/presProps.xml" x /\ at_path ["p:showPr"] x = [v] /\ show_narrates v = false /\ show_timed v = true
      /\ (forall l, ss_range s = RangeCustom l -> exists c, named "p:custShow" (children v) = [c] /\ attr_opt "id" c = None).
  Proof.
    intros E P. exists (tnode (presT (Some s))), (tnode (showT s)). split.
    { exists (pres_props_xml (Some s)). split; [rewrite <- E; apply in_pres_props|]. apply presT_read. intros ? [= <-]. exact P. }
    split; [exact (pres_show (Some s))|]. destruct (show_reads s) as (_ & _ & A & _ & B & _). split; [exact A|]. split; [exact B|]. intros l. apply custom_show.
  Qed.

  Lemma handout_kept q : ps_print p = Some q -> pr_what q = PrintHandouts -> texts_ok q = true ->
    exists x, shows deck "ppt/handoutMasters/handoutMaster1.xml" x /\ page_says (option_map (fun h => [h]) (pr_header q)) (pr_footer q) (pr_date q) (pr_numbers q) x.
  Proof.
    intros E W T. exists (tnode (handoutT q)). split; [|apply handout_says]. exists (handout_master_xml q). split; [now apply in_handout|now apply handout_read].
  Qed.
  Lemma master_kept q : ps_print p = Some q -> footer_ok q = true ->
    exists x, shows deck "ppt/slideMasters/slideMaster1.xml" x /\ page_says (option_map (fun _ => []) (pr_header q)) (pr_footer q) (pr_date q) (pr_numbers q) x.
  Proof.
    intros E W. exists (tnode (masterT (Some q))). split; [|apply master_says]. exists (written_master (Some q)). split; [rewrite <- E; apply in_master|now apply (master_read (Some q))].
  Qed.
  Lemma master_bare : ps_print p = None -> exists x, shows deck "ppt/slideMasters/slideMaster1.xml" x /\ shapes_of x = [].
  Proof. intros E. exists (tnode (masterT None)). split; [|exact master_none]. exists (written_master None). split; [rewrite <- E; apply in_master|now apply (master_read None)]. Qed.

  Lemma layouts_listed : match ps_print p with Some q => footer_ok q | None => true end = true ->
    exists x, shows deck "ppt/slideMasters/slideMaster1.xml" x
      /\ NoDup ("2147483648" :: map (attr "id") (at_path ["p:sldLayoutIdLst"; "p:sldLayoutId"] x))
      /\ Forall2 (fun e l => exists f c y, linked deck ["ppt"; "slideMasters"] "slideMaster1.xml" (attr "r:id" e) "slideLayout" (path ["ppt"; "slideLayouts"; f]) c /\ xml_read c = Some y /\ is_layout l y
                   /\ exists m, linked deck ["ppt"; "slideLayouts"] f "rId1" "slideMaster" "ppt/slideMasters/slideMaster1.xml" m)
           (at_path ["p:sldLayoutIdLst"; "p:sldLayoutId"] x) [CenteredTitle; TitleAndContent; TwoColumn; SectionHeader; Blank; TitleOnly; TitleAndBigContent].
  Proof.
    intros F. exists (tnode (masterT (ps_print p))). split; [exists (written_master (ps_print p)); split; [apply in_master|now apply master_read]|].
    pose proof (master_list (ps_print p)) as ML. revert ML. generalize (at_path ["p:sldLayoutIdLst"; "p:sldLayoutId"] (tnode (masterT (ps_print p)))). intros es ML. split.
    - assert (Q : map (attr "id") es = map fst (map (fun e => (attr "id" e, attr "r:id" e)) es)) by now rewrite map_map. rewrite Q, ML. apply nodupb_NoDup. reflexivity.
    - assert (G : forall l k, layout_number l = k -> exists f c y, linked deck ["ppt"; "slideMasters"] "slideMaster1.xml" ("rId" ++ decn k) "slideLayout" (path ["ppt"; "slideLayouts"; f]) c /\ xml_read c = Some y /\ is_layout l y
                   /\ exists m, linked deck ["ppt"; "slideLayouts"] f "rId1" "slideMaster" "ppt/slideMasters/slideMaster1.xml" m).
      { intros l k <-. destruct (layout_reads l) as (y & Y1 & Y2). exists ("slideLayout" ++ decn (layout_number l) ++ ".xml"), (slide_layout_xml (layout_number l)), y.
        split; [exact (master_to_layout r title slides p _ (layout_range l))|]. split; [exact Y1|]. split; [exact Y2|]. eexists. apply layout_to_master. apply layout_range. }
      do 7 (destruct es as [|? es]; [discriminate|]). destruct es; [|discriminate]. injection ML as _ R1 _ R2 _ R3 _ R4 _ R5 _ R6 _ R7.
      repeat constructor; rewrite ?R1, ?R2, ?R3, ?R4, ?R5, ?R6, ?R7.
      + exact (G CenteredTitle 1 eq_refl).
      + exact (G TitleAndContent 2 eq_refl).
      + exact (G TwoColumn 3 eq_refl).
      + exact (G SectionHeader 4 eq_refl).
      + exact (G Blank 5 eq_refl).
      + exact (G TitleOnly 6 eq_refl).
      + exact (G TitleAndBigContent 7 eq_refl).
  Qed.

  Lemma theme_kept t : ps_theme p = Some t -> theme_ok t = true ->
    (th_name t = "Office Theme" -> th_colors t = office_colors -> th_major t = "Calibri" /\ th_minor t = "Calibri") ->
    exists x, shows deck "ppt/theme/theme1.xml" x /\ attr "name" x = th_name t /\ theme_colors x = map (fun c => [c]) (theme_list (th_colors t))
      /\ latin_face x "a:majorFont" = [th_major t] /\ latin_face x "a:minorFont" = [th_minor t].
  Proof.
    intros E O U. destruct (any_theme_reads t O U) as (x & X & R). exists x. split; [|exact R]. exists (theme_xml t). split; [|exact X].
    pose proof (in_theme r title slides p) as I. rewrite E in I. exact I.
  Qed.
  Lemma theme_default : ps_theme p = None ->
    exists x, shows deck "ppt/theme/theme1.xml" x /\ attr "name" x = "Office Theme"
      /\ theme_colors x = map (fun c => [c]) ["000000"; "FFFFFF"; "1F497D"; "EEECE1"; "4F81BD"; "C0504D"; "9BBB59"; "8064A2"; "4BACC6"; "F79646"; "0000FF"; "800080"]
      /\ latin_face x "a:majorFont" = ["Calibri"] /\ latin_face x "a:minorFont" = ["Calibri"].
  Proof.
    intros E. destruct (any_theme_reads (Theme "Office Theme" office_colors "Calibri" "Calibri")) as (x & X & R); [reflexivity|intros; now split|]. exists x. split; [|exact R].
    exists office_theme_xml. split; [|exact X]. pose proof (in_theme r title slides p) as I. rewrite E in I. exact I.
  Qed.

  Lemma signature_kept g : ps_signature p = Some g -> sign_ok g = true ->
    exists x, shows deck "_xmlsignatures/sig1.xml" x /\ key_name x = [sg_name (sn_signer g)] /\ signature_info x "SignatureText" = [sg_name (sn_signer g)]
      /\ signature_info x "SignatureComments" = match sn_comments g with Some c => [c] | None => [] end
      /\ signature_info x "CommitmentTypeId" = [proof_name (sn_commitment g)] /\ signature_info x "CommitmentTypeQualifier" = [proof_word (sn_commitment g)]
      /\ (forall d, sn_date g = Some d -> signature_info x "SigningTime" = [d])
      /\ signature_info x "ManifestHashAlgorithm" = [digest_name (sn_hash g)] /\ signature_method x = [digest_name (sn_hash g)].
  Proof.
    intros E O. exists (tnode (signT g)). split; [exists (signature_xml g); split; [now apply in_signature|now apply sign_read]|].
    destruct (sign_says g) as (A & B & C & D & F & T & H & M). split; [exact A|]. split; [exact B|]. split; [exact C|]. rewrite D, F, T, H, M.
    repeat split; try (now destruct (sn_commitment g)); try (now destruct (sn_hash g)). intros d Q. unfold sign_date. now rewrite Q.
  Qed.

  Lemma ink_kept i s : nth_error slides i = Some s -> deck_slide_ok s = true -> stored s = true -> s_ink s = true -> r_ink r s <> [] -> strokes_ok (r_ink r s) = true ->
    exists y rels rel f c x, shows deck ("ppt/slides/slide" ++ decn (i + 1) ++ ".xml") y
      /\ relations deck ["ppt"; "slides"] ("slide" ++ decn (i + 1) ++ ".xml") rels /\ rels_kind "ink" rels = [rel] /\ In (rel_id rel) (rel_ids_used y)
      /\ linked deck ["ppt"; "slides"] ("slide" ++ decn (i + 1) ++ ".xml") (rel_id rel) "ink" (path ["ppt"; "ink"; f]) c
      /\ xml_read c = Some x /\ length (traces x) = length (r_ink r s) /\ length (brushes x) = length (r_ink r s)
      /\ forall j k, nth_error (r_ink r s) j = Some k -> exists t b, nth_error (traces x) j = Some t /\ brush_of x t = Some b
           /\ attr "color" b = "#" ++ pn_color (sk_pen k) /\ integer (attr "width" b) = Some (Z.of_N (pn_width (sk_pen k))) /\ attr "tip" b = tip_name (pn_tip (sk_pen k))
           /\ attr_opt "transparency" b = pn_transparency (sk_pen k) /\ trace_points t = Some (sk_points k).
  Proof.
    intros H OK ST I NE SO.
    assert (RR : relations deck ["ppt"; "slides"] ("slide" ++ decn (i + 1) ++ ".xml") (my_rels slides i s)).
    { destruct (rels_read (statics_of p r) title slides (settings_of p) i s H OK ST) as (xml & J & E). exists xml. split; [|exact E].
      replace (path _) with (slide_rels_path (i + 1)); [exact J|]. unfold slide_rels_path, path. cbn [app sjoin append]. now rewrite !sapp_assoc. }
    set (K := inks_before slides i + 1). set (N := start s + length (s_charts s)).
    set (rel := Rel ("rId" ++ decn N) (doc_rel "ink") ("../ink/ink" ++ decn K ++ ".xml") "").
    exists (tree s), (my_rels slides i s), rel, ("ink" ++ decn K ++ ".xml"), (ink_part_xml (r_ink r s)), (tnode (inkT (r_ink r s))).
    split; [exact (my_tree (statics_of p r) title slides (settings_of p) i s H OK)|].
    split; [exact RR|]. split.
    { unfold my_rels, slide_rel_list, rels_kind. rewrite !filter_app.
      assert (Z : forall {A} (f : A -> OpcSpec.rel) l, (forall a, String.eqb (rel_type (f a)) (doc_rel "ink") = false) -> filter (fun r => String.eqb (rel_type r) (doc_rel "ink")) (map f l) = []).
      { intros A f l Q. induction l as [|a l IH]; [reflexivity|]. cbn [map filter]. rewrite Q. exact IH. }
      rewrite (Z _ (image_rel _)), (Z _ chart_rel), (Z _ link_rel) by (intros a; reflexivity). rewrite I. destruct (has_notes s); reflexivity. }
    split.
    { unfold tree. rewrite (SlideThms.rel_ids_eq s _ _ (rids_fine s) (rids_length s)). unfold my_ink. rewrite I. rewrite !in_app_iff. right. right. right. now left. }
    split.
    { exists rel. split; [destruct RR as (xml & J & E); exists xml, (my_rels slides i s); split; [exact J|split; [exact E|]]|].
      - unfold my_rels, slide_rel_list. rewrite I, !in_app_iff. do 4 right. left. now left.
      - repeat split.
        + cbn [rel_target]. apply (leads_num ["ppt"] "slides" "ink" "ink" ".xml"); [now apply is_nameb_ok|now apply is_nameb_ok|reflexivity|reflexivity].
        + apply (ink_in (statics_of p r) title slides (settings_of p) i s H I). }
    split; [now apply ink_read|]. destruct (ink_count (r_ink r s)) as [B T]. split; [exact T|]. split; [exact B|]. intros j k J.
    destruct (ink_stroke _ _ _ J) as (t & b & P1 & P2 & P3 & P4 & P5 & P6 & P7). exists t, b. rewrite P4, P5. split; [exact P1|]. split; [exact P2|]. split; [exact P3|]. split; [apply integer_dec|]. split; [now destruct (pn_tip (sk_pen k))|]. now split.
  Qed.
End DECK.

(** Two decks that differ only in settings no part depends on. *)
Lemma print_ignored r title slides theme show fonts sign w h f d n c l fr sc hi o c' l' fr' sc' hi' o' :
  generate r title slides (PresentationSettings theme show (Some (PrintSettings w c l fr sc hi o h f d n)) fonts sign)
  = generate r title slides (PresentationSettings theme show (Some (PrintSettings w c' l' fr' sc' hi' o' h f d n)) fonts sign).
Proof. reflexivity. Qed.
Lemma sign_ignored r title slides theme show print fonts name e o t e' o' t' h d c m :
  generate r title slides (PresentationSettings theme show print fonts (Some (Signature (Signer name e o t) h d c m)))
  = generate r title slides (PresentationSettings theme show print fonts (Some (Signature (Signer name e' o' t') h d c m))).
Proof. reflexivity. Qed.

(** ** Palettes *)
Lemma trim_clean s : sforall (fun c => negb (is_ws c)) s = true -> trim s = s.
Proof.
  intros H. unfold trim, trim_end_by. assert (S : forall s, sforall (fun c => negb (is_ws c)) s = true -> trim_start_by is_ws s = s).
  { intros [|c t] Q; [reflexivity|]. cbn [sforall trim_start_by] in *. apply andb_prop in Q. destruct Q as [Q _]. apply negb_true_iff in Q. now rewrite Q. }
  rewrite (S s H), S; [apply srev_involutive|]. now rewrite ValidProofs.sforall_srev.
Qed.
Lemma hex_clean s : forall a n, hex_from a s = Some n -> sforall (fun c => negb (is_ws c)) s = true.
Proof.
  induction s as [|c s IH]; intros a n H; [reflexivity|]. cbn [hex_from sforall] in *. destruct (hex_value c) as [d|] eqn:E; [|discriminate]. rewrite (value_not_ws c d E). exact (IH _ _ H).
Qed.
Lemma normalize_color c n : hex_number c = Some n ->
  hex_number (normalize_hex c) = Some n /\ hex_number (normalize_hex ("#" ++ c)) = Some n /\ sforall plain_val (normalize_hex c) = true /\ sforall plain_val (normalize_hex ("#" ++ c)) = true.
Proof.
  intros H. assert (C : sforall (fun c => negb (is_ws c)) c = true) by (unfold hex_number in H; destruct c; [discriminate|exact (hex_clean _ _ _ H)]).
  unfold normalize_hex. rewrite !trim_clean by (cbn [append sforall]; exact C). destruct (strip_color c n H) as (A & B & D). rewrite strip_hash. auto.
Qed.
Definition written_as (c s : string) : Prop := s = c \/ s = "#" ++ c.
Section PALETTE.
  Context (r : rest) (title : string) (slides : list slide) (p : presentation_settings) (name : string) (dk lt dk2 lt2 a b c : string).
  Lemma palette_kept primary secondary accent background text light dark n1 n2 n3 n4 n5 n6 n7 :
    ps_theme p = Some (theme_from_palette name primary secondary accent background text light dark) -> attr_ok name = true -> name <> "Office Theme" ->
    written_as a primary -> written_as b secondary -> written_as c accent -> written_as lt background -> written_as dk text -> written_as lt2 light -> written_as dk2 dark ->
    hex_number a = Some n1 -> hex_number b = Some n2 -> hex_number c = Some n3 -> hex_number lt = Some n4 -> hex_number dk = Some n5 -> hex_number lt2 = Some n6 -> hex_number dk2 = Some n7 ->
    exists x, shows (generate r title slides p) "ppt/theme/theme1.xml" x /\ attr "name" x = name
      /\ map (map hex_number) (firstn 11 (theme_colors x)) = map (fun n => [Some n]) [n5; n4; n7; n6; n1; n2; n3; n1; n3; n1; n1].
  Proof.
    intros E A B W1 W2 W3 W4 W5 W6 W7 H1 H2 H3 H4 H5 H6 H7.
    assert (N : forall d s n, written_as d s -> hex_number d = Some n -> hex_number (normalize_hex s) = Some n /\ sforall plain_val (normalize_hex s) = true).
    { intros d s n [->| ->] Q; destruct (normalize_color d n Q) as (? & ? & ? & ?); auto. }
    destruct (N _ _ _ W1 H1) as [X1 Y1], (N _ _ _ W2 H2) as [X2 Y2], (N _ _ _ W3 H3) as [X3 Y3], (N _ _ _ W4 H4) as [X4 Y4], (N _ _ _ W5 H5) as [X5 Y5], (N _ _ _ W6 H6) as [X6 Y6], (N _ _ _ W7 H7) as [X7 Y7].
    destruct (theme_kept r title slides p _ E) as (x & S & M & C & _).
    - unfold theme_ok, theme_from_palette, palette_colors. cbn [th_name th_major th_minor th_colors color_list forallb tc_dk1 tc_lt1 tc_dk2 tc_lt2 tc_accent1 tc_accent2 tc_accent3 tc_accent4 tc_accent5 tc_accent6 tc_hlink tc_fol].
      rewrite A, Y1, Y2, Y3, Y4, Y5, Y6, Y7. reflexivity.
    - intros Q. now destruct B.
    - exists x. split; [exact S|]. split; [exact M|]. rewrite C. cbn [theme_list firstn map]. unfold theme_from_palette, palette_colors.
      cbn [th_name th_major th_minor th_colors tc_dk1 tc_lt1 tc_dk2 tc_lt2 tc_accent1 tc_accent2 tc_accent3 tc_accent4 tc_accent5 tc_accent6 tc_hlink tc_fol]. now rewrite X1, X2, X3, X4, X5, X6, X7.
  Qed.
End PALETTE.
Lemma handout_iff r title slides p : family "ppt/handoutMasters/handoutMaster1.xml" (generate r title slides p) <> [] <-> exists q, ps_print p = Some q /\ pr_what q = PrintHandouts.
Proof.
  rewrite handout_family. split.
  - destruct (ps_print p) as [q|]; [|congruence]. destruct (pr_what q) eqn:W; try congruence. intros _. now exists q.
  - intros (q & -> & ->). discriminate.
Qed.
