(** C16, C41, C50: what a generated slide part shows, and its drawing ids. *)
From Coq Require Import String Ascii List Bool Arith NArith ZArith.
From Verif Require Import Str Num XmlSpec XmlPath OpcSpec TableModel TableSpec ConnectorModel ChartModel ShapeModel SlideModel SlideSpec SlideInput LookSpec SlideWant GeomSpec GeomProofs SlideRefute SlideRead SlideThms.
Import ListNotations.
Open Scope nat_scope.
Open Scope string_scope.

(** C16: all [p:cNvPr/@id] of the slide differ, for any number of elements, when
    no shape carries an id chosen by the caller. *)
Theorem C16_drawing_ids_distinct s rids ink : slide_ok s = true -> rids_ok rids ink = true ->
  Forall (fun t => sh_id t = None) (s_shapes s) -> (N.of_nat (length (s_shapes s)) + 10 <= u32_max)%N ->
  exists x, xml_read (slide_xml s rids ink) = Some x /\ List.NoDup (drawing_ids x).
Proof. intros A B C D. exact (ex_intro _ _ (conj (reads s rids ink A B) (ids_nodup s rids ink B C D))). Qed.
Print Assumptions C16_drawing_ids_distinct.
Example C16_case : slide_ok sample = true /\ rids_ok ["rId4"] (Some "rId5") = true /\ Forall (fun t => sh_id t = None) (s_shapes sample)
  /\ exists x, xml_read (slide_xml sample ["rId4"] (Some "rId5")) = Some x /\ drawing_ids x = ["1"; "2"; "3"; "10"; "11"; "22"; "33"; "54"; "105"].
Proof. split; [reflexivity|]. split; [reflexivity|]. split; [repeat constructor|]. eexists. split; [vm_compute; reflexivity|]. vm_compute. reflexivity. Qed.
(** A shape whose id the caller chose may share it with the title. *)
Theorem C16_chosen_id_refuted : exists s x, slide_ok s = true /\ xml_read (slide_xml s [] None) = Some x /\ ~ List.NoDup (drawing_ids x).
Proof. exact chosen_id. Qed.
Print Assumptions C16_chosen_id_refuted.

(** C41: the two columns split the bullets without loss. *)
Theorem C41_columns s rids ink : slide_ok s = true -> rids_ok rids ink = true -> sizes_ok s = true -> s_layout s = TwoColumn ->
  exists x l r, xml_read (slide_xml s rids ink) = Some x /\ wanted s = (l ++ r)%list /\ (length l = length r \/ length l = S (length r))
    /\ map shape_bullets (shapes_named "Left Content" x) = match l with [] => [] | _ => [map (bullet_view s 24) l] end
    /\ map shape_bullets (shapes_named "Right Content" x) = match r with [] => [] | _ => [map (bullet_view s 24) r] end.
Proof.
  intros A B C D. destruct (columns_shown s rids ink A C D) as (l & r & H). exact (ex_intro _ _ (ex_intro _ l (ex_intro _ r (conj (reads s rids ink A B) H)))).
Qed.
Print Assumptions C41_columns.
Example C41_case : slide_ok columns = true /\ rids_ok [] None = true /\ sizes_ok columns = true /\ s_layout columns = TwoColumn /\ length (wanted columns) = 5.
Proof. repeat split. Qed.

(** C50: the slide shows the title, whatever characters it has. *)
Theorem C50_title s rids ink : slide_ok s = true -> rids_ok rids ink = true -> s_layout s <> Blank ->
  exists x, xml_read (slide_xml s rids ink) = Some x /\ map shape_paragraphs (shapes_named "Title" x) = [[s_title s]].
Proof. intros A B C. exact (ex_intro _ _ (conj (reads s rids ink A B) (title_shown s rids ink C))). Qed.
Print Assumptions C50_title.
(** C50: the title has the alignment, size, weight, slant, underline and colour
    the caller asked for. *)
Theorem C50_title_look s rids ink : slide_ok s = true -> rids_ok rids ink = true -> s_layout s <> Blank -> SlideWant.size_ok (s_tsize s) = true ->
  exists x, xml_read (slide_xml s rids ink) = Some x /\ map text_look (shapes_named "Title" x) = [title_want s].
Proof. intros A B C D. exact (ex_intro _ _ (conj (reads s rids ink A B) (title_looks s rids ink A C D))). Qed.
Print Assumptions C50_title_look.
(** C50: the transition is the one the caller chose. *)
Theorem C50_transition s rids ink : slide_ok s = true -> rids_ok rids ink = true ->
  exists x, xml_read (slide_xml s rids ink) = Some x /\ slide_transition x = want_transition (s_transition s).
Proof. intros A B. exact (ex_intro _ _ (conj (reads s rids ink A B) (trans_shown s rids ink))). Qed.
Print Assumptions C50_transition.
Example C50_title_case : slide_ok sample = true /\ s_layout sample <> Blank /\ SlideWant.size_ok (s_tsize sample) = true /\ s_title sample = "A < B & ""C""".
Proof. split; [reflexivity|]. split; [discriminate|]. split; reflexivity. Qed.

(** C50: the content layouts show every bullet, in order, at its level and with
    its formatting. *)
Theorem C50_bullets s rids ink : slide_ok s = true -> rids_ok rids ink = true -> sizes_ok s = true -> wanted s <> [] ->
  s_layout s = TitleAndBigContent \/ (s_layout s = TitleAndContent /\ s_table s = None) ->
  exists x, xml_read (slide_xml s rids ink) = Some x /\ map shape_bullets (shapes_named "Content" x) = [map (bullet_view s 28) (wanted s)].
Proof. intros A B C D E. exact (ex_intro _ _ (conj (reads s rids ink A B) (content_shown s rids ink A C D E))). Qed.
Print Assumptions C50_bullets.
Example C50_bullets_case : slide_ok sample = true /\ sizes_ok sample = true /\ wanted sample <> [] /\ s_layout sample = TitleAndContent /\ s_table sample = None.
Proof. repeat split. discriminate. Qed.

(** C50: a table is shown cell by cell, before the charts. *)
Theorem C50_table s rids ink t : slide_ok s = true -> rids_ok rids ink = true -> s_layout s = TitleAndContent -> s_table s = Some t ->
  exists x f fs, xml_read (slide_xml s rids ink) = Some x /\ slide_frames x = f :: fs
    /\ grid f = map (fun r => map cell_text (cells r)) (rows t) /\ grid_spans f = map (fun r => map cell_spans (cells r)) (rows t)
    /\ grid_widths f = map dec (widths t) /\ row_heights f = map (fun r => dec (want_height r)) (rows t)
    /\ frame f = want_frame t
    /\ (cell_sizes_ok t = true -> grid_looks f = map (fun r => map want_looks (cells r)) (rows t)).
Proof.
  intros A B C D. destruct (table_shown s rids ink A t C D) as (f & H).
  exact (ex_intro _ _ (ex_intro _ f (ex_intro _ _ (conj (reads s rids ink A B) H)))).
Qed.
Print Assumptions C50_table.
Example C50_table_case : slide_ok tabled = true /\ s_layout tabled = TitleAndContent /\ exists t, s_table tabled = Some t /\ length (rows t) = 2.
Proof. split; [reflexivity|]. split; [reflexivity|]. eexists. split; reflexivity. Qed.

(** C50: after at most three text boxes of the layout come the caller's shapes
    and code blocks, in order, each with its geometry, place and text. *)
Theorem C50_shapes s rids ink : slide_ok s = true -> rids_ok rids ink = true ->
  exists x before user codes, xml_read (slide_xml s rids ink) = Some x /\ length before <= 3
    /\ slide_shapes x = (before ++ user ++ codes)%list
    /\ Forall2 shape_shown user (s_shapes s) /\ Forall2 code_shown codes (s_code s).
Proof.
  intros A B. destruct (shapes_shown s rids ink A) as (b & L & u & c & H).
  exact (ex_intro _ _ (ex_intro _ b (ex_intro _ u (ex_intro _ c (conj (reads s rids ink A B) (conj L H)))))).
Qed.
Print Assumptions C50_shapes.
Example C50_shapes_case : slide_ok sample = true /\ forallb turns_ok (s_shapes sample) = true /\ length (s_shapes sample) = 2 /\ length (s_code sample) = 1.
Proof. repeat split. Qed.

(** C50: pictures, in order, with name, alternative text, relationship id,
    place, crop and effects. *)
Theorem C50_pictures s rids ink : slide_ok s = true -> rids_ok rids ink = true ->
  exists x, xml_read (slide_xml s rids ink) = Some x /\ length (slide_pictures x) = length (s_images s) /\
    forall i im, nth_error (s_images s) i = Some im ->
      exists p, nth_error (slide_pictures x) i = Some p /\ picture_info p = ([(im_name im, im_alt im)], [image_rid s i]) /\ picture_look p = want_picture im.
Proof. intros A B. exact (ex_intro _ _ (conj (reads s rids ink A B) (pictures_shown s rids ink))). Qed.
Print Assumptions C50_pictures.

(** C50: connectors, in order, with both end points, glue and label. *)
Theorem C50_connectors s rids ink : slide_ok s = true -> rids_ok rids ink = true ->
  exists x, xml_read (slide_xml s rids ink) = Some x /\ Forall2 connector_shown (slide_connectors x) (s_connectors s).
Proof. intros A B. exact (ex_intro _ _ (conj (reads s rids ink A B) (connectors_shown s rids ink A))). Qed.
Print Assumptions C50_connectors.

(** C50: one frame per chart, with the chart's relationship id, place and size,
    in order (after the table, if there is one). *)
Theorem C50_charts s rids ink : slide_ok s = true -> rids_ok rids ink = true -> length rids = length (s_charts s) ->
  exists x before after, xml_read (slide_xml s rids ink) = Some x /\ flat_map chart_ids (slide_frames x) = rids
    /\ slide_frames x = (before ++ after)%list /\ length before <= 1 /\ Forall2 chart_shown after (combine (s_charts s) rids).
Proof.
  intros A B C. destruct (chart_frames s rids ink C) as (b & a & H).
  exact (ex_intro _ _ (ex_intro _ b (ex_intro _ a (conj (reads s rids ink A B) (conj (charts_shown s rids ink C) H))))).
Qed.
Print Assumptions C50_charts.

(** C15, first half: exactly which relationship ids the slide refers to. *)
Theorem C15_ids_used s rids ink : slide_ok s = true -> rids_ok rids ink = true -> length rids = length (s_charts s) ->
  exists x, xml_read (slide_xml s rids ink) = Some x /\ rel_ids_used x =
    (flat_map link_ids (s_shapes s) ++ map (image_rid s) (seq 0 (length (s_images s))) ++ rids
     ++ match ink with Some r => if s_ink s then [r] else [] | None => [] end)%list.
Proof. intros A B C. exact (ex_intro _ _ (conj (reads s rids ink A B) (rel_ids_eq s rids ink B C))). Qed.
Print Assumptions C15_ids_used.
Example C50_parts_case : slide_ok sample = true /\ rids_ok ["rId4"] (Some "rId5") = true /\ length (s_images sample) = 1 /\ length (s_connectors sample) = 1
  /\ length ["rId4"] = length (s_charts sample) /\ s_ink sample = true.
Proof. repeat split. Qed.

(** Bullets are not shown by four of the seven layouts: the part is the same as
    without them. *)
Theorem C50_bullets_dropped_refuted s rids ink : In (s_layout s) [Blank; TitleOnly; CenteredTitle; SectionHeader] ->
  slide_xml s rids ink = slide_xml (without_bullets s) rids ink.
Proof. exact (bullets_dropped s rids ink). Qed.
Print Assumptions C50_bullets_dropped_refuted.
(** A table is dropped by every layout but one, where it replaces the bullets. *)
Theorem C50_table_dropped_refuted s rids ink : s_layout s <> TitleAndContent -> slide_xml s rids ink = slide_xml (without_table s) rids ink.
Proof. exact (table_dropped s rids ink). Qed.
Print Assumptions C50_table_dropped_refuted.
Theorem C50_table_hides_bullets_refuted s rids ink t : s_layout s = TitleAndContent -> s_table s = Some t ->
  slide_xml s rids ink = slide_xml (without_bullets s) rids ink.
Proof. exact (table_hides s rids ink t). Qed.
Print Assumptions C50_table_hides_bullets_refuted.
Example C50_dropped_case : s_layout (dropped TitleOnly) = TitleOnly /\ without_bullets (dropped TitleOnly) <> dropped TitleOnly
  /\ without_table tabled <> tabled /\ without_bullets tabled <> tabled.
Proof. repeat split; discriminate. Qed.
(** The figures asked for are figures of the format; but fourteen kinds of shape
    are written under a name the format does not know. *)
Theorem C50_figures k g : figure k = Some g -> In g preset_figures.
Proof. exact (figure_known k g). Qed.
Print Assumptions C50_figures.
Theorem C50_figure_refuted k : figure k = None -> exists s x n g, slide_ok s = true /\ map sh_type (s_shapes s) = [k] /\ xml_read (slide_xml s [] None) = Some x
  /\ In n (slide_shapes x) /\ map (attr "prst") (at_path ["p:spPr"; "a:prstGeom"] n) = [g] /\ ~ In g preset_figures.
Proof. exact (unknown_figure k). Qed.
Print Assumptions C50_figure_refuted.
Example C50_figure_case : map figure [KCylinder; KSeal; KPentagonArrow] = [None; None; None] /\ figure KStar5 = Some "star5".
Proof. split; reflexivity. Qed.
(** Some text of the caller reaches the part unescaped: a custom bullet
    character, a font name, a shape colour; and the title of the basic slide. *)
Theorem C50_custom_bullet_refuted : exists ch, xml_read (slide_xml (with_bullet (BulletPoint "a" 0 (Custom ch) None)) [] None) = None.
Proof. exact custom_bullet. Qed.
Print Assumptions C50_custom_bullet_refuted.
Theorem C50_font_refuted : exists f, xml_read (slide_xml (with_bullet (BulletPoint "a" 0 Bullet (Some (Format false false false false false false None None None (Some f))))) [] None) = None.
Proof. exact font_name. Qed.
Print Assumptions C50_font_refuted.
Theorem C50_shape_color_refuted : exists c, xml_read (slide_xml (with_shape (Shape KRectangle 0 0 1 1 (Some (Fill c None)) None None None None None None 0 false)) [] None) = None.
Proof. exact shape_color. Qed.
Print Assumptions C50_shape_color_refuted.
Theorem C50_basic_title_refuted : exists t, text_ok t = true /\ xml_read (simple_slide_xml 1 t) = None.
Proof. exact basic_title. Qed.
Print Assumptions C50_basic_title_refuted.
