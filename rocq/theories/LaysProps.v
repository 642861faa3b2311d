(** C85: the slides written by the stand-alone layouts. *)
From Coq Require Import String Ascii List Bool Arith NArith ZArith.
From Verif Require Import Str Num XmlSpec XmlPath OpcSpec TableModel TableSpec ShapeModel SlideModel SlideSpec SlideInput LookSpec SlideWant SlideRefute LaysModel LaysSpec LaysRead LaysThms LaysIds.
Import ListNotations.
Open Scope nat_scope.
Open Scope string_scope.

(** Every layout but the blank one shows the title, with its looks. *)
Theorem C85_title : forall s cu, slide_ok s = true -> s_layout s <> Blank -> points_ok s = true ->
  exists x t rest, xml_read (lay_xml s cu) = Some x /\ slide_shapes x = t :: rest
    /\ shape_name t = ["Title"] /\ shape_paragraphs t = [s_title s] /\ text_look t = lay_title_want s.
Proof. intros s cu A B C. destruct (lay_title_shown s cu A B C) as (t & r & H). exact (ex_intro _ _ (ex_intro _ t (ex_intro _ r (conj (lay_read s cu A) H)))). Qed.
Print Assumptions C85_title.
Example C85_title_case : slide_ok sample = true /\ s_layout sample <> Blank /\ points_ok sample = true /\ s_title sample = "A < B & ""C""".
Proof. split; [reflexivity|]. split; [discriminate|]. split; reflexivity. Qed.
(** The blank layout shows nothing. *)
Theorem C85_blank : forall s cu, slide_ok s = true -> s_layout s = Blank -> exists x, xml_read (lay_xml s cu) = Some x /\ slide_shapes x = [] /\ slide_frames x = [].
Proof. intros s cu A B. exact (ex_intro _ _ (conj (lay_read s cu A) (lay_blank s cu B))). Qed.
Print Assumptions C85_blank.
(** The content layouts show every bullet, in order, with level, mark and looks. *)
Theorem C85_bullets : forall s cu, slide_ok s = true -> points_ok s = true -> wanted s <> [] ->
  s_layout s = TitleAndBigContent \/ (s_layout s = TitleAndContent /\ s_table s = None) ->
  exists x t b rest, xml_read (lay_xml s cu) = Some x /\ slide_shapes x = t :: b :: rest /\ shape_name b = ["Content"] /\ shape_bullets b = map (lay_view s cu) (wanted s).
Proof. intros s cu A B C D. destruct (lay_bullets_shown s cu A B C D) as (t & b & r & H). exact (ex_intro _ _ (ex_intro _ t (ex_intro _ b (ex_intro _ r (conj (lay_read s cu A) H))))). Qed.
Print Assumptions C85_bullets.
Example C85_bullets_case : slide_ok sample = true /\ points_ok sample = true /\ wanted sample <> [] /\ s_layout sample = TitleAndContent /\ s_table sample = None.
Proof. repeat split. discriminate. Qed.
(** The two columns split the bullets without loss, the left one being at most
    one longer; an empty column is left out.  The boxes lie side by side within
    the slide of 9144000 by 6858000 (C85_columns_apart). *)
Theorem C85_columns : forall s cu, slide_ok s = true -> points_ok s = true -> s_layout s = TwoColumn ->
  exists x t boxes l r, xml_read (lay_xml s cu) = Some x /\ slide_shapes x = t :: boxes /\ wanted s = (l ++ r)%list /\ (length l = length r \/ length l = S (length r))
    /\ map (fun b => (shape_name b, placed b, shape_bullets b)) boxes
       = (match l with [] => [] | _ => [(["Left Content"], at_box left_box, map (lay_view s cu) l)] end ++ match r with [] => [] | _ => [(["Right Content"], at_box right_box, map (lay_view s cu) r)] end)%list.
Proof. intros s cu A B C. destruct (lay_columns_shown s cu A B C) as (t & b & l & r & H). exact (ex_intro _ _ (ex_intro _ t (ex_intro _ b (ex_intro _ l (ex_intro _ r (conj (lay_read s cu A) H)))))). Qed.
Print Assumptions C85_columns.
Example C85_columns_apart : match left_box, right_box with (x, y, w, h), (x', y', w', h') =>
  (0 < x /\ x + w <= x' /\ x' + w' < 9144000 /\ y + h <= 6858000 /\ y' + h' <= 6858000)%N end.
Proof. vm_compute. repeat split; discriminate. Qed.
Example C85_columns_case : slide_ok columns = true /\ points_ok columns = true /\ s_layout columns = TwoColumn /\ length (wanted columns) = 5.
Proof. repeat split. Qed.
(** Title and content: after at most two text boxes come the shapes, in order,
    and then a box with the file name in place of each image. *)
Theorem C85_objects : forall s cu, slide_ok s = true -> s_layout s = TitleAndContent ->
  exists x before user pics, xml_read (lay_xml s cu) = Some x /\ slide_shapes x = (before ++ user ++ pics)%list /\ length before <= 2
    /\ Forall2 shape_shown user (s_shapes s) /\ Forall2 placeholder pics (s_images s).
Proof. intros s cu A B. destruct (lay_objects s cu A B) as (b & u & p & H). exact (ex_intro _ _ (ex_intro _ b (ex_intro _ u (ex_intro _ p (conj (lay_read s cu A) H))))). Qed.
Print Assumptions C85_objects.
Example C85_objects_case : slide_ok sample = true /\ s_layout sample = TitleAndContent /\ length (s_shapes sample) = 2 /\ length (s_images sample) = 1.
Proof. repeat split. Qed.
(** Title and content: a table is shown cell by cell. *)
Theorem C85_table : forall s cu t, slide_ok s = true -> s_layout s = TitleAndContent -> s_table s = Some t ->
  exists x f, xml_read (lay_xml s cu) = Some x /\ slide_frames x = [f]
    /\ grid f = map (fun r => map cell_text (cells r)) (rows t) /\ grid_spans f = map (fun r => map cell_spans (cells r)) (rows t)
    /\ grid_widths f = map dec (widths t) /\ row_heights f = map (fun r => dec (want_height r)) (rows t) /\ frame f = want_frame t
    /\ (cell_sizes_ok t = true -> grid_looks f = map (fun r => map want_looks (cells r)) (rows t)).
Proof. intros s cu t A B C. destruct (lay_table s cu A t B C) as (f & H). exact (ex_intro _ _ (ex_intro _ f (conj (lay_read s cu A) H))). Qed.
Print Assumptions C85_table.
Example C85_table_case : slide_ok tabled = true /\ s_layout tabled = TitleAndContent /\ exists t, s_table tabled = Some t /\ length (rows t) = 2.
Proof. split; [reflexivity|]. split; [reflexivity|]. eexists. split; reflexivity. Qed.
(** All drawing ids of a slide differ, short of four thousand million shapes. *)
Theorem C85_ids : forall s cu, slide_ok s = true -> (N.of_nat (length (s_shapes s)) + 10 <= u32_max)%N -> exists x, xml_read (lay_xml s cu) = Some x /\ List.NoDup (drawing_ids x).
Proof. intros s cu A B. exact (ex_intro _ _ (conj (lay_read s cu A) (lay_ids s cu B))). Qed.
Print Assumptions C85_ids.
Example C85_ids_case : slide_ok sample = true /\ (N.of_nat (length (s_shapes sample)) + 10 <= u32_max)%N
  /\ exists x, xml_read (lay_xml sample true) = Some x /\ drawing_ids x = ["1"; "2"; "3"; "10"; "11"; "22"].
Proof. split; [reflexivity|]. split; [vm_compute; discriminate|]. eexists. split; vm_compute; reflexivity. Qed.
(** The other layouts write nothing but the title and the texts of the bullets:
    formats, tables, shapes, images, charts, connectors, code and transitions are
    lost without a word. *)
Theorem C85_dropped_refuted : forall s cu, s_layout s <> TitleAndContent -> lay_xml s cu = lay_xml (texts_only s) cu.
Proof. exact lay_dropped. Qed.
Print Assumptions C85_dropped_refuted.
(** The title of a new slide is 44 points high in a deck, and less than half a
    point high here. *)
Theorem C85_size_refuted : exists x y, xml_read (slide_xml (slide_new "T") [] None) = Some x /\ xml_read (lay_xml (slide_new "T") false) = Some y
  /\ flat_map (fun n => map (attr "sz") (at_path ["p:txBody"; "a:p"; "a:r"; "a:rPr"] n)) (slide_shapes x) = ["4400"]
  /\ flat_map (fun n => map (attr "sz") (at_path ["p:txBody"; "a:p"; "a:r"; "a:rPr"] n)) (slide_shapes y) = ["44"].
Proof. eexists. eexists. split; [vm_compute; reflexivity|]. split; [vm_compute; reflexivity|]. split; vm_compute; reflexivity. Qed.
Print Assumptions C85_size_refuted.
