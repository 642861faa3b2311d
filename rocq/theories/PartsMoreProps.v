(** C76: layouts, masters, themes, notes and slides as parts of their own. *)
From Coq Require Import String Ascii List Bool Arith NArith.
From Verif Require Import Str Num XmlSpec OpcSpec XmlPath SlideModel SlideInput SlideWant SlideBackSpec ReaderModel RelsModel PartsModel PartsSpec PartsMore PartsSlide.
Import ListNotations.
Open Scope nat_scope.
Open Scope string_scope.

Theorem C76_layout : forall l : lpart, l_xml l = None -> as_value (l_name l) = true ->
  exists x, xml_read (layout_xml l) = Some x /\ attr "type" x = layout_code (l_type l) /\ map (attr "name") (at_path ["p:cSld"] x) = [l_name l].
Proof. exact layout_read. Qed.
Print Assumptions C76_layout.
Theorem C76_master : forall m : master, m_xml m = None -> forallb as_value (m_layouts m) = true -> NoDup (m_layouts m) -> (N.of_nat (length (m_layouts m)) <= 18446744071562067967)%N ->
  exists x, xml_read (master_xml m) = Some x /\ map (fun e => (attr "id" e, attr "r:id" e)) (at_path ["p:sldLayoutIdLst"; "p:sldLayoutId"] x) = number_layouts 0 (m_layouts m).
Proof. exact layouts_read. Qed.
Print Assumptions C76_master.
Theorem C76_master_numbers : forall l : list string, NoDup (map fst (number_layouts 0 l)).
Proof. exact layouts_distinct. Qed.
Print Assumptions C76_master_numbers.
Example C76_master_example : let m := add_layout_rel_id "rId2" (add_layout_rel_id "rId1" (master_new 1)) in m_xml m = None /\ m_layouts m = ["rId1"; "rId2"] /\ NoDup (m_layouts m).
Proof. cbv zeta. split; [reflexivity|]. split; [reflexivity|]. repeat constructor; cbn; intuition discriminate. Qed.
Theorem C76_theme : forall (n : nat) (calls : list theme_call), forallb theme_call_ok calls = true -> exists x, xml_read (theme_xml (fold_left theme_do calls (theme_new n))) = Some x
  /\ attr "name" x = last_given name_in "Office Theme" calls
  /\ map (attr "typeface") (at_path ["a:themeElements"; "a:fontScheme"; "a:majorFont"; "a:latin"] x) = [last_given major_in "Calibri Light" calls]
  /\ map (attr "typeface") (at_path ["a:themeElements"; "a:fontScheme"; "a:minorFont"; "a:latin"] x) = [last_given minor_in "Calibri" calls]
  /\ forall c, colors_found c x = match color_after c (office_color c) calls with Some v => [v] | None => [] end.
Proof. exact theme_history. Qed.
Print Assumptions C76_theme.
Example C76_theme_example : forallb theme_call_ok [Name "Plum"; Color "accent1" "8E44AD"; Color "brand" "123456"; Color "accent1" "663399"] = true
  /\ color_after "accent1" (office_color "accent1") [Name "Plum"; Color "accent1" "8E44AD"; Color "brand" "123456"; Color "accent1" "663399"] = Some "663399".
Proof. split; reflexivity. Qed.
Theorem C76_notes : forall (p : npart) (ls : list string), n_xml p = None -> n_text p = sjoin nl ls -> Forall line_ok ls -> last ls "x" <> "" ->
  exists x, xml_read (notes_part_xml p) = Some x /\ map paragraph_text (body_paragraphs x) = match ls with [] => [""] | _ => ls end.
Proof. exact notes_read. Qed.
Print Assumptions C76_notes.
Example C76_notes_example : Forall line_ok ["Say <hello>"; ""; "Pause & wait"] /\ n_xml (set_notes_text "x" (notes_from "y")) = None.
Proof. split; [repeat constructor|reflexivity]. Qed.
Theorem C76_slide : forall (n : nat) (s : slide), slide_ok s = true -> slide_fits s = true -> sizes_ok s = true ->
  exists q, spart_from n (spart_xml (spart_of n s)) = Some q /\ sp_number q = n /\ spart_xml q = spart_xml (spart_of n s)
    /\ spart_title q = match s_layout s with Blank => None | _ => Some (visible (s_title s)) end
    /\ spart_body q = filter nonblank (map b_text (shown_bullets s)).
Proof. exact spart_back. Qed.
Print Assumptions C76_slide.
Example C76_slide_example : slide_ok old_slide = true /\ slide_fits old_slide = true /\ sizes_ok old_slide = true.
Proof. repeat split. Qed.
Theorem C76_slide_kept : forall (n : nat) (xml : string) (q : spart), spart_from n xml = Some q -> spart_xml q = xml.
Proof. exact spart_kept. Qed.
Print Assumptions C76_slide_kept.
Theorem C76_slide_set : forall (n : nat) (xml : string) (q : spart) (s : slide), spart_from n xml = Some q -> spart_xml (set_content s q) = spart_xml (spart_of n s).
Proof. exact spart_set. Qed.
Print Assumptions C76_slide_set.
Theorem C76_slide_empty : forall n : nat, exists q, spart_from n (spart_xml (spart_new n)) = Some q /\ spart_title q = None /\ spart_body q = [].
Proof. exact spart_empty. Qed.
Print Assumptions C76_slide_empty.
Theorem C76_slide_layout : forall p : spart, rels_of (rels_xml (spart_rels p)) = Some [Rel "rId1" (doc_rel "slideLayout") "../slideLayouts/slideLayout1.xml" ""].
Proof. exact spart_layout. Qed.
Print Assumptions C76_slide_layout.
(** One relationship added twice has one number twice. *)
Theorem C76_master_again_refuted : exists r, let m := add_layout_rel_id r (add_layout_rel_id r (master_new 1)) in as_value r = true /\
  exists x a, xml_read (master_xml m) = Some x /\ map (fun e => (attr "id" e, attr "r:id" e)) (at_path ["p:sldLayoutIdLst"; "p:sldLayoutId"] x) = [a; a].
Proof. exact layout_twice. Qed.
Print Assumptions C76_master_again_refuted.
Theorem C76_theme_escaped_refuted : exists s, text_ok s = true /\ xml_read (theme_xml (theme_set_name s (theme_new 1))) = None.
Proof. exact theme_raw. Qed.
Print Assumptions C76_theme_escaped_refuted.
(** What is set after reading is never written. *)
Theorem C76_theme_after_reading_refuted : forall xml calls, theme_xml (fold_left theme_do calls (theme_from xml)) = xml.
Proof. exact theme_stuck. Qed.
Print Assumptions C76_theme_after_reading_refuted.
Theorem C76_layout_after_reading_refuted : forall xml s : string, layout_xml (layout_set_name s (layout_from xml)) = xml.
Proof. exact layout_stuck. Qed.
Print Assumptions C76_layout_after_reading_refuted.
Theorem C76_master_after_reading_refuted : forall (xml : string) (rs : list string), master_xml (fold_left (fun m r => add_layout_rel_id r m) rs (master_from xml)) = xml.
Proof. exact master_stuck. Qed.
Print Assumptions C76_master_after_reading_refuted.
Theorem C76_notes_back_refuted : exists p, n_text p <> "" /\ n_text (notes_from (notes_part_xml p)) = "" /\ n_number (notes_from (notes_part_xml p)) <> n_number p.
Proof. exact notes_forgotten. Qed.
Print Assumptions C76_notes_back_refuted.
(** The title is the one read, whatever is set later; a part made from a slide has none. *)
Theorem C76_slide_title_refuted : exists n s t q, slide_ok s = true /\ slide_ok t = true /\ s_title s <> s_title t /\ spart_from n (spart_xml (spart_of n s)) = Some q
  /\ spart_title (set_content t q) = Some (s_title s) /\ spart_title (spart_of n t) = None.
Proof. exact spart_stale. Qed.
Print Assumptions C76_slide_title_refuted.
