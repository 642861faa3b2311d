(** Lemmas: charts, notes and images of a generated deck are where its slides
    say. *)
From Coq Require Import String Ascii List Bool Arith NArith Lia.
From Verif Require Import Str Num XmlSpec XmlProofs XmlTpl OpcSpec GenModel FontsModel PresProofs ChartModel ShapeModel SlideModel SlideSpec SlideInput SlideWant SlideRead SlideThms DeckModel ResolveSpec ResolveProofs DeckSpec DeckInput DeckParts DeckWhole DeckRels NotesRead.
Import ListNotations.
Open Scope nat_scope.
Open Scope string_scope.
Local Open Scope list_scope.

Lemma flat_map_nth1 {A B} (f : A -> list B) (g : A -> B) l : (forall x, In x l -> f x = [g x]) -> flat_map f l = map g l.
Proof. intros H. induction l as [|x l IH]; [reflexivity|]. cbn. rewrite (H x (or_introl eq_refl)), IH; [reflexivity|]. intros y Y. apply H. now right. Qed.
Lemma count_notes l : count_if has_notes l = length (filter noted l).
Proof. reflexivity. Qed.

Section T.
  Context (X : statics) (title : string) (slides : list slide) (st : settings).
  Notation deck := (create_pptx_with_settings X title slides st).
  Notation reg := (build_media_registry slides).
  Context (i : nat) (s : slide) (H : nth_error slides i = Some s) (OK : deck_slide_ok s = true) (ST : stored s = true).
  Lemma ok_slide : slide_ok s = true.
  Proof. unfold deck_slide_ok in OK. rewrite !andb_true_iff in OK. tauto. Qed.
  Lemma ok_exts : exts_ok s = true.
  Proof. unfold deck_slide_ok in OK. rewrite !andb_true_iff in OK. tauto. Qed.
  Lemma ok_links : links_ok s = true.
  Proof. unfold deck_slide_ok in OK. rewrite !andb_true_iff in OK. tauto. Qed.
  Definition part_number (m : image) : nat := match im_bytes m with Some b => match lookup_number reg b (im_ext m) with Some n => n | None => 0 end | None => 0 end.
  Lemma targets_eq : slide_image_rel_targets reg s = map (fun m => (part_number m, im_ext m)) (s_images s).
  Proof.
    unfold slide_image_rel_targets. apply flat_map_nth1. intros m M. unfold stored in ST. rewrite forallb_forall in ST. specialize (ST m M).
    unfold part_number. destruct (im_bytes m) as [b|] eqn:B; [|discriminate]. destruct (In_nth_error _ _ M) as [k K]. destruct (media_number slides i s H k m b K B) as (n & L & _). now rewrite L.
  Qed.
  Definition start : nat := slide_content_rel_start (has_notes s) (length (s_images s)).
  Lemma targets_length : length (slide_image_rel_targets reg s) = length (s_images s).
  Proof. rewrite targets_eq. apply map_length. Qed.
  Definition my_ink : option string := if s_ink s then Some ("rId" ++ decn (start + length (s_charts s)))%string else None.
  Lemma rids_fine : rids_ok (chart_rids start (length (s_charts s))) my_ink = true.
  Proof.
    unfold rids_ok, my_ink, chart_rids. apply andb_true_iff. split.
    - apply forallb_forall. intros r R. apply in_map_iff in R. destruct R as (j & <- & _). rewrite sforall_app. cbn [andb]. apply decn_plain.
    - destruct (s_ink s); [|reflexivity]. cbn [TableSpec.opt_ok]. rewrite sforall_app. apply decn_plain.
  Qed.
  Definition tree : node := TplRead.tnode (slideT s (chart_rids start (length (s_charts s))) my_ink).
  Lemma tree_read : xml_read (eager_slide s) = Some tree.
  Proof. exact (reads s _ _ ok_slide rids_fine). Qed.
  Lemma rids_length : length (chart_rids start (length (s_charts s))) = length (s_charts s).
  Proof. unfold chart_rids. now rewrite map_length, seq_length. Qed.
  Definition my_rels : list rel := slide_rel_list (layout_number (s_layout s)) (has_notes s) (if has_notes s then notes_before slides i + 1 else 1)
    (chart_rels start (charts_before slides i + 1) (length (s_charts s))) (map (fun m => (part_number m, im_ext m)) (s_images s)) (slide_links s)
    (if s_ink s then Some (start + length (s_charts s), inks_before slides i + 1) else None).
  Lemma rels_read : exists xml, In (slide_rels_path (i + 1), xml) deck /\ rels_of xml = Some my_rels.
  Proof.
    eexists. split; [apply (rels_in X title slides st i s H)|]. rewrite (eager_rels_read _ _ _ _ s ok_exts ok_links). unfold my_rels. rewrite targets_length, targets_eq. reflexivity.
  Qed.
  Lemma slide_rel_in r : In r my_rels -> has_rel deck ["ppt"; "slides"] ("slide" ++ decn (i + 1) ++ ".xml") r.
  Proof.
    intros R. destruct rels_read as (xml & I & E). exists xml, my_rels. split; [|auto].
    replace (path _) with (slide_rels_path (i + 1)); [exact I|]. unfold slide_rels_path, path. cbn [app sjoin append]. now rewrite !sapp_assoc.
  Qed.
  Lemma nth_chart_rid j : j < length (s_charts s) -> nth_error (chart_rids start (length (s_charts s))) j = Some ("rId" ++ decn (start + j))%string.
  Proof.
    intros J. unfold chart_rids. rewrite (map_nth_error _ j (d := j) (seq 0 _)); [reflexivity|]. rewrite (nth_error_nth' _ 0) by (now rewrite seq_length). now rewrite seq_nth.
  Qed.
  Lemma chart_linked j c : nth_error (s_charts s) j = Some c ->
    exists r, nth_error (flat_map chart_ids (slide_frames tree)) j = Some r
      /\ linked deck ["ppt"; "slides"] ("slide" ++ decn (i + 1) ++ ".xml") r "chart" ("ppt/charts/chart" ++ decn (charts_before slides i + j + 1) ++ ".xml") (chart_part_xml c).
  Proof.
    intros J. assert (L : j < length (s_charts s)) by (apply nth_error_Some; congruence). exists ("rId" ++ decn (start + j))%string. split.
    - unfold tree. rewrite (charts_shown s _ _ rids_length). now apply nth_chart_rid.
    - exists (chart_rel ("rId" ++ decn (start + j), "../charts/chart" ++ decn (charts_before slides i + 1 + j) ++ ".xml")%string). split; [|repeat split].
      + apply slide_rel_in. unfold my_rels, slide_rel_list. do 3 (apply in_or_app; right). apply in_or_app. left. apply in_map. unfold chart_rels. apply in_map_iff. exists j. split; [reflexivity|]. apply in_seq. lia.
      + cbn [chart_rel snd rel_target]. replace (charts_before slides i + 1 + j) with (charts_before slides i + j + 1) by lia.
        apply (leads_num ["ppt"] "slides" "charts" "chart" ".xml"); [now apply is_nameb_ok|now apply is_nameb_ok|reflexivity|reflexivity].
      + apply (chart_in X title slides st i s H j c J).
  Qed.
  Lemma notes_linked t : s_notes s = Some t -> text_ok t = true ->
    exists n x, xml_read n = Some x /\ page_texts "body" x = [[t]]
      /\ linked deck ["ppt"; "slides"] ("slide" ++ decn (i + 1) ++ ".xml") "rId2" "notesSlide" ("ppt/notesSlides/notesSlide" ++ decn (notes_before slides i + 1) ++ ".xml") n
      /\ linked deck ["ppt"; "notesSlides"] ("notesSlide" ++ decn (notes_before slides i + 1) ++ ".xml") "rId1" "slide" ("ppt/slides/slide" ++ decn (i + 1) ++ ".xml") (eager_slide s).
  Proof.
    intros N T. assert (HN : has_notes s = true) by (unfold has_notes; now rewrite N). exists (create_notes_xml (i + 1) t). destruct (notes_reads (i + 1) t T) as (x & E & P). exists x. split; [exact E|]. split; [exact P|]. split.
    - exists (Rel "rId2" (doc_rel "notesSlide") ("../notesSlides/notesSlide" ++ decn (notes_before slides i + 1) ++ ".xml") ""). split; [|repeat split].
      + apply slide_rel_in. unfold my_rels, slide_rel_list. apply in_or_app. right. apply in_or_app. left. rewrite HN. now left.
      + apply (leads_num ["ppt"] "slides" "notesSlides" "notesSlide" ".xml"); [now apply is_nameb_ok|now apply is_nameb_ok|reflexivity|reflexivity].
      + apply (notes_in X title slides st i s H t N).
    - exists (Rel "rId1" (doc_rel "slide") ("../slides/slide" ++ decn (i + 1) ++ ".xml") ""). split; [|repeat split].
      + exists (create_notes_rels_xml (i + 1)). eexists. split; [|split; [apply notes_rels_read|now left]].
        replace (path _) with (notes_rels_path (notes_before slides i + 1)); [apply (notes_rels_in X title slides st i s H HN)|]. unfold notes_rels_path, path. cbn [app sjoin append]. now rewrite !sapp_assoc.
      + apply (leads_num ["ppt"] "notesSlides" "slides" "slide" ".xml"); [now apply is_nameb_ok|now apply is_nameb_ok|reflexivity|reflexivity].
      + apply (slide_in X title slides st i s H).
  Qed.
  Lemma enumerate_nth {A} (l : list A) k x : nth_error l k = Some x -> In (k, x) (enumerate l).
  Proof. intros N. apply (nth_error_In _ k). change (enumerate l) with (ix 0 l). rewrite ix_nth, N. reflexivity. Qed.
  Lemma image_linked k m b : nth_error (s_images s) k = Some m -> im_bytes m = Some b -> name (im_ext m) ->
    exists p r, nth_error (slide_pictures tree) k = Some p /\ picture_info p = ([(im_name m, im_alt m)], [r])
      /\ linked deck ["ppt"; "slides"] ("slide" ++ decn (i + 1) ++ ".xml") r "image" ("ppt/media/image" ++ decn (part_number m) ++ "." ++ im_ext m) b.
  Proof.
    intros K B NE. destruct (pictures_shown s (chart_rids start (length (s_charts s))) my_ink) as [_ P]. destruct (P k m K) as (p & P1 & P2 & _). exists p, (image_rid s k). split; [exact P1|]. split; [exact P2|].
    destruct (media_number slides i s H k m b K B) as (n & L & N).
    assert (PN : part_number m = n + 1) by (unfold part_number; now rewrite B, L).
    exists (image_rel (if has_notes s then 3 else 2) (k, (part_number m, im_ext m))). split; [|repeat split].
    - apply slide_rel_in. unfold my_rels, slide_rel_list. do 2 (apply in_or_app; right). apply in_or_app. left. apply in_map. apply enumerate_nth. now apply (map_nth_error (fun m => (part_number m, im_ext m))).
    - unfold image_rel, image_rid, has_notes. cbn [rel_id fst snd]. destruct (s_notes s); reflexivity.
    - cbn [image_rel rel_target fst snd]. apply (leads_num ["ppt"] "slides" "media" "image" ("." ++ im_ext m)); [now apply is_nameb_ok|now apply is_nameb_ok| |reflexivity]. cbn [append sforall]. cbn [negb andb Ascii.eqb]. apply NE.
    - rewrite PN. apply (media_in X title slides st n b (im_ext m) N).
  Qed.
End T.
