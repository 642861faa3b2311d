(** C29, C30, C31: what compression keeps, counts and removes. *)
From stdpp Require Import gmap strings.
From Coq Require Import String Ascii List Bool Arith NArith.
From Verif Require Import Str XmlSpec OpcSpec ResolveSpec PackageModel SlideModel SlideSpec SlideRefute GenModel CompressModel CompressSpec CompressProofs CompressRefute.
Import ListNotations.
Open Scope nat_scope.
Open Scope string_scope.

(** C29: only white space is removed, whatever the input. *)
Theorem C29_only_whitespace_removed (s : string) : dense (minimize_xml s) = dense s.
Proof. exact (minimize_dense s). Qed.
Print Assumptions C29_only_whitespace_removed.
Theorem C29_never_longer (s : string) : String.length (minimize_xml s) <= String.length s.
Proof. exact (minimize_length s). Qed.
Print Assumptions C29_never_longer.
(** A document cut into texts and tags keeps its tags byte for byte, its texts up
    to white space. *)
Theorem C29_tags_kept (l : list (string * string)) : Forall piece_ok l ->
  exists l', Forall2 (fun a b => dense (fst a) = dense (fst b) /\ snd a = snd b) l' l /\ minimize_xml (doc l) = doc l'.
Proof. exact (minimize_tags l). Qed.
Print Assumptions C29_tags_kept.
Example C29_case : Forall piece_ok sample_pieces /\ doc sample_pieces = e_in /\ minimize_xml e_in = e_out /\ e_in <> e_out.
Proof. exact sample_minimized. Qed.
(** It does not keep what a reader sees: a space at the end of a run is lost. *)
Theorem C29_text_refuted : exists s x y, xml_read s = Some x /\ xml_read (minimize_xml s) = Some y /\ x <> y.
Proof. exact text_changed. Qed.
Print Assumptions C29_text_refuted.
(** After one double quote in a text, white space inside attribute values goes too. *)
Theorem C29_attribute_refuted : exists s x y, xml_read s = Some x /\ xml_read (minimize_xml s) = Some y /\ map (attr "v") (children x) <> map (attr "v") (children y).
Proof. exact attribute_changed. Qed.
Print Assumptions C29_attribute_refuted.
(** It is not idempotent. *)
Theorem C29_idempotent_refuted : exists s, minimize_xml (minimize_xml s) <> minimize_xml s.
Proof. exact not_idempotent. Qed.
Print Assumptions C29_idempotent_refuted.

(** C30: each part is counted in one category. *)
Theorem C30_sizes_add_up (l : list (string * string)) : a_images (analyze l) + a_xml (analyze l) + a_other (analyze l) = total l.
Proof. exact (sizes_add_up l). Qed.
Print Assumptions C30_sizes_add_up.
Theorem C30_categories (l : list (string * string)) :
  a_images (analyze l) = sum_of an_image l /\ a_xml (analyze l) = sum_of an_xml l /\ a_other (analyze l) = sum_of an_other l.
Proof. exact (categories l). Qed.
Print Assumptions C30_categories.
Theorem C30_counts (l : list (string * string)) :
  a_image_count (analyze l) = count an_image l /\ a_slide_count (analyze l) = count a_slide l
  /\ a_image_count (analyze l) + a_media_count (analyze l) = count (starts_with "ppt/media/") l.
Proof. exact (counts l). Qed.
Print Assumptions C30_counts.
(** The order in which the parts are visited does not matter. *)
Theorem C30_order_irrelevant (l l' : list (string * string)) : Permutation l l' -> analyze l = analyze l'.
Proof. exact (analyze_perm l l'). Qed.
Print Assumptions C30_order_irrelevant.
Example C30_case : analyze [("ppt/media/image1.png", "12345"); ("ppt/slides/slide1.xml", "abc"); ("ppt/media/v.mp4", "12"); ("ppt/slides/_rels/slide1.xml.rels", "r"); ("x.bin", "")]
  = Analysis 5 4 2 1 1 1 /\ Permutation [("ppt/media/image1.png", "1"); ("a.xml", "2")] [("a.xml", "2"); ("ppt/media/image1.png", "1")].
Proof. split; [reflexivity|constructor]. Qed.
(** An image whose extension is in upper case is not counted as an image. *)
Theorem C30_upper_case_refuted : exists l, count (starts_with "ppt/media/") l = 1 /\ a_image_count (analyze l) = 0
  /\ map fst l = ["ppt/media/PHOTO.PNG"].
Proof. exact upper_case. Qed.
Print Assumptions C30_upper_case_refuted.

Section C31.
  Context (lossy : string -> string).
  (** C31: which parts media removal keeps: all but the media whose file name and
      path occur in no slide's XML. *)
  Theorem C31_other_parts_kept (p : package) (m : string) : starts_with "ppt/media/" m = false -> remove_unused_media lossy p !! m = p !! m.
  Proof. exact (others_kept lossy p m). Qed.
  Theorem C31_named_media_kept (p : package) (m s c : string) :
    p !! s = Some c -> a_slide s = true -> contains (file_name m) (lossy c) = true -> remove_unused_media lossy p !! m = p !! m.
  Proof. exact (named_kept lossy p m s c). Qed.
  Theorem C31_removed_only_if_unnamed (p : package) (m c : string) : p !! m = Some c -> remove_unused_media lossy p !! m = None ->
    starts_with "ppt/media/" m = true /\ forall s x, p !! s = Some x -> a_slide s = true -> contains (file_name m) (lossy x) = false.
  Proof. exact (removed_unnamed lossy p m c). Qed.
  (** Minimising XML adds and removes no part and leaves the others as they are. *)
  Theorem C31_xml_keeps_parts (p : package) (m : string) :
    optimize_xml_content lossy p !! m = if ends_with ".xml" m || ends_with ".rels" m then option_map (fun c => minimize_xml (lossy c)) (p !! m) else p !! m.
  Proof. exact (optimize_lookup lossy p m). Qed.
  (** Without the removal options no part disappears. *)
  Theorem C31_default_keeps_parts (o : options) (p : package) (m : string) : o_media o = false -> o_properties o = false -> o_notes o = false ->
    (compress lossy o p !! m = None <-> p !! m = None).
  Proof. exact (compress_keeps lossy o p m). Qed.
  (** All that compression does to a part: the parts each option asks to remove
      are gone, and of the others only XML is changed, by minimising it. *)
  Theorem C31_exact (o : options) (p : package) (m : string) :
    (removed lossy (o_media o) (o_properties o) (o_notes o) p m -> compress lossy o p !! m = None)
    /\ (~ removed lossy (o_media o) (o_properties o) (o_notes o) p m -> compress lossy o p !! m =
        if o_xml o && (ends_with ".xml" m || ends_with ".rels" m) then option_map (fun c => minimize_xml (lossy c)) (p !! m) else p !! m).
  Proof. exact (compress_exact lossy o p m). Qed.
End C31.
Print Assumptions C31_exact.
Example C31_exact_case : removed (fun s => s) true false false {["ppt/media/b.png" := "B"]} "ppt/media/b.png"
  /\ ~ removed (fun s => s) false true true {["ppt/media/b.png" := "B"]} "ppt/media/b.png"
  /\ removed (fun s => s) false true false {["docProps/app.xml" := "B"]} "docProps/app.xml"
  /\ removed (fun s => s) false false true ∅ "ppt/notesSlides/_rels/n.rels".
Proof. exact removed_case. Qed.
Print Assumptions C31_other_parts_kept.
Print Assumptions C31_named_media_kept.
Print Assumptions C31_removed_only_if_unnamed.
Print Assumptions C31_xml_keeps_parts.
Print Assumptions C31_default_keeps_parts.
Example C31_case : exists p, p !! "ppt/slides/slide1.xml" = Some "see a.png" /\ remove_unused_media (fun s => s) p !! "ppt/media/a.png" = Some "A"
  /\ remove_unused_media (fun s => s) p !! "ppt/media/b.png" = None /\ p !! "ppt/media/b.png" = Some "B".
Proof. exact media_case. Qed.
(** But slides refer to media through relationships, so media a slide uses is
    removed: the slide and its relationship part are the ones the generator
    writes. *)
Theorem C31_used_media_refuted : exists (p : package) id,
  p !! "ppt/slides/slide1.xml" = Some (slide_xml pictured ["rId4"] None)
  /\ (exists x, xml_read (slide_xml pictured ["rId4"] None) = Some x /\ In id (rel_ids_used x))
  /\ relates p ["ppt"; "slides"] "slide1.xml" id "ppt/media/image1.png"
  /\ p !! "ppt/media/image1.png" = Some "bytes"
  /\ remove_unused_media (fun s => s) p !! "ppt/media/image1.png" = None
  /\ relates (remove_unused_media (fun s => s) p) ["ppt"; "slides"] "slide1.xml" id "ppt/media/image1.png".
Proof. exact used_media_removed. Qed.
Print Assumptions C31_used_media_refuted.
(** Removing notes leaves the slides' relationships to them behind. *)
Theorem C31_notes_refuted : exists (p : package) id, relates p ["ppt"; "slides"] "slide1.xml" id "ppt/notesSlides/notesSlide1.xml"
  /\ p !! "ppt/notesSlides/notesSlide1.xml" = Some "notes"
  /\ remove_notes_slides p !! "ppt/notesSlides/notesSlide1.xml" = None
  /\ relates (remove_notes_slides p) ["ppt"; "slides"] "slide1.xml" id "ppt/notesSlides/notesSlide1.xml".
Proof. exact notes_dangle. Qed.
Print Assumptions C31_notes_refuted.
