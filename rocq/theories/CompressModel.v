(** Model of src/opc/compress.rs: what compression does to the parts of a
    package, and the size analysis. *)
From stdpp Require Import gmap strings.
From Coq Require Import String Ascii List Bool Arith NArith.
From Verif Require Import Str PackageModel.
Import ListNotations.
Open Scope nat_scope.
Open Scope string_scope.

(** compress.rs:429-472 [minimize_xml]: one step of the loop; the characters it
    looks for are ASCII, so bytes can stand for characters.  [pop] on the string
    removes its last character: when it runs the last one pushed is ASCII
    whitespace (C29_pops_whitespace). *)
Record mstate := M { m_out : string; m_tag : bool; m_str : bool; m_prev : ascii }.
Definition spop (s : string) : string := match srev s with String _ r => srev r | "" => "" end.
Definition ws4 (c : ascii) : bool := Ascii.eqb c " " || Ascii.eqb c LF || Ascii.eqb c TAB || Ascii.eqb c CR.
Definition ws3 (c : ascii) : bool := Ascii.eqb c " " || Ascii.eqb c LF || Ascii.eqb c TAB.
Definition mpush (s : string) (c : ascii) : string := s ++ s1 c.
Definition mstep (m : mstate) (c : ascii) : mstate :=
  if Ascii.eqb c DQ then M (mpush (m_out m) c) (m_tag m) (negb (m_str m)) c
  else if Ascii.eqb c "<" && negb (m_str m) then
    M (mpush (if ws3 (m_prev m) && negb (String.eqb (m_out m) "") then spop (m_out m) else m_out m) c) true (m_str m) c
  else if Ascii.eqb c ">" && negb (m_str m) then M (mpush (m_out m) c) false (m_str m) c
  else if ws4 c && negb (m_tag m) && negb (m_str m) then
    M (if Ascii.eqb (m_prev m) " " then m_out m else mpush (m_out m) " ") (m_tag m) (m_str m) c
  else M (mpush (m_out m) c) (m_tag m) (m_str m) c.
Definition minit : mstate := M "" false false " ".
Definition minimize_xml (xml : string) : string := m_out (sfold mstep xml minit).

(** compress.rs:339-376 [remove_unused_media].  [file_name] of a path without
    special segments at its end is what follows the last slash; [lossy] is
    [String::from_utf8_lossy].  The order of the parts does not matter. *)
Section COMPRESS.
  Context (lossy : string -> string).
  Definition file_name (p : string) : string := match split_once "/" (srev p) with Some (a, _) => srev a | None => p end.
  Definition is_media (p : string) : bool := starts_with "ppt/media/" p.
  Definition is_slide (p : string) : bool := starts_with "ppt/slides/slide" p && ends_with ".xml" p.
  Definition after4 (p : string) : string := match p with String _ (String _ (String _ (String _ r))) => r | _ => "" end.
  Definition refers (content media : string) : bool := contains (file_name media) content || contains (after4 media) content.
  Definition referenced (p : package) (media : string) : bool :=
    existsb (fun e => is_slide (fst e) && refers (lossy (snd e)) media) (map_to_list p).
  Definition remove_unused_media (p : package) : package := base.filter (fun e => is_media (fst e) && negb (referenced p (fst e)) = false) p.
  Definition unused_count (p : package) : nat := size (base.filter (fun e => is_media (fst e) && negb (referenced p (fst e)) = true) p).
  (** compress.rs:379-388 [remove_document_properties] *)
  Definition remove_document_properties (p : package) : package :=
    delete "docProps/thumbnail.jpeg" (delete "docProps/custom.xml" (delete "docProps/app.xml" (delete "docProps/core.xml" p))).
  (** compress.rs:391-407 [remove_notes_slides]: all paths below notesSlides go,
      so also removing "notesSlides/_rels/x.rels" of each changes nothing more
      (it is below notesSlides itself, or the path had no such segment). *)
  Definition remove_notes_slides (p : package) : package := base.filter (fun e => starts_with "ppt/notesSlides/" (fst e) = false) p.
  (** compress.rs:410-426 [optimize_xml_content] *)
  Definition optimize_xml_content (p : package) : package :=
    map_imap (fun path c => Some (if ends_with ".xml" path || ends_with ".rels" path then minimize_xml (lossy c) else c)) p.
  (** compress.rs:62-73 [CompressionOptions] (the fields that have an effect on the
      parts), 209-236 of [compress_pptx] up to the save. *)
  Record options := Options { o_media : bool; o_properties : bool; o_notes : bool; o_xml : bool; o_target : N }.
  Definition compress (o : options) (p : package) : package :=
    let p := if o_media o then remove_unused_media p else p in
    let p := if o_properties o then remove_document_properties p else p in
    let p := if o_notes o then remove_notes_slides p else p in
    if o_xml o then optimize_xml_content p else p.
End COMPRESS.

(** compress.rs:475-522 [analyze_pptx], over the parts in any order; the sums are
    of lengths of byte vectors in memory, so they do not overflow. *)
Record analysis := Analysis { a_images : nat; a_xml : nat; a_other : nat; a_image_count : nat; a_slide_count : nat; a_media_count : nat }.
Definition image_name (p : string) : bool := ends_with ".png" p || ends_with ".jpg" p || ends_with ".jpeg" p.
Definition astep (a : analysis) (e : string * string) : analysis :=
  let size := String.length (snd e) in
  if starts_with "ppt/media/" (fst e) then
    if image_name (fst e) then Analysis (a_images a + size) (a_xml a) (a_other a) (S (a_image_count a)) (a_slide_count a) (a_media_count a)
    else Analysis (a_images a) (a_xml a) (a_other a + size) (a_image_count a) (a_slide_count a) (S (a_media_count a))
  else if ends_with ".xml" (fst e) || ends_with ".rels" (fst e) then
    Analysis (a_images a) (a_xml a + size) (a_other a) (a_image_count a)
      (if starts_with "ppt/slides/slide" (fst e) && ends_with ".xml" (fst e) then S (a_slide_count a) else a_slide_count a) (a_media_count a)
  else Analysis (a_images a) (a_xml a) (a_other a + size) (a_image_count a) (a_slide_count a) (a_media_count a).
Definition analyze (parts : list (string * string)) : analysis := fold_left astep parts (Analysis 0 0 0 0 0 0).
