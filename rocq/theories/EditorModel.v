(** Model of src/oxml/editor.rs [PresentationEditor]. *)
From Coq Require Import String Ascii List Bool Arith.
From stdpp Require Import base gmap strings.
From Verif Require Import Str GenModel PackageModel.
Import ListNotations.
Open Scope string_scope.

(** The path literals of editor.rs. *)
Definition slide_path (n : nat) : string := "ppt/slides/slide" ++ decn n ++ ".xml".
Definition slide_rels_path (n : nat) : string := "ppt/slides/_rels/slide" ++ decn n ++ ".xml.rels".
Definition temp_slide_path : string := "ppt/slides/_temp_slide.xml".
Definition temp_rels_path : string := "ppt/slides/_rels/_temp_slide.xml.rels".

(** [if let Some(pos) = xml.find(pat) { xml.insert_str(pos, ins) }]. *)
Definition insert_before_first (pat ins xml : string) : string :=
  match split_once pat xml with
  | Some (x, y) => x ++ ins ++ pat ++ y
  | None => xml
  end.

(** editor.rs:296-302. *)
Definition presentation_has_notes (xml : string) : bool := contains "<p:notesMasterIdLst>" xml.
Definition presentation_has_handout (xml : string) : bool := contains "<p:handoutMasterIdLst>" xml.

(** editor.rs:287-294 [count_slides]: the closure, and the count over the
    paths (in any order). *)
Definition is_slide_path (p : string) : bool :=
  starts_with "ppt/slides/slide" p && ends_with ".xml" p && negb (contains "_rels" p).
Definition count_slides (paths : list string) : nat := length (List.filter is_slide_path paths).

(** editor.rs:19-22. *)
Record editor := Editor { pkg : package; slide_count : nat }.

(** Results: the index or unit returned, or NotFound. *)
Inductive outcome := Ok (index : nat) | NotFound.

Section Editor.
(** The slide content type, [create_slide_xml_with_content(n, content, &[],
    None)] (generator/slide_xml), and [String::from_utf8_lossy]. *)
Variable content : Type.
Variable slide_xml : nat -> content -> string.
Variable lossy : string -> string.

(** editor.rs:26-34 [open] (from the opened package). *)
Definition open_editor (p : package) (paths : list string) : editor := Editor p (count_slides paths).

(** editor.rs:394-415 [renumber_slide]: one half, for one of the two paths. *)
Definition move_part (old new : string) (p : package) : package :=
  match remove_part old p with
  | (Some c, p') => add_part new c p'
  | (None, p') => p'
  end.
Definition renumber_slide (old new : nat) (p : package) : package :=
  move_part (slide_rels_path old) (slide_rels_path new) (move_part (slide_path old) (slide_path new) p).

(** editor.rs:304-336 [update_presentation_xml] and
    [add_slide_to_presentation_xml]. *)
Definition add_slide_to_presentation_xml (xml : string) (n : nat) : string :=
  insert_before_first "</p:sldIdLst>"
    ("
<p:sldId id=""" ++ decn (slide_id_value n) ++ """ r:id=""rId" ++
     decn (slide_rel_id n (presentation_has_notes xml) (presentation_has_handout xml)) ++ """/>") xml.
Definition update_part (path : string) (f : string -> string) (p : package) : package :=
  match get_part p path with
  | Some bytes => add_part path (f (lossy bytes)) p
  | None => p
  end.
(** editor.rs:338-372. *)
Definition add_slide_to_presentation_rels (xml : string) (n : nat) : string :=
  insert_before_first "</Relationships>"
    ("
<Relationship Id=""rId" ++ decn (slide_rel_id n (presentation_has_notes xml) (presentation_has_handout xml)) ++
     """ Type=""http://schemas.openxmlformats.org/officeDocument/2006/relationships/slide"" Target=""slides/slide" ++
     decn n ++ ".xml""/>") xml.
(** editor.rs:374-392. *)
Definition add_slide_to_content_types (xml : string) (n : nat) : string :=
  insert_before_first "</Types>"
    ("
<Override PartName=""/ppt/slides/slide" ++ decn n ++
     ".xml"" ContentType=""application/vnd.openxmlformats-officedocument.presentationml.slide+xml""/>") xml.

(** editor.rs:417-478 [rebuild_presentation_xml], the text. *)
Definition rebuilt_sld_id (has_notes has_handout : bool) (i : nat) : string :=
  "
<p:sldId id=""" ++ decn (slide_id_value i) ++ """ r:id=""rId" ++
  decn (slide_rel_id i has_notes has_handout) ++ """/>".
Definition rebuilt_presentation_xml (n : nat) (has_notes has_handout : bool) : string :=
  "<?xml version=""1.0"" encoding=""UTF-8"" standalone=""yes""?>
<p:presentation xmlns:a=""http://schemas.openxmlformats.org/drawingml/2006/main"" xmlns:r=""http://schemas.openxmlformats.org/officeDocument/2006/relationships"" xmlns:p=""http://schemas.openxmlformats.org/presentationml/2006/main"" saveSubsetFonts=""1"" autoCompressPictures=""0"">
<p:sldMasterIdLst>
<p:sldMasterId id=""2147483648"" r:id=""rId1""/>
</p:sldMasterIdLst>"
  ++ (if has_notes then
        "
<p:notesMasterIdLst>
<p:notesMasterId id=""2147483650"" r:id=""rId6""/>
</p:notesMasterIdLst>"
      else "")
  ++ (if has_handout then
        "
<p:handoutMasterIdLst>
<p:handoutMasterId id=""2147483651"" r:id=""rId" ++ decn (if has_notes then 7 else 6) ++ """/>
</p:handoutMasterIdLst>"
      else "")
  ++ "
<p:sldIdLst>" ++ sconcat (map (rebuilt_sld_id has_notes has_handout) (seq 1 n)) ++ "
</p:sldIdLst>
<p:sldSz cx=""9144000"" cy=""6858000"" type=""screen4x3""/>
<p:notesSz cx=""6858000"" cy=""9144000""/>
</p:presentation>".

(** [get_part_string(path).unwrap_or_default()]. *)
Definition part_string_or_empty (p : package) (path : string) : string :=
  match get_part p path with Some b => lossy b | None => "" end.

Definition rebuild_presentation_xml (n : nat) (p : package) : package :=
  let existing := part_string_or_empty p "ppt/presentation.xml" in
  add_part "ppt/presentation.xml"
    (rebuilt_presentation_xml n (presentation_has_notes existing) (presentation_has_handout existing)) p.

(** editor.rs:480-497 [rebuild_presentation_rels]. *)
Definition rebuild_presentation_rels (n : nat) (p : package) : package :=
  let existing := part_string_or_empty p "ppt/presentation.xml" in
  add_part "ppt/_rels/presentation.xml.rels"
    (create_presentation_rels_xml_full n (presentation_has_notes existing) (presentation_has_handout existing)) p.

(** editor.rs:499-526 [rebuild_content_types]. *)
Definition rebuilt_content_types (n : nat) : string :=
  "<?xml version=""1.0"" encoding=""UTF-8"" standalone=""yes""?>
<Types xmlns=""http://schemas.openxmlformats.org/package/2006/content-types"">
<Default Extension=""rels"" ContentType=""application/vnd.openxmlformats-package.relationships+xml""/>
<Default Extension=""xml"" ContentType=""application/xml""/>
<Override PartName=""/ppt/presentation.xml"" ContentType=""application/vnd.openxmlformats-officedocument.presentationml.presentation.main+xml""/>"
  ++ slide_overrides n ++ "
<Override PartName=""/ppt/slideLayouts/slideLayout1.xml"" ContentType=""application/vnd.openxmlformats-officedocument.presentationml.slideLayout+xml""/>
<Override PartName=""/ppt/slideMasters/slideMaster1.xml"" ContentType=""application/vnd.openxmlformats-officedocument.presentationml.slideMaster+xml""/>
<Override PartName=""/ppt/theme/theme1.xml"" ContentType=""application/vnd.openxmlformats-officedocument.theme+xml""/>
<Override PartName=""/docProps/core.xml"" ContentType=""application/vnd.openxmlformats-package.core-properties+xml""/>
<Override PartName=""/docProps/app.xml"" ContentType=""application/vnd.openxmlformats-officedocument.extended-properties+xml""/>
</Types>".
Definition rebuild_content_types (n : nat) (p : package) : package :=
  add_part "[Content_Types].xml" (rebuilt_content_types n) p.

Definition rebuild (n : nat) (p : package) : package :=
  rebuild_content_types n (rebuild_presentation_rels n (rebuild_presentation_xml n p)).

(** editor.rs:64-92 [add_slide]. *)
Definition add_slide (c : content) (e : editor) : outcome * editor :=
  let n := slide_count e + 1 in
  let p := add_part (slide_path n) (slide_xml n c) (pkg e) in
  let p := add_part (slide_rels_path n) create_slide_rels_xml p in
  let p := update_part "ppt/presentation.xml" (fun x => add_slide_to_presentation_xml x n) p in
  let p := update_part "ppt/_rels/presentation.xml.rels" (fun x => add_slide_to_presentation_rels x n) p in
  let p := update_part "[Content_Types].xml" (fun x => add_slide_to_content_types x n) p in
  (Ok (n - 1), Editor p n).

(** editor.rs:95-106 [update_slide]. *)
Definition update_slide (index : nat) (c : content) (e : editor) : outcome * editor :=
  if Nat.leb (slide_count e) index then (NotFound, e)
  else
    let n := index + 1 in
    (Ok index, Editor (add_part (slide_path n) (slide_xml n c) (pkg e)) (slide_count e)).

(** editor.rs:109-137 [remove_slide]. *)
Definition remove_slide (index : nat) (e : editor) : outcome * editor :=
  if Nat.leb (slide_count e) index then (NotFound, e)
  else
    let n := index + 1 in
    let p := snd (remove_part (slide_path n) (pkg e)) in
    let p := snd (remove_part (slide_rels_path n) p) in
    let p := fold_left (fun p i => renumber_slide i (i - 1) p) (seq (n + 1) (slide_count e - n)) p in
    let c := slide_count e - 1 in
    (Ok index, Editor (rebuild c p) c).

(** Shifting upwards, editor.rs:166-168 and 196-198. *)
Definition shift_up (new_num count : nat) (p : package) : package :=
  fold_left (fun p i => renumber_slide (i - 1) i p) (rev (seq (new_num + 1) (count + 1 - new_num))) p.

(** editor.rs:140-184 [duplicate_slide]. *)
Definition duplicate_slide (index : nat) (e : editor) : outcome * editor :=
  if Nat.leb (slide_count e) index then (NotFound, e)
  else
    match get_part (pkg e) (slide_path (index + 1)) with
    | None => (NotFound, e)
    | Some slide_data =>
        let rels_data := match get_part (pkg e) (slide_rels_path (index + 1)) with Some b => b | None => "" end in
        let new_num := index + 2 in
        let p := shift_up new_num (slide_count e) (pkg e) in
        let p := add_part (slide_path new_num) slide_data p in
        let p := add_part (slide_rels_path new_num) rels_data p in
        let c := slide_count e + 1 in
        (Ok (index + 1), Editor (rebuild c p) c)
    end.

(** editor.rs:187-217 [insert_slide]. *)
Definition insert_slide (index : nat) (c : content) (e : editor) : outcome * editor :=
  if Nat.ltb (slide_count e) index then (NotFound, e)
  else
    let new_num := index + 1 in
    let p := shift_up new_num (slide_count e) (pkg e) in
    let p := add_part (slide_path new_num) (slide_xml new_num c) p in
    let p := add_part (slide_rels_path new_num) create_slide_rels_xml p in
    let k := slide_count e + 1 in
    (Ok index, Editor (rebuild k p) k).

(** editor.rs:220-270 [reorder_slide]. *)
Definition reorder_slide (from to : nat) (e : editor) : outcome * editor :=
  if Nat.leb (slide_count e) from || Nat.leb (slide_count e) to then (NotFound, e)
  else if Nat.eqb from to then (Ok to, e)
  else
    let from_num := from + 1 in
    let to_num := to + 1 in
    let p := move_part (slide_path from_num) temp_slide_path (pkg e) in
    let p := move_part (slide_rels_path from_num) temp_rels_path p in
    let p :=
      if Nat.ltb from to then fold_left (fun p i => renumber_slide (i + 1) i p) (seq from_num (to_num - from_num)) p
      else fold_left (fun p i => renumber_slide i (i + 1) p) (rev (seq to_num (from_num - to_num))) p in
    let p := move_part temp_slide_path (slide_path to_num) p in
    let p := move_part temp_rels_path (slide_rels_path to_num) p in
    (Ok to, Editor (rebuild (slide_count e) p) (slide_count e)).

(** The public operations as data. *)
Inductive edit :=
| AddSlide (c : content) | UpdateSlide (i : nat) (c : content) | RemoveSlide (i : nat)
| DuplicateSlide (i : nat) | InsertSlide (i : nat) (c : content) | ReorderSlide (from to : nat).
Definition apply (o : edit) (e : editor) : outcome * editor :=
  match o with
  | AddSlide c => add_slide c e
  | UpdateSlide i c => update_slide i c e
  | RemoveSlide i => remove_slide i e
  | DuplicateSlide i => duplicate_slide i e
  | InsertSlide i c => insert_slide i c e
  | ReorderSlide a b => reorder_slide a b e
  end.
Fixpoint session (l : list edit) (e : editor) : list outcome * editor :=
  match l with
  | [] => ([], e)
  | o :: l => let '(r, e) := apply o e in let '(rs, e) := session l e in (r :: rs, e)
  end.
End Editor.
