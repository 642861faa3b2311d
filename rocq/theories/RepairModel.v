(** Model of src/oxml/repair.rs: checking a package and repairing it. *)
From Coq Require Import String Ascii List Bool NArith.
From stdpp Require Import base gmap strings.
From Verif Require Import Str Num ExportModel ResolveModel ValidModel PackageModel.
Import ListNotations.
Open Scope string_scope.
Local Arguments String.append _ _ : simpl nomatch.

(** repair.rs:21-45; the other constructors (CorruptedEntry, MissingNamespace,
    EmptyRequiredElement) are never built by [validate]. *)
Inductive problem :=
  | MissingPartP (path description : string)
  | InvalidXmlP (path error : string)
  | BrokenRelationship (source target rel_id : string)
  | MissingSlideReference (slide_path : string)
  | OrphanSlide (slide_path : string)
  | InvalidContentType (path : string).
(** repair.rs:64-76 [is_repairable] *)
Definition is_repairable (i : problem) : bool := true.

(** [str::lines]: the pieces ended by LF, a CR before the LF removed; the last
    piece only if it is not empty. *)
Definition strip_cr (s : string) : string := match strip_prefix (s1 "013") (srev s) with Some r => srev r | None => s end.
Fixpoint pieces_lines (l : list string) : list string :=
  match l with
  | [] => []
  | [s] => if String.eqb s "" then [] else [s]
  | s :: l => strip_cr s :: pieces_lines l
  end.
Definition lines (s : string) : list string := pieces_lines (split_char LF s).

(** repair.rs:354-363 [extract_attribute] *)
Definition extract_attribute (line attr : string) : option string :=
  match split_once (attr ++ "=""") line with
  | Some (_, r) => match split_once dq r with Some (v, _) => Some v | None => None end
  | None => None
  end.
(** repair.rs:365-388 [resolve_path] *)
Definition resolve_path (rels_path target : string) : string :=
  match strip_prefix "/" target with
  | Some stripped => stripped
  | None =>
      let rels_dir := match rsplit_once "/" rels_path with Some (d, _) => d | None => "" end in
      let base_dir := trim_end_by (Ascii.eqb "/") (replace_str "_rels" "" rels_dir) in
      if starts_with "../" target then
        (match rsplit_once "/" base_dir with Some (d, _) => d | None => "" end) ++ "/" ++ trim_start_matches "../" target
      else if String.eqb base_dir "" then target else base_dir ++ "/" ++ target
  end.
(** core/validation.rs:18-26 *)
Definition REQUIRED_PARTS_REPAIR : list (string * string) :=
  [("[Content_Types].xml", "Content types definition"); ("_rels/.rels", "Package relationships");
   ("ppt/presentation.xml", "Presentation document"); ("ppt/_rels/presentation.xml.rels", "Presentation relationships")].
(** parts/relationships.rs: the URI of a slide relationship *)
Definition slide_rel_type : string := "http://schemas.openxmlformats.org/officeDocument/2006/relationships/slide".
(** repair.rs:683-702 [find_max_rel_id] and 704-723 [find_max_slide_id] *)
Fixpoint find_max (fuel : nat) (needle s : string) (max_id : N) : N :=
  match fuel with
  | O => max_id
  | S fuel =>
      match split_once needle s with
      | None => max_id
      | Some (_, r) =>
          match split_once dq r with
          | None => max_id
          | Some (num_str, r) => find_max fuel needle r (match parse_uint u32_max num_str with Some id => N.max max_id id | None => max_id end)
          end
      end
  end.
Definition find_max_rel_id (xml : string) : N := find_max (S (String.length xml)) "Id=""rId" xml 0%N.
Definition find_max_slide_id (xml : string) : N := find_max (S (String.length xml)) "<p:sldId id=""" xml 0%N.
(** [max_id + 1] on u32, wrapping as in a release build (a debug build panics) *)
Definition next_id (m : N) : N := wadd u32_max m 1%N.

(** repair.rs:769-787 [infer_content_type] *)
Definition infer_content_type (path : string) : string :=
  if contains "slideLayout" path then "application/vnd.openxmlformats-officedocument.presentationml.slideLayout+xml"
  else if contains "slideMaster" path then "application/vnd.openxmlformats-officedocument.presentationml.slideMaster+xml"
  else if contains "notesSlide" path then "application/vnd.openxmlformats-officedocument.presentationml.notesSlide+xml"
  else if starts_with "ppt/slides/slide" path && ends_with ".xml" path then "application/vnd.openxmlformats-officedocument.presentationml.slide+xml"
  else if contains "theme" path then "application/vnd.openxmlformats-officedocument.theme+xml"
  else if contains "presentation.xml" path then "application/vnd.openxmlformats-officedocument.presentationml.presentation.main+xml"
  else if ends_with ".xml" path then "application/xml"
  else "application/octet-stream".
(** repair.rs:852-886: the fixed texts *)
Definition generate_package_rels : string := "<?xml version=""1.0"" encoding=""UTF-8"" standalone=""yes""?>
<Relationships xmlns=""http://schemas.openxmlformats.org/package/2006/relationships"">
  <Relationship Id=""rId1"" Type=""http://schemas.openxmlformats.org/officeDocument/2006/relationships/officeDocument"" Target=""ppt/presentation.xml""/>
  <Relationship Id=""rId2"" Type=""http://schemas.openxmlformats.org/package/2006/relationships/metadata/core-properties"" Target=""docProps/core.xml""/>
  <Relationship Id=""rId3"" Type=""http://schemas.openxmlformats.org/officeDocument/2006/relationships/extended-properties"" Target=""docProps/app.xml""/>
</Relationships>".
Definition generate_presentation_xml : string := "<?xml version=""1.0"" encoding=""UTF-8"" standalone=""yes""?>
<p:presentation xmlns:a=""http://schemas.openxmlformats.org/drawingml/2006/main"" xmlns:r=""http://schemas.openxmlformats.org/officeDocument/2006/relationships"" xmlns:p=""http://schemas.openxmlformats.org/presentationml/2006/main"">
  <p:sldMasterIdLst>
    <p:sldMasterId id=""2147483648"" r:id=""rId1""/>
  </p:sldMasterIdLst>
  <p:sldIdLst/>
  <p:sldSz cx=""9144000"" cy=""6858000""/>
  <p:notesSz cx=""6858000"" cy=""9144000""/>
</p:presentation>".
Definition generate_presentation_rels : string := "<?xml version=""1.0"" encoding=""UTF-8"" standalone=""yes""?>
<Relationships xmlns=""http://schemas.openxmlformats.org/package/2006/relationships"">
  <Relationship Id=""rId1"" Type=""http://schemas.openxmlformats.org/officeDocument/2006/relationships/slideMaster"" Target=""slideMasters/slideMaster1.xml""/>
  <Relationship Id=""rId2"" Type=""http://schemas.openxmlformats.org/officeDocument/2006/relationships/theme"" Target=""theme/theme1.xml""/>
  <Relationship Id=""rId3"" Type=""http://schemas.openxmlformats.org/officeDocument/2006/relationships/presProps"" Target=""presProps.xml""/>
  <Relationship Id=""rId4"" Type=""http://schemas.openxmlformats.org/officeDocument/2006/relationships/viewProps"" Target=""viewProps.xml""/>
  <Relationship Id=""rId5"" Type=""http://schemas.openxmlformats.org/officeDocument/2006/relationships/tableStyles"" Target=""tableStyles.xml""/>
</Relationships>".

Section Repair.
(** [String::from_utf8_lossy] *)
Variable lossy : string -> string.
(** The order in which the hash map of parts and the hash sets of slides are
    gone through: any rearrangement, possibly another one at each use. *)
Record orders := Orders { o_paths : list string -> list string; o_slides : list string -> list string }.
Variable o : orders.

Definition text (p : package) (path : string) : option string := option_map lossy (get_part p path).
Definition part_paths (p : package) : list string := o_paths o (map fst (map_to_list p)).

(** repair.rs:269-281 [check_required_parts] *)
Definition check_required_parts (p : package) : list problem :=
  flat_map (fun '(path, d) => if PackageModel.has_part p path then [] else [MissingPartP path d]) REQUIRED_PARTS_REPAIR.
(** repair.rs:283-301 [check_xml_validity]; core/validation.rs:102-132 refuses
    blank text only *)
Definition blank_text (s : string) : bool := String.eqb (trim s) "".
Definition check_xml_validity (p : package) : list problem :=
  flat_map (fun path => if ends_with ".xml" path || ends_with ".rels" path then
      match text p path with Some s => if blank_text s then [InvalidXmlP path "Invalid XML: empty XML content"] else [] | None => [] end else []) (part_paths p).
(** repair.rs:328-352 [check_rels_file] *)
Definition check_line (p : package) (rels_path line : string) : list problem :=
  if contains "Relationship" line && contains "Target=" line then
    match extract_attribute line "Target" with
    | None => []
    | Some target =>
        let rel_id := match extract_attribute line "Id" with Some i => i | None => "" end in
        if starts_with "http://" target || starts_with "https://" target then []
        else
          let full_path := resolve_path rels_path target in
          if negb (PackageModel.has_part p full_path) && negb (contains ".." target) then [BrokenRelationship rels_path full_path rel_id] else []
    end
  else [].
Definition check_rels_file (p : package) (rels_path : string) : list problem :=
  match text p rels_path with Some s => flat_map (check_line p rels_path) (lines s) | None => [] end.
(** repair.rs:307-326 [check_relationships] *)
Definition check_relationships (p : package) : list problem :=
  app (check_rels_file p "_rels/.rels") (app (check_rels_file p "ppt/_rels/presentation.xml.rels")
    (flat_map (check_rels_file p) (List.filter (fun n => starts_with "ppt/slides/_rels/" n && ends_with ".xml.rels" n) (part_paths p)))).
(** repair.rs:391-414: the slides that presentation.xml.rels refers to; a set *)
Definition line_slide (line : string) : list string :=
  match extract_attribute line "Type" with
  | Some ty => if String.eqb ty slide_rel_type then
      match extract_attribute line "Target" with
      | Some target => [match strip_prefix "/" target with Some stripped => stripped | None => "ppt/" ++ target end]
      | None => []
      end else []
  | None => []
  end.
Definition referenced_slides (p : package) : list string :=
  match text p "ppt/_rels/presentation.xml.rels" with Some s => flat_map line_slide (lines s) | None => [] end.
Definition is_slide (n : string) : bool := starts_with "ppt/slides/slide" n && ends_with ".xml" n && negb (contains "_rels" n).
Definition actual_slides (p : package) : list string := List.filter is_slide (part_paths p).
(** [HashSet]: one of each *)
Definition the_set (l : list string) : list string := o_slides o (List.nodup string_dec l).
(** repair.rs:391-442 [check_slide_references] *)
Definition check_slide_references (p : package) : list problem :=
  let refs := referenced_slides p in let slides := actual_slides p in
  app (flat_map (fun s => if existsb (String.eqb s) slides then [] else [OrphanSlide s]) (the_set refs))
      (flat_map (fun s => if existsb (String.eqb s) refs then [] else [MissingSlideReference s]) (the_set slides)).
(** repair.rs:444-468 [check_content_types] *)
Definition typed (ct part : string) : bool :=
  contains ("PartName=""/" ++ part ++ """") ct || contains ("Extension=""" ++ last_piece part ++ """") ct || ends_with ".rels" part.
Definition check_content_types (p : package) : list problem :=
  match text p "[Content_Types].xml" with
  | Some ct => flat_map (fun part => if String.eqb part "[Content_Types].xml" then [] else if typed ct part then [] else [InvalidContentType part]) (part_paths p)
  | None => []
  end.
(** repair.rs:187-208 [validate] *)
Definition validate (p : package) : list problem :=
  app (check_required_parts p) (app (check_xml_validity p) (app (check_relationships p) (app (check_slide_references p) (check_content_types p)))).

(** repair.rs:826-850 [generate_content_types] *)
Definition generate_content_types (p : package) : string :=
  "<?xml version=""1.0"" encoding=""UTF-8"" standalone=""yes""?>
<Types xmlns=""http://schemas.openxmlformats.org/package/2006/content-types"">
  <Default Extension=""rels"" ContentType=""application/vnd.openxmlformats-package.relationships+xml""/>
  <Default Extension=""xml"" ContentType=""application/xml""/>
  <Default Extension=""jpeg"" ContentType=""image/jpeg""/>
  <Default Extension=""png"" ContentType=""image/png""/>
"
  ++ sconcat (map (fun path => if ends_with ".xml" path && negb (String.eqb path "[Content_Types].xml")
       then ("  <Override PartName=""/" ++ path ++ """ ContentType=""" ++ infer_content_type path ++ """/>
") else "") (part_paths p))
  ++ "</Types>".
(** repair.rs:496-515 [repair_missing_part]; [None] is the error *)
Definition repair_missing_part (p : package) (path : string) : option package :=
  let give c := Some (add_part path c p) in
  if String.eqb path "[Content_Types].xml" then give (generate_content_types p)
  else if String.eqb path "_rels/.rels" then give generate_package_rels
  else if String.eqb path "ppt/presentation.xml" then give generate_presentation_xml
  else if String.eqb path "ppt/_rels/presentation.xml.rels" then give generate_presentation_rels
  else None.
(** repair.rs:517-589 [repair_invalid_xml], [attempt_xml_repair]; only blank
    text is ever reported, for which that puts the XML declaration in front
    (there is no "&" to be looked at). *)
Definition attempt_xml_repair (xml : string) : string :=
  if starts_with "<?xml" (trim xml) then xml else "<?xml version=""1.0"" encoding=""UTF-8"" standalone=""yes""?>
" ++ xml.
Definition repair_invalid_xml (p : package) (path : string) : package :=
  match text p path with Some s => add_part path (attempt_xml_repair s) p | None => p end.
(** repair.rs:591-614 [repair_broken_relationship] *)
Definition drop_lines (needle s : string) : string := sjoin nl (List.filter (fun line => negb (contains needle line)) (lines s)).
Definition repair_broken_relationship (p : package) (source rel_id : string) : package :=
  match text p source with Some s => add_part source (drop_lines ("Id=""" ++ rel_id ++ """") s) p | None => p end.
(** repair.rs:648-681 [add_slide_to_presentation] *)
Definition add_slide_entry (xml rel_id : string) : string :=
  let new_entry := ("<p:sldId id=""" ++ dec (next_id (find_max_slide_id xml)) ++ """ r:id=""" ++ rel_id ++ """/>") in
  if contains "</p:sldIdLst>" xml then replace_str "</p:sldIdLst>" (new_entry ++ "
</p:sldIdLst>") xml
  else if contains "<p:sldIdLst/>" xml then replace_str "<p:sldIdLst/>" ("<p:sldIdLst>" ++ new_entry ++ "</p:sldIdLst>") xml
  else replace_str "</p:sldMasterIdLst>" ("</p:sldMasterIdLst>
<p:sldIdLst>" ++ new_entry ++ "</p:sldIdLst>") xml.
(** repair.rs:616-646 [repair_missing_slide_reference] *)
Definition add_slide_rel (xml new_id slide_path : string) : string :=
  let new_rel := ("  <Relationship Id=""" ++ new_id ++ """ Type=""http://schemas.openxmlformats.org/officeDocument/2006/relationships/slide"" Target=""" ++ replace_str "ppt/" "" slide_path ++ """/>") in
  replace_str "</Relationships>" (new_rel ++ "
</Relationships>") xml.
Definition repair_missing_slide_reference (p : package) (slide_path : string) : package :=
  match text p "ppt/_rels/presentation.xml.rels" with
  | None => p
  | Some xml =>
      let new_id := "rId" ++ dec (next_id (find_max_rel_id xml)) in
      let p := add_part "ppt/_rels/presentation.xml.rels" (add_slide_rel xml new_id slide_path) p in
      match text p "ppt/presentation.xml" with Some xml => add_part "ppt/presentation.xml" (add_slide_entry xml new_id) p | None => p end
  end.
(** repair.rs:725-745 [repair_orphan_slide] *)
Definition repair_orphan_slide (p : package) (slide_path : string) : package :=
  match text p "ppt/_rels/presentation.xml.rels" with
  | Some s => add_part "ppt/_rels/presentation.xml.rels" (drop_lines ("Target=""" ++ replace_str "ppt/" "" slide_path ++ """") s) p
  | None => p
  end.
(** repair.rs:747-767 [repair_invalid_content_type] *)
Definition repair_invalid_content_type (p : package) (path : string) : package :=
  match text p "[Content_Types].xml" with
  | Some s => add_part "[Content_Types].xml"
      (replace_str "</Types>" ("  <Override PartName=""/" ++ path ++ """ ContentType=""" ++ infer_content_type path ++ """/>
</Types>") s) p
  | None => p
  end.
(** repair.rs:472-494 [repair_issue]; [None] is the error *)
Definition repair_issue (p : package) (i : problem) : option package :=
  match i with
  | MissingPartP path _ => repair_missing_part p path
  | InvalidXmlP path _ => Some (repair_invalid_xml p path)
  | BrokenRelationship source _ rel_id => Some (repair_broken_relationship p source rel_id)
  | MissingSlideReference s => Some (repair_missing_slide_reference p s)
  | OrphanSlide s => Some (repair_orphan_slide p s)
  | InvalidContentType path => Some (repair_invalid_content_type p path)
  end.
(** repair.rs:224-234: the loop over the issues *)
Fixpoint repair_all (p : package) (l : list problem) : package * list problem * list problem :=
  match l with
  | [] => (p, [], [])
  | i :: l =>
      match (if is_repairable i then repair_issue p i else None) with
      | Some q => let '(q, fixed, kept) := repair_all q l in (q, i :: fixed, kept)
      | None => let '(q, fixed, kept) := repair_all p l in (q, fixed, i :: kept)
      end
  end.
End Repair.

(** repair.rs:119-129 [RepairResult] *)
Record result := Result { issues_found : list problem; issues_repaired : list problem; issues_unrepaired : list problem; is_valid : bool }.
(** repair.rs:212-240 [repair]: the result and the package after it.  The first
    validation, the repairs and the second validation each with their orders. *)
Definition repair (lossy : string -> string) (o1 o2 o3 : orders) (p : package) : result * package :=
  let found := validate lossy o1 p in
  match found with
  | [] => (Result [] [] [] true, p)
  | _ =>
      let '(q, fixed, kept) := repair_all lossy o2 p found in
      (Result found fixed kept (match validate lossy o3 q with [] => true | _ => false end), q)
  end.
