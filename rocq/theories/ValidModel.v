(** Model of src/core/package_validation/{context,rules,report}.rs: the checks a
    package file goes through.  An archive is the list of its entries, in
    archive order; the ZIP format is not modelled. *)
From Coq Require Import String Ascii List Bool Arith.
From Verif Require Import Str ExportModel ResolveModel.
Import ListNotations.
Open Scope nat_scope.
Open Scope string_scope.

(** report.rs:12-22 *)
Inductive category := MissingPart | Relationship | ContentType | Presentation | SlideMaster | Slide | Chart | Xml | Theme.
(** report.rs:26-32; the rules below build [error]s only (35-46), so the
    severity is not carried. *)
Record issue := Issue { i_category : category; i_message : string; i_path : string }.

(** context.rs:12-19; [TargetMode] is "External" or empty (151-155). *)
Record relationship := Rel { r_id : string; r_target : string; r_resolved : string; r_external : bool }.

(** [text.find(p)] and the text from the match on. *)
Definition cut (p s : string) : option (string * string) :=
  match split_once p s with Some (a, b) => Some (a, p ++ b) | None => None end.
(** The text up to a match, or all of it; and the text from the match on. *)
Definition upto (p s : string) : string * string := match cut p s with Some x => x | None => (s, "") end.

(** context.rs:116-166 [parse_relationships]; [s] is the text from
    [search_from] on, the fuel its length (every round drops a character). *)
Fixpoint scan_rels (fuel : nat) (base_dir s : string) : list relationship :=
  match fuel with
  | O => []
  | S fuel =>
      match split_once "Id=""" s with
      | None => []
      | Some (_, r) =>
          match split_once dq r with
          | None => []
          | Some (id, r) =>
              match split_once "Target=""" (dq ++ r) with
              | None => scan_rels fuel base_dir (dq ++ r)
              | Some (_, r) =>
                  match split_once dq r with
                  | None => []
                  | Some (target, r) =>
                      let '(element_tail, rest) := upto ">" (dq ++ r) in
                      Rel id target (resolve_rel_target base_dir target) (contains "TargetMode=""External""" element_tail)
                        :: scan_rels fuel base_dir rest
                  end
              end
          end
      end
  end.
Definition parse_relationships (rels_xml base_dir : string) : list relationship :=
  scan_rels (S (String.length rels_xml)) base_dir rels_xml.

(** rules.rs:574-598 [extract_attr_values] *)
Fixpoint scan_attrs (fuel : nat) (needle attr_needle s : string) : list string :=
  match fuel with
  | O => []
  | S fuel =>
      match cut needle s with
      | None => []
      | Some (_, r) =>
          let '(slice, rest) := match cut "/>" r with Some x => x | None => upto "</" r end in
          app (match split_once attr_needle slice with
               | Some (_, v) => match split_once dq v with Some (value, _) => [value] | None => [] end
               | None => []
               end) (scan_attrs fuel needle attr_needle rest)
      end
  end.
Definition extract_attr_values (xml element attr : string) : list string :=
  scan_attrs (S (String.length xml)) ("<" ++ element) (attr ++ "=""") xml.

(** rules.rs:601-619 [extract_rel_reference_ids]; the values of one prefix, in
    the order of the text.  The sort and dedup of line 616-617 are left out:
    they only change the order and number of equal issues. *)
Fixpoint scan_values (fuel : nat) (prefix s : string) : list string :=
  match fuel with
  | O => []
  | S fuel =>
      match split_once prefix s with
      | None => []
      | Some (_, r) => app (match split_once dq r with Some (id, _) => [id] | None => [] end) (scan_values fuel prefix r)
      end
  end.
Definition extract_rel_reference_ids (slide_xml : string) : list string :=
  filter (starts_with "rId") (flat_map (fun prefix => scan_values (S (String.length slide_xml)) prefix slide_xml) ["r:embed="""; "r:id="""]).

(** rules.rs:567-571 [is_slide_part] *)
Definition is_slide_part (path : string) : bool :=
  starts_with "ppt/slides/slide" path && ends_with ".xml" path && negb (contains "/_rels/" path).

(** rules.rs:17-30 *)
Definition REQUIRED_PACKAGE_PARTS : list string :=
  ["[Content_Types].xml"; "_rels/.rels"; "ppt/presentation.xml"; "ppt/_rels/presentation.xml.rels"; "ppt/presProps.xml"; "ppt/viewProps.xml";
   "ppt/tableStyles.xml"; "ppt/theme/theme1.xml"; "ppt/slideMasters/slideMaster1.xml"; "ppt/slideLayouts/slideLayout1.xml"; "docProps/core.xml"; "docProps/app.xml"].

(** [str::matches(p).count()], p not empty. *)
Fixpoint count_matches (fuel : nat) (p s : string) : nat :=
  match fuel with
  | O => 0
  | S fuel => match split_once p s with Some (_, r) => S (count_matches fuel p r) | None => 0 end
  end.
Definition matches (p s : string) : nat := count_matches (S (String.length s)) p s.
(** [str::find]: the position. *)
Definition find_pos (p s : string) : option nat := match split_once p s with Some (a, _) => Some (String.length a) | None => None end.
(** [HashMap::get] after [collect]: the last one with the key. *)
Definition rel_by_id (rels : list relationship) (id : string) : option relationship := find (fun r => String.eqb (r_id r) id) (rev rels).
(** [trim_start_matches] and [trim_end_matches] of a string *)
Fixpoint trim_start_str (fuel : nat) (p s : string) : string :=
  match fuel with O => s | S fuel => match strip_prefix p s with Some r => trim_start_str fuel p r | None => s end end.
Definition trim_start_matches (p s : string) : string := trim_start_str (String.length s) p s.
Definition trim_end_matches (p s : string) : string := srev (trim_start_matches (srev p) (srev s)).
(** [path.rsplit('.').next()]: after the last dot, or everything. *)
Definition last_piece (path : string) : string := match rsplit_once "." path with Some (_, e) => e | None => path end.

Section Archive.
(** The entries of the archive; [zip::ZipFile::is_dir] of a name; whether bytes
    are UTF-8 ([read_to_string] fails if not). *)
Variable files : list (string * string).
Variable is_dir : string -> bool.
Variable utf8 : string -> bool.
(** context.rs:23,30-36 [names]: the hash set of the entry names that are no
    directories, in the order the set is iterated. *)
Variable names : list string.

(** [ZipArchive::by_name]: of entries with the same name, the last. *)
Definition by_name (path : string) : option string :=
  match find (fun e => String.eqb (fst e) path) (rev files) with Some e => Some (snd e) | None => None end.
(** context.rs:80-113 [read_part], [read_part_from_archive]; the cache
    (context.rs:25) holds what was read before. *)
Definition read_part (path : string) : option string :=
  match by_name path with Some c => if utf8 c then Some c else None | None => None end.
(** context.rs:62-64 *)
Definition has_part (path : string) : bool := existsb (String.eqb path) names.
(** context.rs:44-57: the relationship parts that could be read *)
Definition relationship_parts : list (string * list relationship) :=
  flat_map (fun n => if ends_with ".rels" n then match read_part n with Some c => [(n, parse_relationships c (rels_source_dir n))] | None => [] end else []) names.
(** context.rs:66-71 *)
Definition relationships (rels_path : string) : list relationship :=
  match find (fun e => String.eqb (fst e) rels_path) relationship_parts with Some (_, l) => l | None => [] end.

(** rules.rs:71-81 *)
Definition check_required_parts : list issue :=
  flat_map (fun part => if has_part part then [] else [Issue MissingPart ("Missing required part: " ++ part) part]) REQUIRED_PACKAGE_PARTS.
(** rules.rs:83-107, core/validation.rs:102-132: the scan for quotes and tags
    there has no effect, only blank text is refused ([trim] of ASCII white
    space). *)
Definition check_xml_parts : list issue :=
  flat_map (fun path => if ends_with ".xml" path || ends_with ".rels" path then
      match read_part path with
      | Some c => if String.eqb (trim c) "" then [Issue Xml "empty XML content" path] else []
      | None => []
      end else []) names.
(** rules.rs:109-129 *)
Definition check_relationship_targets : list issue :=
  flat_map (fun '(rels_path, rels) => flat_map (fun rel =>
      if r_external rel then [] else if has_part (r_resolved rel) then []
      else [Issue Relationship (rels_path ++ " Id=""" ++ r_id rel ++ """ Target=""" ++ r_target rel ++ """ resolves to missing part """ ++ r_resolved rel ++ """") rels_path]) rels) relationship_parts.
(** rules.rs:131-158 *)
Definition check_content_types : list issue :=
  match read_part "[Content_Types].xml" with
  | None => []
  | Some ct => flat_map (fun path =>
      if ends_with ".rels" path || String.eqb path "[Content_Types].xml" then []
      else if contains ("/" ++ path) ct then []
      else let ext := last_piece path in
        if String.eqb ext "" || negb (contains ("Extension=""" ++ ext ++ """") ct)
        then [Issue ContentType ("Part " ++ path ++ " has no Override or Default in [Content_Types].xml") path] else []) names
  end.
(** rules.rs:236-280 *)
Definition validate_presentation_rel_order (pres_rels : list relationship) : list issue :=
  let rels_xml := sjoin " " (map (fun r => ("Id=""" ++ r_id r ++ """ Target=""" ++ r_target r ++ """")) pres_rels) in
  let p := "ppt/_rels/presentation.xml.rels" in
  app (if negb (contains "Id=""rId1""" rels_xml) || negb (contains "slideMaster" rels_xml)
       then [Issue Relationship "presentation.xml.rels missing rId1 (slideMaster)" p] else [])
  (app (match find_pos "slides/slide" rels_xml, find_pos "presProps" rels_xml with
        | Some s, Some q => if Nat.ltb q s then [Issue Relationship "Slide relationships should appear before presProps in presentation.xml.rels" p] else []
        | _, _ => []
        end)
       (match find_pos "theme/theme1" rels_xml, find_pos "tableStyles" rels_xml with
        | Some t, Some tb => if Nat.ltb tb t then [Issue Relationship "theme should appear before tableStyles in presentation.xml.rels" p] else []
        | _, _ => []
        end)).
(** rules.rs:160-234; [slide_id_value(1)] is 256 and [first_slide_rel_id] 2
    (package_xml.rs:99-101, 139-141) *)
Definition check_presentation_structure : list issue :=
  let p := "ppt/presentation.xml" in
  match read_part p with
  | None => []
  | Some pres =>
      let pres_rels := relationships "ppt/_rels/presentation.xml.rels" in
      let sld_id_count := matches "<p:sldId " pres in
      app (if Nat.ltb 0 sld_id_count then
             app (if contains "id=""256""" pres then [] else [Issue Presentation "First slide id should be 256 (PowerPoint convention)" p])
                 (if contains "<p:sldIdLst>" pres && negb (contains "r:id=""rId2""" pres)
                  then [Issue Presentation "First slide r:id should be rId2 for this master's optional parts" p] else [])
           else [])
      (app (validate_presentation_rel_order pres_rels)
      (app (flat_map (fun rid =>
              if match rel_by_id pres_rels rid with Some t => contains "/slides/slide" (r_resolved t) | None => false end then []
              else [Issue Presentation ("Slide r:id=""" ++ rid ++ """ does not resolve to a slide part") p]) (extract_attr_values pres "p:sldId" "r:id"))
           (let slide_parts := List.length (filter is_slide_part names) in
            if Nat.eqb slide_parts sld_id_count then []
            else [Issue Presentation ("Slide count mismatch: " ++ decn slide_parts ++ " slide parts vs " ++ decn sld_id_count ++ " p:sldId entries") p])))
  end.
(** rules.rs:325-349 *)
Definition check_master_id_uniqueness (pres master : string) : list issue :=
  let layout_ids := extract_attr_values master "p:sldLayoutId" "id" in
  flat_map (fun '(tag, label) => flat_map (fun id =>
      if existsb (String.eqb id) layout_ids
      then [Issue SlideMaster (label ++ " id " ++ id ++ " collides with a slide layout id on the slide master") "ppt/presentation.xml"] else [])
    (extract_attr_values pres tag "id")) [("notesMasterId", "notes master"); ("handoutMasterId", "handout master")].
(** rules.rs:282-323 *)
Definition check_slide_master : list issue :=
  let p := "ppt/slideMasters/slideMaster1.xml" in
  match read_part p with
  | None => []
  | Some master =>
      app (if contains "<p:txStyles>" master then [] else [Issue SlideMaster "Slide master missing p:txStyles" p])
      match read_part "ppt/presentation.xml" with
      | None => []
      | Some pres =>
          app (check_master_id_uniqueness pres master)
          (flat_map (fun rid =>
             if match rel_by_id (relationships "ppt/slideMasters/_rels/slideMaster1.xml.rels") rid with Some t => contains "slideLayout" (r_resolved t) | None => false end
             then [] else [Issue SlideMaster ("Layout r:id=""" ++ rid ++ """ does not resolve to a slideLayout part") p])
             (extract_attr_values master "p:sldLayoutId" "r:id"))
      end
  end.
(** rules.rs:351-369 *)
Definition check_theme : list issue :=
  match by_name "ppt/theme/theme1.xml" with
  | Some buf => if Nat.ltb (String.length buf) (70 * 100)
      then [Issue Theme ("Theme part too small (" ++ decn (String.length buf) ++ " bytes); PowerPoint expects full Office theme") "ppt/theme/theme1.xml"] else []
  | None => []
  end.
(** rules.rs:371-425 *)
Definition check_chart_packages : list issue :=
  flat_map (fun chart_path =>
      let rels_path := replace_str "ppt/charts/" "ppt/charts/_rels/" chart_path ++ ".rels" in
      if negb (has_part rels_path) then [Issue Chart ("Chart missing rels: " ++ rels_path) chart_path]
      else
        app (if existsb (fun r => contains "embeddings/" (r_target r)) (relationships rels_path) then []
             else [Issue Chart (rels_path ++ " missing package relationship to embedding") rels_path])
        (app (match read_part chart_path with
              | Some chart_xml => if contains "<c:externalData" chart_xml then [] else [Issue Chart (chart_path ++ " missing c:externalData") chart_path]
              | None => []
              end)
             (let idx := trim_end_matches ".xml" (trim_start_matches "ppt/charts/chart" chart_path) in
              let embedding := ("ppt/embeddings/Microsoft_Excel_Sheet" ++ idx ++ ".xlsx") in
              if has_part embedding then [] else [Issue Chart ("Chart missing embedding: " ++ embedding) chart_path])))
    (filter (fun n => starts_with "ppt/charts/chart" n && ends_with ".xml" n) names).
(** rules.rs:464-473: the ids that [insert] finds already in the set *)
Fixpoint repeated (seen l : list string) : list string :=
  match l with
  | [] => []
  | id :: l => if existsb (String.eqb id) seen then id :: repeated seen l else repeated (id :: seen) l
  end.
(** rules.rs:417-475 *)
Definition check_slide_relationships : list issue :=
  flat_map (fun slide_path =>
      let rels_path := replace_str "ppt/slides/" "ppt/slides/_rels/" slide_path ++ ".rels" in
      match read_part slide_path with
      | None => []
      | Some slide_xml =>
          app (flat_map (fun rid =>
                 match rel_by_id (relationships rels_path) rid with
                 | None => [Issue Slide (slide_path ++ " references " ++ rid ++ " but " ++ rels_path ++ " has no such relationship") slide_path]
                 | Some r => if r_external r then [] else if has_part (r_resolved r) then []
                     else [Issue Slide (slide_path ++ " " ++ rid ++ " target """ ++ r_resolved r ++ """ is missing from the package") slide_path]
                 end) (extract_rel_reference_ids slide_xml))
              (map (fun id => Issue Slide (slide_path ++ " has duplicate shape id """ ++ id ++ """") slide_path) (repeated [] (extract_attr_values slide_xml "p:cNvPr" "id")))
      end) (filter is_slide_part names).
(** rules.rs:546-565 *)
Definition check_notes_slides : list issue :=
  flat_map (fun '(rels_path, rels) =>
      if starts_with "ppt/slides/_rels/" rels_path then
        flat_map (fun rel => if contains "notesSlides/notesSlide" (r_resolved rel) && negb (has_part (r_resolved rel))
          then [Issue Slide (rels_path ++ " references notes slide """ ++ r_resolved rel ++ """ which is missing") rels_path] else []) rels
      else []) relationship_parts.
(** rules.rs:477-513 and 515-544 *)
Definition check_handout_package : list issue :=
  if negb (has_part "ppt/handoutMasters/handoutMaster1.xml") then []
  else
    app (match read_part "ppt/presProps.xml" with
         | Some x => if contains "<p:prnPr" x then [Issue Presentation "presProps.xml must not contain p:prnPr when a handout master is packaged" "ppt/presProps.xml"] else []
         | None => []
         end)
    (app (if existsb (fun r => contains "theme/theme3.xml" (r_resolved r)) (relationships "ppt/handoutMasters/_rels/handoutMaster1.xml.rels") then []
          else [Issue Relationship "handout master should reference theme/theme3.xml" "ppt/handoutMasters/_rels/handoutMaster1.xml.rels"])
         (match read_part "ppt/handoutMasters/handoutMaster1.xml" with
          | Some x => if contains "<p:bg>" x then [] else [Issue SlideMaster "handout master missing slide background" "ppt/handoutMasters/handoutMaster1.xml"]
          | None => []
          end)).
Definition check_notes_master : list issue :=
  if negb (has_part "ppt/notesMasters/notesMaster1.xml") then []
  else
    app (if existsb (fun r => contains "theme/theme2.xml" (r_resolved r)) (relationships "ppt/notesMasters/_rels/notesMaster1.xml.rels") then []
         else [Issue Relationship "notes master should reference theme/theme2.xml" "ppt/notesMasters/_rels/notesMaster1.xml.rels"])
        (match read_part "ppt/notesMasters/notesMaster1.xml" with
         | Some x => if contains "<p:bg>" x then [] else [Issue SlideMaster "notes master missing slide background" "ppt/notesMasters/notesMaster1.xml"]
         | None => []
         end).
(** rules.rs:33-51 [validate_package]; [is_valid] (report.rs) says that there is
    no error. *)
Definition validate_package : list issue :=
  List.concat [check_required_parts; check_xml_parts; check_relationship_targets; check_content_types; check_presentation_structure;
    check_slide_master; check_theme; check_chart_packages; check_slide_relationships; check_notes_slides; check_handout_package; check_notes_master].
(** What [names] can be: the entry names that are no directories, each once. *)
Definition archive_names : Prop := List.NoDup names /\ forall n, In n names <-> exists c, In (n, c) files /\ is_dir n = false.
End Archive.
