(** Content types of the parts of a presentation, said without the code:
    how a package assigns them, and which type each part must have. *)
From Coq Require Import String Ascii List Bool Arith.
From Verif Require Import Str OpcSpec DeckSpec.
Import ListNotations.
Open Scope string_scope.

(** How a package assigns a type to a part: an override for its name, or else a
    default for its extension. *)
Definition content_type (types : list (string * string) * list (string * string)) (n : string) : option string :=
  match find (fun o => String.eqb (fst o) ("/" ++ n)) (snd types) with
  | Some o => Some (snd o)
  | None => option_map snd (find (fun d => String.eqb (fst d) (extension_of n)) (fst types))
  end.
Definition office (s : string) : string := "application/vnd.openxmlformats-officedocument." ++ s.
Definition package (s : string) : string := "application/vnd.openxmlformats-package." ++ s.
(** The type a part must have, by how its name begins ... *)
Definition kinds : list (string * string) :=
  [ ("_rels/", package "relationships+xml"); ("ppt/_rels/", package "relationships+xml"); ("ppt/slides/_rels/", package "relationships+xml");
    ("ppt/slideLayouts/_rels/", package "relationships+xml"); ("ppt/slideMasters/_rels/", package "relationships+xml"); ("ppt/notesSlides/_rels/", package "relationships+xml");
    ("ppt/notesMasters/_rels/", package "relationships+xml"); ("ppt/handoutMasters/_rels/", package "relationships+xml"); ("ppt/charts/_rels/", package "relationships+xml");
    ("ppt/presentation.xml", office "presentationml.presentation.main+xml"); ("ppt/presProps.xml", office "presentationml.presProps+xml");
    ("ppt/viewProps.xml", office "presentationml.viewProps+xml"); ("ppt/tableStyles.xml", office "presentationml.tableStyles+xml");
    ("ppt/slides/slide", office "presentationml.slide+xml"); ("ppt/slideLayouts/slideLayout", office "presentationml.slideLayout+xml");
    ("ppt/slideMasters/slideMaster", office "presentationml.slideMaster+xml"); ("ppt/notesSlides/notesSlide", office "presentationml.notesSlide+xml");
    ("ppt/notesMasters/notesMaster", office "presentationml.notesMaster+xml"); ("ppt/handoutMasters/handoutMaster", office "presentationml.handoutMaster+xml");
    ("ppt/theme/theme", office "theme+xml"); ("ppt/charts/chart", office "drawingml.chart+xml"); ("ppt/embeddings/", office "spreadsheetml.sheet");
    ("ppt/ink/ink", office "presentationml.ink+xml"); ("ppt/fonts/", "application/x-fontdata");
    ("_xmlsignatures/origin.sigs", package "digital-signature-origin"); ("_xmlsignatures/sig", package "digital-signature-xmlsignature+xml");
    ("docProps/core.xml", package "core-properties+xml"); ("docProps/app.xml", office "extended-properties+xml") ].
(** ... or, for media, by its extension. *)
Definition image_types : list (string * string) := [("jpg", "image/jpeg"); ("png", "image/png"); ("gif", "image/gif")].
Definition wanted_type (n : string) : option string :=
  if starts_with "ppt/media/" n then option_map snd (find (fun d => String.eqb (fst d) (extension_of n)) image_types)
  else option_map snd (find (fun k => starts_with (fst k) n) kinds).
