(** What a slide part shows (specification side): the drawing elements of the
    slide, the text of a shape, drawing ids and relationship ids.  Only the XML
    reader is used here, plus the inputs' record fields in the predicates that
    say which inputs the theorems range over. *)
From Coq Require Import String Ascii List Bool NArith.
From Verif Require Import Str XmlSpec OpcSpec XmlPath LookSpec.
Import ListNotations.
Open Scope string_scope.

(** Every element of a document with its attributes, in document order. *)
Fixpoint elems (x : node) : list (string * list (string * string)) :=
  match x with
  | Txt _ => []
  | Elem n a ks => (n, a) :: flat_map elems ks
  end.
(** The drawing ids: ECMA-376 part 1, 20.1.2.2.8 says [p:cNvPr/@id] must be
    unique in the slide. *)
Definition drawing_id (e : string * list (string * string)) : list string :=
  if String.eqb (fst e) "p:cNvPr" then map snd (filter (fun p => String.eqb (fst p) "id") (snd e)) else [].
Definition drawing_ids (x : node) : list string := flat_map drawing_id (elems x).
(** The relationship ids a part refers to: attributes in the relationships
    namespace, bound to the prefix [r] in every part of a presentation. *)
Definition rel_id_attr (p : string * string) : bool := starts_with "r:" (fst p).
Definition rel_refs (e : string * list (string * string)) : list string := map snd (filter rel_id_attr (snd e)).
Definition rel_ids_used (x : node) : list string := flat_map rel_refs (elems x).

(** The shapes of a slide and those with a given name. *)
Definition slide_shapes (x : node) : list node := at_path ["p:cSld"; "p:spTree"; "p:sp"] x.
Definition shape_name (s : node) : list string := map (attr "name") (at_path ["p:nvSpPr"; "p:cNvPr"] s).
Definition shapes_named (n : string) (x : node) : list node :=
  filter (fun s => match shape_name s with [m] => String.eqb m n | _ => false end) (slide_shapes x).
(** The paragraphs of a shape: the text of their runs. *)
Definition run_texts (p : node) : list string := map text_in (at_path ["a:r"; "a:t"] p).
Definition shape_paragraphs (s : node) : list string :=
  map (fun p => sconcat (run_texts p)) (at_path ["p:txBody"; "a:p"] s).
(** Pictures: (name, alternative text, relationship id of the image). *)
Definition slide_pictures (x : node) : list node := at_path ["p:cSld"; "p:spTree"; "p:pic"] x.
Definition picture_info (p : node) : list (string * option string) * list string :=
  (map (fun c => (attr "name" c, attr_opt "descr" c)) (at_path ["p:nvPicPr"; "p:cNvPr"] p), map (attr "r:embed") (at_path ["p:blipFill"; "a:blip"] p)).
Definition slide_frames (x : node) : list node := at_path ["p:cSld"; "p:spTree"; "p:graphicFrame"] x.
Definition slide_connectors (x : node) : list node := at_path ["p:cSld"; "p:spTree"; "p:cxnSp"] x.
(** The relationship id of the chart in a frame. *)
Definition chart_ids (f : node) : list string := map (attr "r:id") (at_path ["a:graphic"; "a:graphicData"; "c:chart"] f).
(** Position and size of a shape, and the preset geometry. *)
Definition placed (s : node) : list (list (string * string)) :=
  map (fun e => match e with Elem _ a _ => a | Txt _ => [] end) (at_path ["p:spPr"; "a:xfrm"; "a:off"] s ++ at_path ["p:spPr"; "a:xfrm"; "a:ext"] s).
(** The mark before a paragraph (ECMA-376 part 1, 21.1.2.4): a character, a kind
    of automatic number, or explicitly none. *)
Definition para_mark (p : node) : list string * list string * nat :=
  (map (attr "char") (at_path ["a:pPr"; "a:buChar"] p), map (attr "type") (at_path ["a:pPr"; "a:buAutoNum"] p), length (at_path ["a:pPr"; "a:buNone"] p)).
(** Text colour, highlight and typeface of a run. *)
Definition run_colors (r : node) : list string * list string * list string :=
  (fills r, map (attr "val") (at_path ["a:highlight"; "a:srgbClr"] r), faces r).
(** A paragraph as a reader sees it: level, text, size, bold, italic, underline,
    strike-through and baseline shift of its run, mark and colours. *)
Definition para_view (p : node) :=
  (map (attr "lvl") (at_path ["a:pPr"] p), sconcat (run_texts p),
   map (fun r => (attr "sz" r, attr "b" r, attr "i" r)) (at_path ["a:r"; "a:rPr"] p),
   map (fun r => (attr_opt "u" r, attr_opt "strike" r, attr_opt "baseline" r)) (at_path ["a:r"; "a:rPr"] p),
   (para_mark p, map run_colors (at_path ["a:r"; "a:rPr"] p))).
Definition shape_bullets (s : node) := map para_view (at_path ["p:txBody"; "a:p"] s).
(** Alignment and run properties of the text of a shape. *)
Definition text_look (s : node) :=
  (map (attr "algn") (at_path ["p:txBody"; "a:p"; "a:pPr"] s), map run_look (at_path ["p:txBody"; "a:p"; "a:r"; "a:rPr"] s)).
(** Names of the elements in a list; names and attributes of the child elements. *)
Definition elem_names (l : list node) : list string := flat_map (fun n => match n with Elem m _ _ => [m] | Txt _ => [] end) l.
Definition elem_heads (l : list node) : list (string * list (string * string)) := flat_map (fun n => match n with Elem m a _ => [(m, a)] | Txt _ => [] end) l.
(** How a picture looks: place and size, what is cut off at the left, top, right
    and bottom, and its effects. *)
Definition picture_look (p : node) :=
  (placed p, map (fun r => (attr_opt "l" r, attr_opt "t" r, attr_opt "r" r, attr_opt "b" r)) (at_path ["p:blipFill"; "a:srcRect"] p),
   elem_names (flat_map children (at_path ["p:spPr"; "a:effectLst"] p))).
(** How a shape is painted: fill colour and opacity; colour stops and angle of a
    gradient; width and colour of the outline; rotation. *)
Definition tint (c : node) : string * list string := (attr "val" c, map (attr "val") (at_path ["a:alpha"] c)).
Definition paint (s : node) :=
  (map tint (at_path ["p:spPr"; "a:solidFill"; "a:srgbClr"] s),
   map (fun g => (attr "pos" g, map tint (at_path ["a:srgbClr"] g))) (at_path ["p:spPr"; "a:gradFill"; "a:gsLst"; "a:gs"] s),
   map (attr "ang") (at_path ["p:spPr"; "a:gradFill"; "a:lin"] s),
   map (fun l => (attr "w" l, fills l)) (at_path ["p:spPr"; "a:ln"] s),
   map (attr_opt "rot") (at_path ["p:spPr"; "a:xfrm"] s)).
(** The transition to the slide: the effect and its attributes. *)
Definition slide_transition (x : node) : list (string * list (string * string)) := elem_heads (flat_map children (at_path ["p:transition"] x)).
