(** Model of src/parts/relationships.rs. *)
From Coq Require Import String Ascii List Bool NArith.
From Verif Require Import Str Num XmlSpec XmlTreeModel.
Import ListNotations.
Open Scope string_scope.

(** relationships.rs:11-22. *)
Inductive rtype := OfficeDocument | Slide | SlideLayout | SlideMaster | Theme | Image | Chart | CoreProperties | ExtendedProperties | Custom (uri : string).
(** relationships.rs:26-39. *)
Definition uri (t : rtype) : string :=
  match t with
  | OfficeDocument => "http://schemas.openxmlformats.org/officeDocument/2006/relationships/officeDocument"
  | Slide => "http://schemas.openxmlformats.org/officeDocument/2006/relationships/slide"
  | SlideLayout => "http://schemas.openxmlformats.org/officeDocument/2006/relationships/slideLayout"
  | SlideMaster => "http://schemas.openxmlformats.org/officeDocument/2006/relationships/slideMaster"
  | Theme => "http://schemas.openxmlformats.org/officeDocument/2006/relationships/theme"
  | Image => "http://schemas.openxmlformats.org/officeDocument/2006/relationships/image"
  | Chart => "http://schemas.openxmlformats.org/officeDocument/2006/relationships/chart"
  | CoreProperties => "http://schemas.openxmlformats.org/package/2006/relationships/metadata/core-properties"
  | ExtendedProperties => "http://schemas.openxmlformats.org/officeDocument/2006/relationships/extended-properties"
  | Custom u => u
  end.
(** relationships.rs:42-64. *)
Definition from_uri (u : string) : rtype :=
  if contains "/slide" u && negb (contains "Layout" u) && negb (contains "Master" u) then Slide
  else if contains "/slideLayout" u then SlideLayout
  else if contains "/slideMaster" u then SlideMaster
  else if contains "/theme" u then Theme
  else if contains "/image" u then Image
  else if contains "/chart" u then Chart
  else if contains "/officeDocument" u then OfficeDocument
  else if contains "core-properties" u then CoreProperties
  else if contains "extended-properties" u then ExtendedProperties
  else Custom u.

(** relationships.rs:69-73, 105-109. *)
Record relationship := Relationship { id : string; rel_type : rtype; target : string }.
Record rels := Rels { list_of : list relationship; next_id : N }.
(** relationships.rs:113-118. *)
Definition rels_new : rels := Rels [] 1.
(** relationships.rs:121-127; [next_id] is a u32. *)
Definition add (t : rtype) (tgt : string) (s : rels) : string * rels :=
  let i := "rId" ++ dec (next_id s) in
  (i, Rels (list_of s ++ [Relationship i t tgt])%list (wadd u32_max (next_id s) 1)).
(** relationships.rs:130-138. *)
Definition add_with_id (i : string) (t : rtype) (tgt : string) (s : rels) : rels :=
  Rels (list_of s ++ [Relationship i t tgt])%list
       (match strip_prefix "rId" i with
        | Some d => match parse_uint u32_max d with
                    | Some n => if (next_id s <=? n)%N then wadd u32_max n 1 else next_id s
                    | None => next_id s
                    end
        | None => next_id s
        end).
(** relationships.rs:141-143. *)
Definition get (i : string) (s : rels) : option relationship := find (fun r => String.eqb (id r) i) (list_of s).

(** relationships.rs:87-95, 167-181. *)
Definition rel_xml (r : relationship) : string :=
  "<Relationship Id=""" ++ id r ++ """ Type=""" ++ uri (rel_type r) ++ """ Target=""" ++ target r ++ """/>".
Definition lf : string := String "010"%char "".
Definition rels_xml (s : rels) : string :=
  "<?xml version=""1.0"" encoding=""UTF-8"" standalone=""yes""?>" ++ lf
  ++ "<Relationships xmlns=""http://schemas.openxmlformats.org/package/2006/relationships"">"
  ++ sconcat (map (fun r => lf ++ "    " ++ rel_xml r) (list_of s)) ++ lf ++ "</Relationships>".

(** relationships.rs:192-208 [from_xml], over the tree of [XmlParser::parse_str]. *)
Definition add_elem (s : rels) (e : xel) : rels :=
  match attr_of "Id" e, attr_of "Type" e, attr_of "Target" e with
  | Some i, Some t, Some g => add_with_id i (from_uri t) g s
  | _, _, _ => s
  end.
Definition from_root (e : xel) : rels := fold_left add_elem (find_all "Relationship" e) rels_new.
Definition from_xml (x : string) : option rels := option_map from_root (parse_str x).

(** Histories. *)
Inductive op := Add (t : rtype) (tgt : string) | AddWithId (i : string) (t : rtype) (tgt : string).
Definition step (s : rels) (o : op) : rels :=
  match o with Add t g => snd (add t g s) | AddWithId i t g => add_with_id i t g s end.
Definition run (l : list op) : rels := fold_left step l rels_new.
