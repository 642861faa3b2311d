(** Reading the package-level XML parts (specification side): relationship
    parts, [Content_Types].xml and the id lists of presentation.xml, on top of
    the XML reader of XmlSpec.  No model of the generator is used here. *)
From Coq Require Import String Ascii List Bool.
From Verif Require Import XmlSpec.
Import ListNotations.
Open Scope string_scope.

Definition attr_opt (k : string) (x : node) : option string :=
  match x with
  | Elem _ a _ => option_map snd (find (fun p => String.eqb (fst p) k) a)
  | Txt _ => None
  end.
Definition attr (k : string) (x : node) : string :=
  match attr_opt k x with Some v => v | None => "" end.
Definition children (x : node) : list node := match x with Elem _ _ l => l | Txt _ => [] end.
Definition is_named (n : string) (x : node) : bool :=
  match x with Elem m _ _ => String.eqb m n | Txt _ => false end.
Definition named (n : string) (l : list node) : list node := filter (is_named n) l.

(** A relationship: id, type URI, target, and "External" when the target is
    outside the package. *)
Record rel := Rel { rel_id : string; rel_type : string; rel_target : string; rel_mode : string }.

Definition rel_of (x : node) : rel :=
  Rel (attr "Id" x) (attr "Type" x) (attr "Target" x) (attr "TargetMode" x).

(** All relationships of a relationship part, in document order. *)
Definition rels_of (s : string) : option (list rel) :=
  match xml_read s with
  | Some (Elem "Relationships" _ kids) => Some (map rel_of (named "Relationship" kids))
  | _ => None
  end.

Definition doc_rel (kind : string) : string :=
  "http://schemas.openxmlformats.org/officeDocument/2006/relationships/" ++ kind.
Definition pkg_rel (kind : string) : string :=
  "http://schemas.openxmlformats.org/package/2006/relationships/" ++ kind.

(** [Content_Types].xml: (extension, type) defaults and (part, type) overrides. *)
Definition types_of (s : string) : option (list (string * string) * list (string * string)) :=
  match xml_read s with
  | Some (Elem "Types" _ kids) =>
      Some (map (fun x => (attr "Extension" x, attr "ContentType" x)) (named "Default" kids),
            map (fun x => (attr "PartName" x, attr "ContentType" x)) (named "Override" kids))
  | _ => None
  end.

(** presentation.xml: (id, r:id) entries of a list element such as
    p:sldIdLst / p:sldId. *)
Definition id_list (s lst item : string) : option (list (string * string)) :=
  match xml_read s with
  | Some (Elem "p:presentation" _ kids) =>
      Some (map (fun x => (attr "id" x, attr "r:id" x)) (named item (flat_map children (named lst kids))))
  | _ => None
  end.

(** The relationship with a given id, if there is exactly one. *)
Definition lookup_rel (id : string) (l : list rel) : option rel :=
  match filter (fun r => String.eqb (rel_id r) id) l with
  | [r] => Some r
  | _ => None
  end.
