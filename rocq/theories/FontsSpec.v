(** Reading an embedded font list (specification side). *)
From Coq Require Import String Ascii List Bool.
From Verif Require Import Str XmlSpec XmlProofs OpcSpec FontsModel.
Import ListNotations.
Open Scope string_scope.

(** A font whose strings can stand in XML attributes: the typeface is any
    text without control characters; the relationship id and the panose are
    written without escaping, so they must be free of markup. *)
Definition font_ok (f : font) : bool :=
  attr_ok (f_typeface f) && sforall plain_val (f_rid f) &&
  match f_panose f with Some p => sforall plain_val p | None => true end.

(** The elements of a list without later repetitions. *)
Fixpoint first_uses (l : list string) : list string :=
  match l with
  | [] => []
  | x :: l => x :: filter (fun y => negb (String.eqb x y)) (first_uses l)
  end.

Definition name_of (x : node) : string := match x with Elem n _ _ => n | Txt _ => "" end.
Definition is_font_ref (x : node) : bool :=
  match x with Elem n _ _ => negb (String.eqb n "p:font") | Txt _ => false end.

(** One p:embeddedFont: the typeface of its p:font, and the (element,
    relationship id) pairs of the other children. *)
Definition font_entry (x : node) : string * list (string * string) :=
  (match named "p:font" (children x) with [d] => attr "typeface" d | _ => "" end,
   map (fun y => (name_of y, attr "r:id" y)) (filter is_font_ref (children x))).

Definition font_entries (s : string) : option (list (string * list (string * string))) :=
  match xml_read s with
  | Some (Elem "p:embeddedFontLst" _ kids) => Some (map font_entry (named "p:embeddedFont" kids))
  | _ => None
  end.

(** The entry a font must have. *)
Definition font_ref_entry (f : font) : string * string :=
  ("p:" ++ match f_style f with Regular => "regular" | Bold => "bold" | Italic => "italic" | BoldItalic => "boldItalic" end,
   f_rid f).
