(** Following element names down a document (specification side). *)
From Coq Require Import String List.
From Verif Require Import Str XmlSpec OpcSpec.
Import ListNotations.
Open Scope string_scope.

(** The elements reached from [x] by the child names [p], in document order. *)
Fixpoint at_path (p : list string) (x : node) : list node :=
  match p with
  | [] => [x]
  | n :: p => flat_map (at_path p) (named n (children x))
  end.
(** The same from the root of a document; [None] if it is not well-formed. *)
Definition doc_path (s : string) (p : list string) : option (list node) := option_map (at_path p) (xml_read s).
(** The character data of an element, children elements not included. *)
Definition text_in (x : node) : string :=
  sconcat (map (fun k => match k with Txt t => t | _ => "" end) (children x)).
