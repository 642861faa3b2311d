(** Model of src/core/xml_utils.rs [XmlWriter]; the writer state is its
    buffer, every method returns the new buffer. *)
From Coq Require Import String Ascii List Bool.
From Verif Require Import Str EscapeModel.
Import ListNotations.
Open Scope string_scope.

(** src/core/xml_utils.rs:68-72 [XmlWriter::new]. *)
Definition writer_new : string := "".

(** src/core/xml_utils.rs:81-86 [xml_declaration]. *)
Definition xml_declaration (buf : string) : string :=
  (buf ++ "<?xml version=""1.0"" encoding=""UTF-8"" standalone=""yes""?>") ++ nl.

(** src/core/xml_utils.rs:92-98 and 115-121, the attribute loop. *)
Definition push_attrs (attrs : list (string * string)) (buf : string) : string :=
  fold_left
    (fun b '(key, value) =>
       append_escape_xml (((b ++ " ") ++ key) ++ "=""") value ++ """")
    attrs buf.

(** src/core/xml_utils.rs:89-101 [start_element]. *)
Definition start_element (name : string) (attrs : list (string * string)) (buf : string) : string :=
  push_attrs attrs ((buf ++ "<") ++ name) ++ ">".

(** src/core/xml_utils.rs:104-109 [end_element]. *)
Definition end_element (name buf : string) : string := ((buf ++ "</") ++ name) ++ ">".

(** src/core/xml_utils.rs:112-124 [empty_element]. *)
Definition empty_element (name : string) (attrs : list (string * string)) (buf : string) : string :=
  push_attrs attrs ((buf ++ "<") ++ name) ++ "/>".

(** src/core/xml_utils.rs:127-130 [text]. *)
Definition text (content buf : string) : string := append_escape_xml buf content.

(** src/core/xml_utils.rs:133-136 [raw]. *)
Definition raw (xml buf : string) : string := buf ++ xml.

(** A properly nested use of the writer: what calls are made, in order. *)
Inductive call :=
| CElem (name : string) (attrs : list (string * string)) (body : list call)
| CEmpty (name : string) (attrs : list (string * string))
| CText (content : string).

Fixpoint emit (c : call) (buf : string) : string :=
  match c with
  | CElem n a body =>
      end_element n
        ((fix emits (l : list call) (buf : string) : string :=
            match l with [] => buf | c :: l => emits l (emit c buf) end) body (start_element n a buf))
  | CEmpty n a => empty_element n a buf
  | CText s => text s buf
  end.

Definition emits (l : list call) (buf : string) : string := fold_left (fun b c => emit c b) l buf.

(** The whole document: declaration, then one element. *)
Definition write_document (n : string) (a : list (string * string)) (body : list call) : string :=
  emit (CElem n a body) (xml_declaration writer_new).
