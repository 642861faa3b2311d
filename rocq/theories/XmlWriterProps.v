(** C06: a document written with XmlWriter reads back as what was passed in. *)
From Coq Require Import String Ascii List Bool.
From Verif Require Import Str XmlSpec XmlWriterModel XmlWriterSpec XmlWriterProofs.
Import ListNotations.
Open Scope string_scope.

Theorem C06_writer_roundtrip (n : string) (a : list (string * string)) (body : list call) :
  call_ok (CElem n a body) ->
  xml_read (write_document n a body) = Some (node_of (CElem n a body)).
Proof. exact (write_document_read n a body). Qed.
Print Assumptions C06_writer_roundtrip.

(** The hypotheses are met by values full of markup. *)
Definition C06_doc : call :=
  CElem "p:sp" [("id", "1"); ("name", "a"" onload='x' <b>")]
    [CText "</p:sp>&lt;"; CText "<script>"; CEmpty "a:br" [("v", "&amp;")]; CText "x"].
Example C06_case_ok : call_ok C06_doc.
Proof.
  simpl; repeat split; try reflexivity; repeat constructor; simpl; intuition congruence.
Qed.
Example C06_case :
  match C06_doc with
  | CElem n a b => xml_read (write_document n a b)
  | _ => None
  end
  = Some (Elem "p:sp" [("id", "1"); ("name", "a"" onload='x' <b>")]
            [Txt "</p:sp>&lt;<script>"; Elem "a:br" [("v", "&amp;")] []; Txt "x"]).
Proof. reflexivity. Qed.

(** Outside that domain the claim fails: a control character is passed
    through and the document is not XML; a tab in an attribute value or a
    carriage return in text is read back as something else. *)
Theorem C06_control_character_refuted :
  exists s, xml_read (write_document "a" [] [CText s]) = None.
Proof. exists (String "001" ""). reflexivity. Qed.
Print Assumptions C06_control_character_refuted.

Theorem C06_attribute_tab_refuted :
  exists s, xml_read (write_document "a" [("k", s)] []) <> Some (Elem "a" [("k", s)] []).
Proof. exists (String c_tab ""). discriminate. Qed.
Print Assumptions C06_attribute_tab_refuted.
