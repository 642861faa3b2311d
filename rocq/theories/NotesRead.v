(** Lemmas: the notes part of a slide, read back. *)
From Coq Require Import String Ascii List Bool Arith NArith Lia.
From Verif Require Import Str StrRefl Num EscapeModel EscapeProofs XmlSpec XmlProofs XmlTpl OpcSpec GenProofs TplRead XmlPath PathRead SlideSpec DeckModel DeckSpec.
Import ListNotations.
Open Scope nat_scope.
Open Scope string_scope.

Definition notesR (k : nat) (t : string) : tpl := (TE "p:notes" [("xmlns:a", [Lit "http://schemas.openxmlformats.org/drawingml/2006/main"]); ("xmlns:r", [Lit "http://schemas.openxmlformats.org/officeDocument/2006/relationships"]); ("xmlns:p", [Lit "http://schemas.openxmlformats.org/presentationml/2006/main"])] [TT [Lit "
"]; TE "p:cSld" [] [TT [Lit "
"]; TE "p:spTree" [] [TT [Lit "
"]; TE "p:nvGrpSpPr" [] [TT [Lit "
"]; TS "p:cNvPr" [("id", [Lit "1"]); ("name", [])]; TT [Lit "
"]; TS "p:cNvGrpSpPr" []; TT [Lit "
"]; TS "p:nvPr" []; TT [Lit "
"]]; TT [Lit "
"]; TE "p:grpSpPr" [] [TT [Lit "
"]; TE "a:xfrm" [] [TT [Lit "
"]; TS "a:off" [("x", [Lit "0"]); ("y", [Lit "0"])]; TT [Lit "
"]; TS "a:ext" [("cx", [Lit "0"]); ("cy", [Lit "0"])]; TT [Lit "
"]; TS "a:chOff" [("x", [Lit "0"]); ("y", [Lit "0"])]; TT [Lit "
"]; TS "a:chExt" [("cx", [Lit "0"]); ("cy", [Lit "0"])]; TT [Lit "
"]]; TT [Lit "
"]]; TT [Lit "
"]; TE "p:sp" [] [TT [Lit "
"]; TE "p:nvSpPr" [] [TT [Lit "
"]; TS "p:cNvPr" [("id", [Lit "2"]); ("name", [Lit "Slide Image Placeholder 1"])]; TT [Lit "
"]; TE "p:cNvSpPr" [] [TT [Lit "
"]; TS "a:spLocks" [("noGrp", [Lit "1"]); ("noRot", [Lit "1"]); ("noChangeAspect", [Lit "1"])]; TT [Lit "
"]]; TT [Lit "
"]; TE "p:nvPr" [] [TT [Lit "
"]; TS "p:ph" [("type", [Lit "sldImg"])]; TT [Lit "
"]]; TT [Lit "
"]]; TT [Lit "
"]; TS "p:spPr" []; TT [Lit "
"]]; TT [Lit "
"]; TE "p:sp" [] [TT [Lit "
"]; TE "p:nvSpPr" [] [TT [Lit "
"]; TS "p:cNvPr" [("id", [Lit "3"]); ("name", [Lit "Notes Placeholder 2"])]; TT [Lit "
"]; TE "p:cNvSpPr" [] [TT [Lit "
"]; TS "a:spLocks" [("noGrp", [Lit "1"])]; TT [Lit "
"]]; TT [Lit "
"]; TE "p:nvPr" [] [TT [Lit "
"]; TS "p:ph" [("type", [Lit "body"]); ("idx", [Lit "1"])]; TT [Lit "
"]]; TT [Lit "
"]]; TT [Lit "
"]; TS "p:spPr" []; TT [Lit "
"]; TE "p:txBody" [] [TT [Lit "
"]; TS "a:bodyPr" []; TT [Lit "
"]; TS "a:lstStyle" []; TT [Lit "
"]; TE "a:p" [] [TT [Lit "
"]; TE "a:r" [] [TT [Lit "
"]; TS "a:rPr" [("lang", [Lit "en-US"]); ("dirty", [Lit "0"])]; TT [Lit "
"]; TE "a:t" [] [TT [Esc t]]; TT [Lit "
"]]; TT [Lit "
"]]; TT [Lit "
"]]; TT [Lit "
"]]; TT [Lit "
"]; TE "p:sp" [] [TT [Lit "
"]; TE "p:nvSpPr" [] [TT [Lit "
"]; TS "p:cNvPr" [("id", [Lit "4"]); ("name", [Lit "Slide Number Placeholder 3"])]; TT [Lit "
"]; TE "p:cNvSpPr" [] [TT [Lit "
"]; TS "a:spLocks" [("noGrp", [Lit "1"])]; TT [Lit "
"]]; TT [Lit "
"]; TE "p:nvPr" [] [TT [Lit "
"]; TS "p:ph" [("type", [Lit "sldNum"]); ("sz", [Lit "quarter"]); ("idx", [Lit "10"])]; TT [Lit "
"]]; TT [Lit "
"]]; TT [Lit "
"]; TS "p:spPr" []; TT [Lit "
"]; TE "p:txBody" [] [TT [Lit "
"]; TS "a:bodyPr" []; TT [Lit "
"]; TS "a:lstStyle" []; TT [Lit "
"]; TE "a:p" [] [TT [Lit "
"]; TE "a:fld" [("id", [Lit ((field_guid k))]); ("type", [Lit "slidenum"])] [TT [Lit "
"]; TS "a:rPr" [("lang", [Lit "en-US"])]; TT [Lit "
"]; TE "a:t" [] [TT [Lit ((decn k))]]; TT [Lit "
"]]; TT [Lit "
"]; TS "a:endParaRPr" [("lang", [Lit "en-US"])]; TT [Lit "
"]]; TT [Lit "
"]]; TT [Lit "
"]]; TT [Lit "
"]]; TT [Lit "
"]]; TT [Lit "
"]; TE "p:clrMapOvr" [] [TT [Lit "
"]; TS "a:masterClrMapping" []; TT [Lit "
"]]; TT [Lit "
"]]).
Lemma notes_str k t : create_notes_xml k t = decl ++ nl ++ tstr (notesR k t).
Proof. unfold create_notes_xml, notesR. generalize (field_guid k) (decn k). intros g d. tstr_eq. Qed.
Lemma hex_plain w n : sforall plain_val (hexw w n) = true.
Proof.
  apply (sforall_weaken is_upper_hex).
  - intros [[] [] [] [] [] [] [] []]; vm_compute; congruence.
  - apply hexw_upper.
Qed.
Lemma notes_reads k t : text_ok t = true -> exists x, xml_read (create_notes_xml k t) = Some x /\ page_texts "body" x = [[t]].
Proof.
  intros H. rewrite notes_str. assert (G : sforall plain_val (field_guid k) = true) by (unfold field_guid; rewrite !sforall_app, hex_plain; reflexivity).
  assert (D : sforall plain_val (decn k) = true) by apply decn_val. pose proof (decn_txt k) as DT.
  unfold notesR. rewrite tpl_read; [|reflexivity|reflexivity|].
  - eexists. split; [reflexivity|]. generalize (field_guid k) (decn k). intros g d. unfold page_texts. cbn. rewrite !sapp_nil_r. destruct (String.eqb_spec t "") as [->|]; [reflexivity|]. cbn. rewrite !sapp_nil_r. reflexivity.
  - toks_solve; rewrite ?G, ?D, ?DT; auto.
Qed.
