(** Sample packages for repair. *)
From Coq Require Import String Ascii List Bool NArith Permutation.
From stdpp Require Import base gmap strings.
From Verif Require Import Str Num ValidModel ValidSpec ValidProofs ValidRefute PackageModel XmlSpec RepairModel RepairSpec RepairProofs RepairText RepairSlides.
Import ListNotations.
Open Scope string_scope.

Definition o0 : orders := Orders (fun l => l) (@rev string).
Lemma o0_fair : fair o0.
Proof. split; intros l; [reflexivity|]. apply Permutation_sym, Permutation_rev. Qed.
Definition master_line := "<Relationship Id=""rId1"" Type=""http://schemas.openxmlformats.org/officeDocument/2006/relationships/slideMaster"" Target=""slideMasters/slideMaster1.xml""/>".
Definition slide1_line := "<Relationship Id=""rId2"" Type=""http://schemas.openxmlformats.org/officeDocument/2006/relationships/slide"" Target=""slides/slide1.xml""/>".
Definition types1 := "<Types><Default Extension=""xml"" ContentType=""application/xml""/></Types>".
Definition deck1 (rels pres : string) (more : list (string * string)) : package :=
  open_entries no_dir ([("[Content_Types].xml", types1); ("_rels/.rels", generate_package_rels); ("docProps/core.xml", "<c/>"); ("docProps/app.xml", "<a/>");
    ("ppt/slideMasters/slideMaster1.xml", "<m/>"); ("ppt/_rels/presentation.xml.rels", rels); ("ppt/presentation.xml", pres)] ++ more)%list.
Definition body1 := "<?xml version=""1.0""?>" ++ nl ++ "<Relationships>" ++ nl ++ "  " ++ master_line ++ nl ++ "  " ++ slide1_line.
Definition rels1 := body1 ++ nl ++ "</Relationships>" ++ "".
Definition pbody1 := "<p:presentation><p:sldIdLst><p:sldId id=""256"" r:id=""rId2""/>".
Definition pres1 := pbody1 ++ "</p:sldIdLst>" ++ "</p:presentation>".
(** Two slides that are not listed. *)
Definition unlisted := deck1 rels1 pres1 [("ppt/slides/slide1.xml", "<s/>"); ("ppt/slides/slide7.xml", "<s/>"); ("ppt/slides/slide9.xml", "<s/>")].
Lemma unlisted_found : issues_found (fst (repair (fun s => s) o0 o0 o0 unlisted)) = map (fun f => MissingSlideReference ("ppt/slides/slide" ++ f)) ["7.xml"; "9.xml"].
Proof. vm_compute. reflexivity. Qed.
Ltac lit := apply absent_lit; vm_compute; reflexivity.
Lemma plain_number f : f = "7.xml" \/ f = "9.xml" -> plain_slide ("ppt/slides/slide" ++ f) f.
Proof. intros [-> | ->]; (split; [reflexivity|]; split; [reflexivity|]; split; [lit|]; split; reflexivity). Qed.
Lemma rels1_ids : quoted "Id=""" "rId" (body1 ++ nl) ["rId1"; "rId2"].
Proof.
  apply (one_quoted "Id=""" "rId" ("<?xml version=""1.0""?>" ++ nl ++ "<Relationships>" ++ nl ++ "  <Relationship ") "rId1"
    (" Type=""http://schemas.openxmlformats.org/officeDocument/2006/relationships/slideMaster"" Target=""slideMasters/slideMaster1.xml""/>" ++ nl ++ "  <Relationship " ++
     "Id=""rId2"" Type=""http://schemas.openxmlformats.org/officeDocument/2006/relationships/slide"" Target=""slides/slide1.xml""/>" ++ nl)); [lit|reflexivity|now right|].
  apply (one_quoted "Id=""" "rId" (" Type=""http://schemas.openxmlformats.org/officeDocument/2006/relationships/slideMaster"" Target=""slideMasters/slideMaster1.xml""/>" ++ nl ++ "  <Relationship ") "rId2"
    (" Type=""http://schemas.openxmlformats.org/officeDocument/2006/relationships/slide"" Target=""slides/slide1.xml""/>" ++ nl)); [lit|reflexivity|now right|].
  constructor. lit.
Qed.
Lemma pres1_ids : quoted "<p:sldId id=""" "" pbody1 ["256"].
Proof.
  apply (one_quoted "<p:sldId id=""" "" "<p:presentation><p:sldIdLst>" "256" " r:id=""rId2""/>"); [lit|reflexivity|now left|]. constructor. lit.
Qed.

(** Everything on one line, as PowerPoint writes it. *)
Definition one_line := deck1 ("<?xml version=""1.0""?>" ++ nl ++ "<Relationships>" ++ master_line ++ slide1_line ++ "</Relationships>") pres1 [("ppt/slides/slide1.xml", "<s/>")].
(** No slide in the list yet. *)
Definition no_list := deck1 ("<Relationships>" ++ nl ++ master_line ++ nl ++ "</Relationships>") "<p:presentation><p:sldIdLst/></p:presentation>" [("ppt/slides/slide1.xml", "<s/>")].
(** A listed slide whose part is missing. *)
Definition lost_slide := deck1 rels1 pres1 [].
(** A picture that is not there. *)
Definition lost_picture := deck1 rels1 pres1 [("ppt/slides/slide1.xml", "<s/>"); ("ppt/slides/_rels/slide1.xml.rels", "<Relationship Id=""rId1"" Type=""image"" Target=""../media/none.png""/>")].
(** The largest id there is. *)
Definition last_id := deck1 ("<Relationships>" ++ nl ++ "  <Relationship Id=""rId4294967295"" Type=""master"" Target=""slideMasters/slideMaster1.xml""/>" ++ nl ++ "</Relationships>") pres1 [("ppt/slides/slide1.xml", "<s/>")].
(** A slide with nothing in it. *)
Definition empty_slide := deck1 rels1 pres1 [("ppt/slides/slide1.xml", " ")].
