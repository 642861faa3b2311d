(** C44: what repair reports and does. *)
From Coq Require Import String Ascii List Bool NArith Permutation.
From stdpp Require Import base gmap strings.
From Verif Require Import Str Num ValidSpec PackageModel XmlSpec RepairModel RepairSpec RepairProofs RepairText RepairSlides RepairRefute OpcSpec RepairMade.
Import ListNotations.
Open Scope string_scope.

(** Every issue found is reported, as fixed or as unfixed, in the order found;
    the result is called valid exactly when checking again finds nothing (or
    nothing was found to begin with). *)
Theorem C44_accounted : forall lossy o1 o2 o3 p r q, repair lossy o1 o2 o3 p = (r, q) ->
  issues_found r = validate lossy o1 p /\ Permutation (issues_found r) (issues_repaired r ++ issues_unrepaired r)
  /\ (is_valid r = true <-> validate lossy o3 q = [] \/ validate lossy o1 p = []).
Proof.
  intros lossy o1 o2 o3 p r q E. destruct (repair_steps _ _ _ _ _ _ _ E) as (A & B & C & D & _). rewrite B, C, app_nil_r, D, A. repeat split; auto.
Qed.
Print Assumptions C44_accounted.
Example C44_accounted_case : let '(r, q) := repair (fun s => s) o0 o0 o0 unlisted in length (issues_found r) = 2 /\ issues_unrepaired r = [] /\ is_valid r = true.
Proof. vm_compute. auto. Qed.

(** A package without issues is not touched. *)
Theorem C44_clean_untouched : forall lossy o1 o2 o3 p, validate lossy o1 p = [] -> repair lossy o1 o2 o3 p = (Result [] [] [] true, p).
Proof. intros lossy o1 o2 o3 p E. unfold repair. now rewrite E. Qed.
Print Assumptions C44_clean_untouched.
Example C44_clean_case : validate (fun s => s) o0 (deck1 rels1 pres1 [("ppt/slides/slide1.xml", "<s/>")]) = [].
Proof. vm_compute. reflexivity. Qed.

(** No part is removed; only the four required parts can be added, and they are
    there afterwards; a part that is neither one of these, nor the relationships
    of a slide, nor blank XML, is as it was. *)
Theorem C44_frame : forall lossy o1 o2 o3 p r q n, fair o1 -> repair lossy o1 o2 o3 p = (r, q) ->
  (get_part p n <> None -> get_part q n <> None)
  /\ (get_part q n <> None -> get_part p n <> None \/ In n ["[Content_Types].xml"; "_rels/.rels"; "ppt/presentation.xml"; "ppt/_rels/presentation.xml.rels"])
  /\ (In n ["[Content_Types].xml"; "_rels/.rels"; "ppt/presentation.xml"; "ppt/_rels/presentation.xml.rels"] -> get_part q n <> None)
  /\ (~ repairable_part n -> (forall c, get_part p n = Some c -> (ends_with ".xml" n = true \/ ends_with ".rels" n = true) -> trim (lossy c) <> "") -> get_part q n = get_part p n).
Proof.
  intros lossy o1 o2 o3 p r q n F E. destruct (repair_frame _ _ _ _ _ _ _ n F E) as (A & B & C). split; [exact A|]. split; [exact B|]. split; [exact (required_after _ _ _ _ _ _ _ n E)|exact C].
Qed.
Print Assumptions C44_frame.
Example C44_frame_case : let '(_, q) := repair (fun s => s) o0 o0 o0 (open_entries (fun _ => false) [("ppt/slides/slide1.xml", "<s/>")]) in
  get_part q "_rels/.rels" = Some generate_package_rels /\ get_part q "ppt/slides/slide1.xml" = Some "<s/>".
Proof. vm_compute. auto. Qed.

(** If all that is wrong is that some slides are not listed, and the files are
    laid out over lines, repair lists each of them, in the order found, at the
    end of the relationships and of the list of slides, under ids that count on
    from above every numeric id in each file, and the package is then valid. *)
Theorem C44_slides_listed : forall o1 o2 o3 p r q fs body tail pbody ptail rids sids, fair o1 -> fair o3 -> repair (fun s => s) o1 o2 o3 p = (r, q) ->
  issues_found r = map (fun f => MissingSlideReference ("ppt/slides/slide" ++ f)) fs -> (forall f, In f fs -> plain_slide ("ppt/slides/slide" ++ f) f) ->
  get_part p "ppt/_rels/presentation.xml.rels" = Some (body ++ nl ++ "</Relationships>" ++ tail) -> absent "</Relationships>" (body ++ nl) -> absent "</Relationships>" tail ->
  quoted "Id=""" "rId" (body ++ nl) rids -> absent "Id=""" tail ->
  get_part p "ppt/presentation.xml" = Some (pbody ++ "</p:sldIdLst>" ++ ptail) -> absent "</p:sldIdLst>" pbody -> absent "</p:sldIdLst>" ptail ->
  quoted "<p:sldId id=""" "" pbody sids -> absent "<p:sldId id=""" ptail ->
  (N.of_nat (length fs) <= u32_max)%N -> (forall i, numbered "rId" rids i \/ numbered "" sids i -> (i + N.of_nat (length fs) <= u32_max)%N) ->
  is_valid r = true /\ exists k m, (forall i, numbered "rId" rids i -> (i < k)%N) /\ (forall i, numbered "" sids i -> (i < m)%N)
  /\ get_part q "ppt/_rels/presentation.xml.rels" = Some (body ++ nl ++ new_rels k fs ++ "</Relationships>" ++ tail)
  /\ get_part q "ppt/presentation.xml" = Some (pbody ++ new_entries k m fs ++ "</p:sldIdLst>" ++ ptail)
  /\ (forall n, n <> "ppt/_rels/presentation.xml.rels" -> n <> "ppt/presentation.xml" -> get_part q n = get_part p n).
Proof. exact slides_listed. Qed.
Print Assumptions C44_slides_listed.
Example C44_slides_listed_case : let '(r, q) := repair (fun s => s) o0 o0 o0 unlisted in
  is_valid r = true /\ get_part q "ppt/presentation.xml" = Some (pbody1 ++ "<p:sldId id=""257"" r:id=""rId3""/>" ++ nl ++ "<p:sldId id=""258"" r:id=""rId4""/>" ++ nl ++ "</p:sldIdLst></p:presentation>").
Proof.
  destruct (repair (fun s => s) o0 o0 o0 unlisted) as [r q] eqn:E.
  assert (IDS : forall i, numbered "rId" ["rId1"; "rId2"] i \/ numbered "" ["256"] i -> (i + N.of_nat (length ["7.xml"; "9.xml"]) <= u32_max)%N).
  { intros i H. rewrite <- !numbers_in in H. vm_compute in H. destruct H as [[<-|[<-|[]]]|[<-|[]]]; discriminate. }
  assert (F := unlisted_found). rewrite E in F.
  assert (PL : forall f, In f ["7.xml"; "9.xml"] -> plain_slide ("ppt/slides/slide" ++ f) f) by (intros f [<-|[<-|[]]]; apply plain_number; auto).
  assert (G1 : get_part unlisted "ppt/_rels/presentation.xml.rels" = Some (body1 ++ nl ++ "</Relationships>" ++ "")) by (vm_compute; reflexivity).
  assert (G2 : get_part unlisted "ppt/presentation.xml" = Some (pbody1 ++ "</p:sldIdLst>" ++ "</p:presentation>")) by (vm_compute; reflexivity).
  assert (A1 : absent "</Relationships>" (body1 ++ nl)) by lit. assert (A2 : absent "</Relationships>" "") by lit. assert (A3 : absent "Id=""" "") by lit.
  assert (A4 : absent "</p:sldIdLst>" pbody1) by lit. assert (A5 : absent "</p:sldIdLst>" "</p:presentation>") by lit. assert (A6 : absent "<p:sldId id=""" "</p:presentation>") by lit.
  assert (LB : (N.of_nat (length ["7.xml"; "9.xml"]) <= u32_max)%N) by discriminate.
  destruct (C44_slides_listed o0 o0 o0 unlisted r q ["7.xml"; "9.xml"] body1 "" pbody1 "</p:presentation>" ["rId1"; "rId2"] ["256"] o0_fair o0_fair E F PL G1 A1 A2 rels1_ids A3 G2 A4 A5 pres1_ids A6 LB IDS) as (V & _).
  split; [exact V|]. assert (Q : q = snd (repair (fun s => s) o0 o0 o0 unlisted)) by now rewrite E. subst q. vm_compute. reflexivity.
Qed.

(** A content type repair makes the part typed when the list has an end tag. *)
Theorem C44_type_added : forall o p part ct, get_part p "[Content_Types].xml" = Some ct -> contains "</Types>" ct = true ->
  exists q, repair_issue (fun s => s) o p (InvalidContentType part) = Some q
  /\ exists ct' a b, get_part q "[Content_Types].xml" = Some ct' /\ ct' = a ++ "<Override PartName=""/" ++ part ++ """ ContentType=""" ++ infer_content_type part ++ """/>" ++ b.
Proof. exact type_override. Qed.
Print Assumptions C44_type_added.
Example C44_type_added_case : let p := deck1 rels1 pres1 [("ppt/slides/slide1.xml", "<s/>"); ("ppt/media/a.mp4", "x")] in
  validate (fun s => s) o0 p = [InvalidContentType "ppt/media/a.mp4"] /\ is_valid (fst (repair (fun s => s) o0 o0 o0 p)) = true.
Proof. vm_compute. auto. Qed.

(** Relationships on one line, as other programs write them: a slide that is
    listed is listed once more, and the result is still not valid. *)
Theorem C44_one_line_refuted : exists p, (exists a b, get_part p "ppt/_rels/presentation.xml.rels" = Some (a ++ slide1_line ++ b)) /\
  let '(r, q) := repair (fun s => s) o0 o0 o0 p in is_valid r = false /\ issues_unrepaired r = []
  /\ get_part q "ppt/presentation.xml" = Some "<p:presentation><p:sldIdLst><p:sldId id=""256"" r:id=""rId2""/><p:sldId id=""257"" r:id=""rId3""/>
</p:sldIdLst></p:presentation>".
Proof.
  exists one_line. split.
  - exists ("<?xml version=""1.0""?>" ++ nl ++ "<Relationships>" ++ master_line), "</Relationships>". vm_compute. reflexivity.
  - vm_compute. auto.
Qed.
Print Assumptions C44_one_line_refuted.
(** The first slide listed gets the id 1, below the 256 that the format asks for. *)
Theorem C44_small_id_refuted : let '(r, q) := repair (fun s => s) o0 o0 o0 no_list in
  is_valid r = true /\ get_part q "ppt/presentation.xml" = Some "<p:presentation><p:sldIdLst><p:sldId id=""1"" r:id=""rId2""/></p:sldIdLst></p:presentation>".
Proof. vm_compute. auto. Qed.
Print Assumptions C44_small_id_refuted.
(** The relationship of a missing slide is removed; its entry in the list stays. *)
Theorem C44_orphan_entry_refuted : let '(r, q) := repair (fun s => s) o0 o0 o0 lost_slide in
  is_valid r = true /\ get_part q "ppt/presentation.xml" = Some pres1
  /\ (exists t, get_part q "ppt/_rels/presentation.xml.rels" = Some t /\ absent "Id=""rId2""" t) /\ (exists a b, pres1 = a ++ "r:id=""rId2""" ++ b).
Proof.
  destruct (repair (fun s => s) o0 o0 o0 lost_slide) as [r q] eqn:E.
  assert (V : is_valid (fst (repair (fun s => s) o0 o0 o0 lost_slide)) = true) by (vm_compute; reflexivity).
  assert (P : get_part (snd (repair (fun s => s) o0 o0 o0 lost_slide)) "ppt/presentation.xml" = Some pres1) by (vm_compute; reflexivity).
  assert (R : get_part (snd (repair (fun s => s) o0 o0 o0 lost_slide)) "ppt/_rels/presentation.xml.rels" = Some ("<?xml version=""1.0""?>" ++ nl ++ "<Relationships>" ++ nl ++ "  " ++ master_line ++ nl ++ "</Relationships>")) by (vm_compute; reflexivity).
  rewrite E in V, P, R. split; [exact V|]. split; [exact P|]. split; [eexists; split; [exact R|lit]|].
  exists "<p:presentation><p:sldIdLst><p:sldId id=""256"" ", "/></p:sldIdLst></p:presentation>". reflexivity.
Qed.
Print Assumptions C44_orphan_entry_refuted.
(** A relationship to a missing part is never reported when its target has "..". *)
Theorem C44_parent_target_refuted : get_part lost_picture "ppt/media/none.png" = None /\ validate (fun s => s) o0 lost_picture = []
  /\ exists a b, get_part lost_picture "ppt/slides/_rels/slide1.xml.rels" = Some (a ++ "Target=""../media/none.png""" ++ b).
Proof.
  split; [vm_compute; reflexivity|]. split; [vm_compute; reflexivity|]. exists "<Relationship Id=""rId1"" Type=""image"" ", "/>". vm_compute. reflexivity.
Qed.
Print Assumptions C44_parent_target_refuted.
(** After the largest id comes 0. *)
Theorem C44_overflow_refuted : let '(r, q) := repair (fun s => s) o0 o0 o0 last_id in
  exists a b, get_part q "ppt/_rels/presentation.xml.rels" = Some (a ++ slide_relationship "rId0" "slides/slide1.xml" ++ b).
Proof.
  destruct (repair (fun s => s) o0 o0 o0 last_id) as [r q] eqn:E. assert (Q : q = snd (repair (fun s => s) o0 o0 o0 last_id)) by now rewrite E. subst q.
  exists ("<Relationships>" ++ nl ++ "  <Relationship Id=""rId4294967295"" Type=""master"" Target=""slideMasters/slideMaster1.xml""/>" ++ nl), (nl ++ "</Relationships>"). vm_compute. reflexivity.
Qed.
Print Assumptions C44_overflow_refuted.
(** A blank part becomes an XML declaration and nothing else, which is no XML
    document, and is then called valid. *)
Theorem C44_blank_part_refuted : let '(r, q) := repair (fun s => s) o0 o0 o0 empty_slide in
  is_valid r = true /\ exists t, get_part q "ppt/slides/slide1.xml" = Some t /\ xml_read t = None.
Proof.
  destruct (repair (fun s => s) o0 o0 o0 empty_slide) as [r q] eqn:E.
  assert (V : is_valid (fst (repair (fun s => s) o0 o0 o0 empty_slide)) = true) by (vm_compute; reflexivity).
  assert (G : get_part (snd (repair (fun s => s) o0 o0 o0 empty_slide)) "ppt/slides/slide1.xml" = Some ("<?xml version=""1.0"" encoding=""UTF-8"" standalone=""yes""?>" ++ nl ++ " ")) by (vm_compute; reflexivity).
  rewrite E in V, G. split; [exact V|]. eexists. split; [exact G|]. vm_compute. reflexivity.
Qed.
Print Assumptions C44_blank_part_refuted.
(** When the relationships of the package are missing, the part that is made
    leads to the presentation and to the document properties. *)
Theorem C44_made : forall lossy o1 o2 o3 p r q, fair o1 -> repair lossy o1 o2 o3 p = (r, q) -> get_part p "_rels/.rels" = None ->
  exists t, get_part q "_rels/.rels" = Some t /\ rels_of t = Some
    [Rel "rId1" (doc_rel "officeDocument") "ppt/presentation.xml" "";
     Rel "rId2" "http://schemas.openxmlformats.org/package/2006/relationships/metadata/core-properties" "docProps/core.xml" "";
     Rel "rId3" (doc_rel "extended-properties") "docProps/app.xml" ""].
Proof. exact made_rels. Qed.
Print Assumptions C44_made.
Example C44_made_case : get_part no_rels "_rels/.rels" = None.
Proof. vm_compute. reflexivity. Qed.
(** It leads there also when there are no document properties: repairing it leaves
    a package that is called invalid, and repairing that one makes it valid. *)
Theorem C44_dangling_refuted : let '(r, q) := repair (fun s => s) o0 o0 o0 no_rels in
  is_valid r = false /\ get_part q "docProps/core.xml" = None /\ is_valid (fst (repair (fun s => s) o0 o0 o0 q)) = true.
Proof.
  destruct (repair (fun s => s) o0 o0 o0 no_rels) as [r q] eqn:E.
  assert (V : is_valid (fst (repair (fun s => s) o0 o0 o0 no_rels)) = false) by (vm_compute; reflexivity).
  assert (G : get_part (snd (repair (fun s => s) o0 o0 o0 no_rels)) "docProps/core.xml" = None) by (vm_compute; reflexivity).
  assert (W : is_valid (fst (repair (fun s => s) o0 o0 o0 (snd (repair (fun s => s) o0 o0 o0 no_rels)))) = true) by (vm_compute; reflexivity).
  rewrite E in V, G, W. exact (conj V (conj G W)).
Qed.
Print Assumptions C44_dangling_refuted.
