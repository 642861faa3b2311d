(** C11, C12, C23: relationship ids and references of a generated
    presentation, and its embedded font list. *)
From Coq Require Import String Ascii List Bool Arith NArith Permutation Lia.
From Verif Require Import Str XmlSpec OpcSpec GenModel FontsModel FontsSpec PresProofs.
Import ListNotations.
Open Scope string_scope.

(** Fonts as a caller gives them: no relationship id yet. *)
Theorem C11_relationship_ids_distinct (n : nat) (notes handout : bool) (fonts : list font) :
  (forall f, In f fonts -> font_ok f = true /\ f_rid f = "") ->
  exists rels, rels_of (presentation_rels n notes handout fonts) = Some rels /\
    NoDup (map rel_id rels) /\
    length rels = n + length fonts + 5 + (if notes then 1 else 0) + (if handout then 1 else 0).
Proof. exact (presentation_rels_distinct n notes handout fonts). Qed.
Print Assumptions C11_relationship_ids_distinct.

Definition sample_fonts : list font :=
  [Font "Fira & Code" Regular 0 (Some "020B0604") 34 "x" ""; Font "Other" Bold 0 None 34 "y" "";
   Font "Fira & Code" BoldItalic 0 None 34 "z" ""].
Example C11_case_hyp : forall f, In f sample_fonts -> font_ok f = true /\ f_rid f = "".
Proof. simpl. intuition (subst; reflexivity). Qed.
Example C11_case :
  option_map (map rel_id) (rels_of (presentation_rels 2 true false sample_fonts)) =
  Some ["rId1"; "rId2"; "rId3"; "rId4"; "rId5"; "rId6"; "rId7"; "rId8"; "rId9"; "rId10"; "rId11"].
Proof. vm_compute. reflexivity. Qed.

(** A font for which the caller already chose an id can collide with an id of
    the presentation: only empty ids are filled in. *)
Theorem C11_preassigned_font_id_refuted :
  exists fonts rels, (forall f, In f fonts -> font_ok f = true) /\
    rels_of (presentation_rels 1 false false fonts) = Some rels /\ ~ NoDup (map rel_id rels).
Proof. exact preassigned_font_id. Qed.
Print Assumptions C11_preassigned_font_id_refuted.

Theorem C12_references_resolve (n : nat) (notes handout : bool) (fonts : list font) :
  (forall f, In f fonts -> font_ok f = true /\ f_rid f = "") ->
  let x := presentation_xml n notes handout fonts in
  exists rels slides masters notes_masters handout_masters,
    rels_of (presentation_rels n notes handout fonts) = Some rels /\
    id_list x "p:sldIdLst" "p:sldId" = Some slides /\
    id_list x "p:sldMasterIdLst" "p:sldMasterId" = Some masters /\
    id_list x "p:notesMasterIdLst" "p:notesMasterId" = Some notes_masters /\
    id_list x "p:handoutMasterIdLst" "p:handoutMasterId" = Some handout_masters /\
    length slides = n /\ NoDup (map fst slides) /\
    (forall i id r, nth_error slides i = Some (id, r) ->
       (exists k, 256 <= k /\ id = decn k) /\
       lookup_rel r rels = Some (Rel r (doc_rel "slide") ("slides/slide" ++ decn (i + 1) ++ ".xml") "")) /\
    (exists id r, masters = [(id, r)] /\
       lookup_rel r rels = Some (Rel r (doc_rel "slideMaster") "slideMasters/slideMaster1.xml" "")) /\
    (if notes then exists r, notes_masters = [("", r)] /\
       lookup_rel r rels = Some (Rel r (doc_rel "notesMaster") "notesMasters/notesMaster1.xml" "")
     else notes_masters = []) /\
    (if handout then exists r, handout_masters = [("", r)] /\
       lookup_rel r rels = Some (Rel r (doc_rel "handoutMaster") "handoutMasters/handoutMaster1.xml" "")
     else handout_masters = []).
Proof. exact (presentation_refs n notes handout fonts). Qed.
Print Assumptions C12_references_resolve.

Example C12_case :
  id_list (presentation_xml 2 true true sample_fonts) "p:sldIdLst" "p:sldId" = Some [("256", "rId2"); ("257", "rId3")] /\
  id_list (presentation_xml 2 true true sample_fonts) "p:notesMasterIdLst" "p:notesMasterId" = Some [("", "rId4")].
Proof. vm_compute. split; reflexivity. Qed.

Theorem C23_font_list (start : nat) (fonts : list font) :
  fonts <> [] -> (forall f, In f fonts -> font_ok f = true /\ f_rid f = "") ->
  let fs := assign_relationship_ids start fonts in
  exists entries, font_entries (fonts_to_xml fs) = Some entries /\
    map fst entries = first_uses (map f_typeface fonts) /\
    (forall t refs, In (t, refs) entries ->
       refs = map font_ref_entry (filter (fun f => String.eqb (f_typeface f) t) fs)) /\
    Permutation (concat (map snd entries)) (map font_ref_entry fs) /\
    NoDup (map snd (concat (map snd entries))).
Proof. exact (font_list_correct start fonts). Qed.
Print Assumptions C23_font_list.

(** Assigning ids changes nothing else. *)
Theorem C23_assign_keeps_fonts (start : nat) (fonts : list font) :
  map (fun f => (f_typeface f, f_style f, f_charset f, f_panose f, f_pitch f, f_data f)) (assign_relationship_ids start fonts) =
  map (fun f => (f_typeface f, f_style f, f_charset f, f_panose f, f_pitch f, f_data f)) fonts.
Proof. exact (assign_keeps start fonts). Qed.
Print Assumptions C23_assign_keeps_fonts.

Example C23_case :
  font_entries (fonts_to_xml (assign_relationship_ids 7 sample_fonts)) =
  Some [("Fira & Code", [("p:regular", "rId7"); ("p:boldItalic", "rId9")]); ("Other", [("p:bold", "rId8")])].
Proof. vm_compute. reflexivity. Qed.

(** Two different typefaces can be written to one part: spaces are dropped
    from the part name. *)
Theorem C23_distinct_parts_refuted :
  exists f g, f_typeface f <> f_typeface g /\ f_style f = f_style g /\ part_name f = part_name g.
Proof.
  exists (Font "Open Sans" Regular 0 None 34 "a" ""), (Font "OpenSans" Regular 0 None 34 "b" "").
  repeat split; discriminate.
Qed.
Print Assumptions C23_distinct_parts_refuted.

(** A panose string with a quotation mark breaks the document. *)
Theorem C23_panose_unescaped_refuted :
  exists f, font_ok f = false /\ attr_ok (f_typeface f) = true /\ xml_read (fonts_to_xml [f]) = None.
Proof. exists (Font "A" Regular 0 (Some """<") 34 "" "rId1"). repeat split. Qed.
Print Assumptions C23_panose_unescaped_refuted.
