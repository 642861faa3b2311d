(** C42: searching the parsed element tree. *)
From Coq Require Import String List Bool.
From Verif Require Import Str XmlSpec XmlTreeModel XmlTreeSpec XmlTreeProofs.
Import ListNotations.
Open Scope string_scope.

Theorem C42_find_all_descendants (n : string) (e : xel) :
  find_all_descendants n e = filter (has_name n) (descendants e).
Proof. exact (find_all_descendants_spec n e). Qed.
Print Assumptions C42_find_all_descendants.

Theorem C42_find_descendant_first (n : string) (e : xel) :
  find_descendant n e = hd_error (filter (has_name n) (descendants e)).
Proof. exact (find_descendant_spec n e). Qed.
Print Assumptions C42_find_descendant_first.

(** Parsing gives the tree of the document. *)
Theorem C42_parse_builds_tree (s : string) (x : node) : xml_read s = Some x ->
  exists e, parse_str s = Some e /\ tree x = Some e.
Proof. exact (parse_total s x). Qed.
Print Assumptions C42_parse_builds_tree.

(** An element of the tree keeps its name, its local name is the name without
    prefix, and its attributes are looked up by their written names. *)
Theorem C42_names_and_attributes (x : node) (e : xel) : tree x = Some e ->
  exists n a ks, x = Elem n a ks /\ tag e = n /\ unprefixed n (local_name e)
    /\ forall k, is_xmlns k = false -> NoDup (map fst a) -> forall v, attr_of k e = Some v <-> In (k, v) a.
Proof. exact (tree_names x e). Qed.
Print Assumptions C42_names_and_attributes.
Theorem C42_local_name_unique (t l l' : string) : unprefixed t l -> unprefixed t l' -> l = l'.
Proof. exact (unprefixed_fun t l l'). Qed.
Print Assumptions C42_local_name_unique.
(** Searching the children. *)
Theorem C42_children (n : string) (e : xel) : find_all n e = filter (has_name n) (kids e) /\ find_child n e = hd_error (filter (has_name n) (kids e)).
Proof. exact (children_named n e). Qed.
Print Assumptions C42_children.
Example C42_names_case : exists e, tree (Elem "a:p" [("xmlns:a", "u"); ("r:id", "rId1"); ("v", "2")] [Elem "a:r" [] []; Elem "x:r" [("k", "1")] []]) = Some e
  /\ local_name e = "p" /\ attr_of "r:id" e = Some "rId1" /\ attr_of "id" e = None /\ map tag (find_all "r" e) = ["a:r"; "x:r"]
  /\ unprefixed "a:p" "p".
Proof.
  eexists. split; [reflexivity|]. split; [reflexivity|]. split; [reflexivity|]. split; [reflexivity|]. split; [reflexivity|].
  split; [reflexivity|]. right. now exists "a".
Qed.

Theorem C42_text_in_document_order (x : node) (e : xel) : unmixed x = true -> tree x = Some e ->
  text_content e = all_text x.
Proof. exact (text_in_order x e). Qed.
Print Assumptions C42_text_in_document_order.

(** With mixed content the order is lost. *)
Theorem C42_mixed_text_refuted : exists s x e, xml_read s = Some x /\ parse_str s = Some e /\
  all_text x = "xyz" /\ text_content e = "xzy".
Proof. exists "<a>x<b>y</b>z</a>". eexists _, _. vm_compute. repeat split; reflexivity. Qed.
Print Assumptions C42_mixed_text_refuted.

(** Blank runs are dropped: two words separated by a run holding one space are glued together. *)
Theorem C42_blank_run_dropped_refuted : exists s e,
  parse_str s = Some e /\ s = "<p><t>a</t><t> </t><t>b</t></p>" /\ text_content e = "ab".
Proof. eexists _, _. split; [|split; [reflexivity|]]; vm_compute; reflexivity. Qed.
Print Assumptions C42_blank_run_dropped_refuted.

Example C42_case :
  let d := "<p:sld xmlns:p=""u""><p:a k=""1""><a:t>x</a:t></p:a><a:t>y<b/></a:t> <q><t>z</t></q></p:sld>" in
  exists e, parse_str d = Some e /\ map text (find_all_descendants "t" e) = ["x"; "y"; "z"] /\
    option_map text (find_descendant "t" e) = Some "x" /\ text_content e = "xyz".
Proof. eexists. vm_compute. repeat split; reflexivity. Qed.
