(** C75: the presentation part and the content types as parts of their own. *)
From Coq Require Import String Ascii List Bool Arith NArith.
From Verif Require Import Str Num XmlSpec OpcSpec XmlPath RelsModel PartsModel PartsSpec PartsPres.
Import ListNotations.
Open Scope nat_scope.
Open Scope string_scope.

Theorem C75_back : forall p : pres, pres_ok p = true -> pres_from (pres_xml p) = Some (Pres (p_slides p) (Some (master_id p)) None (p_width p) (p_height p)).
Proof. exact pres_back. Qed.
Print Assumptions C75_back.
Theorem C75_listed : forall p : pres, pres_ok p = true -> id_list (pres_xml p) "p:sldIdLst" "p:sldId" = Some (map (fun x => (dec (fst x), snd x)) (p_slides p))
  /\ id_list (pres_xml p) "p:sldMasterIdLst" "p:sldMasterId" = Some [("2147483648", master_id p)].
Proof. exact pres_ids. Qed.
Print Assumptions C75_listed.
Example C75_back_example : pres_ok (set_dimensions 12192000 6858000 (set_theme "rId8" (set_master "rId1" (snd (add_all pres_new ["rId2"; "rId3"]))))) = true.
Proof. exact (proj1 some_pres). Qed.
Theorem C75_numbers : forall rs : list string, (N.of_nat (length rs) <= 4294967039)%N -> forallb as_value rs = true ->
  let '(ids, p) := add_all pres_new rs in
  ids = map (fun k => N.of_nat (257 + k)) (seq 0 (length rs)) /\ NoDup ids /\ id_list (pres_xml p) "p:sldIdLst" "p:sldId" = Some (combine (map dec ids) rs)
  /\ (exists q, pres_from (pres_xml p) = Some q /\ p_slides q = combine ids rs)
  /\ map snd (p_slides p) = rs /\ own p "rId1" "rId2".
Proof. exact new_ids. Qed.
Print Assumptions C75_numbers.
Theorem C75_resolve : forall (p : pres) (m t : string), own p m t -> as_value m = true -> as_value t = true -> forallb (fun x => as_value (snd x)) (p_slides p) = true ->
  NoDup (m :: t :: map snd (p_slides p)) ->
  exists l, rels_of (rels_xml (pres_rels p)) = Some l /\ lookup_rel m l = Some (Rel m (doc_rel "slideMaster") "slideMasters/slideMaster1.xml" "") /\
    lookup_rel t l = Some (Rel t (doc_rel "theme") "theme/theme1.xml" "") /\
    forall k r, nth_error (map snd (p_slides p)) k = Some r -> lookup_rel r l = Some (Rel r (doc_rel "slide") ("slides/slide" ++ decn (S k) ++ ".xml") "").
Proof. exact slides_resolve. Qed.
Print Assumptions C75_resolve.
Example C75_resolve_example : own (set_theme "rId8" (set_master "rId1" (snd (add_all pres_new ["rId2"; "rId3"])))) "rId1" "rId8" /\ NoDup ["rId1"; "rId8"; "rId2"; "rId3"].
Proof. split; [now apply own_both|exact (proj2 some_pres)]. Qed.
Theorem C75_types : forall c : ctypes, ctypes_ok c = true -> types_of (ctypes_xml c) = Some (t_defaults c, t_overrides c).
Proof. exact ctypes_read. Qed.
Print Assumptions C75_types.
Theorem C75_declared : forall ks : list kind, forallb kind_ok ks = true -> types_of (ctypes_xml (fold_left declare ks ctypes_new)) = Some (t_defaults ctypes_new, map (fun k => (part_name k, media_type k)) ks).
Proof. exact declared. Qed.
Print Assumptions C75_declared.
Example C75_declared_example : forallb kind_ok [KPresentation; KSlide 1; KSlide 2; KOther "/ppt/media/a.bin" "application/octet-stream"] = true.
Proof. reflexivity. Qed.
(** A slide added under the id the theme is about to take is the theme. *)
Theorem C75_theme_id_refuted : exists rs, NoDup rs /\ exists l, rels_of (rels_xml (pres_rels (snd (add_all pres_new rs)))) = Some l /\ exists r, In r rs /\ lookup_rel r l = None
  /\ option_map target (get r (pres_rels (snd (add_all pres_new rs)))) = Some "theme/theme1.xml".
Proof. exact rels_clash. Qed.
Print Assumptions C75_theme_id_refuted.
(** Adding to a presentation that was read can repeat a number. *)
Theorem C75_number_again_refuted : exists p q, pres_ok p = true /\ pres_from (pres_xml p) = Some q /\ exists r, In (fst (pres_add r q)) (map fst (p_slides q)).
Proof. exact id_repeated. Qed.
Print Assumptions C75_number_again_refuted.
Theorem C75_theme_back_refuted : exists p q, pres_ok p = true /\ pres_from (pres_xml p) = Some q /\ p_theme p <> p_theme q.
Proof. exact theme_lost. Qed.
Print Assumptions C75_theme_back_refuted.
(** Reading content types reads nothing. *)
Theorem C75_types_back_refuted : exists c, ctypes_ok c = true /\ t_overrides c <> [] /\ t_overrides (ctypes_from (ctypes_xml c)) = [].
Proof. exact types_forgotten. Qed.
Print Assumptions C75_types_back_refuted.
Theorem C75_types_escaped_refuted : exists n t, text_ok n = true /\ text_ok t = true /\ types_of (ctypes_xml (add_override n t ctypes_new)) = None.
Proof. exact types_raw. Qed.
Print Assumptions C75_types_escaped_refuted.
