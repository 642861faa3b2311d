(** Proofs about layouts, and about what print settings leave alone. *)
From Coq Require Import String Ascii List Bool Arith NArith ZArith Lia.
From Verif Require Import Str Num XmlSpec XmlProofs XmlTpl OpcSpec GenModel TplRead XmlPath FontsModel SlideModel DeckModel ResolveSpec ResolveProofs DeckSpec DeckInput DeckParts DeckWhole DeckRels DeckThms SettingsModel SettingsSpec ShowProofs PrintProofs MasterProofs.
Import ListNotations.
Open Scope nat_scope.
Open Scope string_scope.

Lemma layout_reads l : exists x, xml_read (slide_layout_xml (layout_number l)) = Some x /\ is_layout l x.
Proof.
  assert (P : forall l, exists x, xml_read (slide_layout_xml (layout_number l)) = Some x
    /\ attr "type" x = layout_type l /\ map (attr "name") (at_path ["p:cSld"] x) = [layout_title l]
    /\ map (fun s => (placeholder_type s, placeholder_index s)) (shapes_of x) = map (fun p => ([fst p], [snd p])) (layout_offers l)
    /\ nodupb (drawing_numbers x) = true).
  { intros k. destruct k; eexists; (split; [vm_compute; reflexivity|]); repeat split. }
  destruct (P l) as (x & R & T & N & O & D). exists x. split; [exact R|]. split; [exact T|]. split; [exact N|]. split; [exact O|]. split; [now apply nodupb_NoDup|].
  clear -R. destruct l; vm_compute in R; injection R as <-.
  all: split; repeat (constructor || (eexists _, _, _, _; split; [vm_compute; reflexivity|lia]) || (eexists _, _, _, _, _, _, _, _; split; [vm_compute; reflexivity|split; [vm_compute; reflexivity|lia]])).
Qed.

Lemma layout_rels_read : rels_of layout_rels_xml = Some [Rel "rId1" (doc_rel "slideMaster") "../slideMasters/slideMaster1.xml" ""].
Proof. vm_compute. reflexivity. Qed.
Lemma master_rels_read : rels_of (create_master_rels_xml 7) = Some (map (fun k => Rel ("rId" ++ decn k) (doc_rel "slideLayout") ("../slideLayouts/slideLayout" ++ decn k ++ ".xml") "") (seq 1 7)
  ++ [Rel "rId8" (doc_rel "theme") "../theme/theme1.xml" ""])%list.
Proof. vm_compute. reflexivity. Qed.

Section LINK.
  Context (r : rest) (title : string) (slides : list slide) (p : presentation_settings).
  Notation deck := (generate r title slides p).
  Lemma in_layout_rels n : 1 <= n <= 7 -> In (layout_rels_path n, layout_rels_xml) deck.
  Proof.
    intros H. apply in_theme_block. unfold write_theme_and_layouts. rewrite in_app_iff. left. apply in_flat_map. exists n. split; [|right; now left].
    apply in_seq. change standard_layout_count with 7. lia.
  Qed.
  Lemma in_master_rels : In ("ppt/slideMasters/_rels/slideMaster1.xml.rels", create_master_rels_xml 7) deck.
  Proof. apply in_theme_block. unfold write_theme_and_layouts. rewrite in_app_iff. right. right. now left. Qed.
  Lemma layout_to_master n : 1 <= n <= 7 ->
    linked deck ["ppt"; "slideLayouts"] ("slideLayout" ++ decn n ++ ".xml") "rId1" "slideMaster" "ppt/slideMasters/slideMaster1.xml" (written_master (ps_print p)).
  Proof.
    intros H. eexists. split; [exists layout_rels_xml; eexists; split; [|split; [apply layout_rels_read|now left]]|].
    - replace (path _) with (layout_rels_path n); [now apply in_layout_rels|]. unfold layout_rels_path, path. cbn [app sjoin append]. now rewrite !sapp_assoc.
    - repeat split; [|apply in_master]. cbn [rel_target]. apply (leads_up ["ppt"] "slideLayouts" ["slideMasters"; "slideMaster1.xml"]). repeat constructor; now apply is_nameb_ok.
  Qed.
  Lemma master_to_layout n : 1 <= n <= 7 ->
    linked deck ["ppt"; "slideMasters"] "slideMaster1.xml" ("rId" ++ decn n) "slideLayout" (layout_path n) (slide_layout_xml n).
  Proof.
    intros H. exists (Rel ("rId" ++ decn n) (doc_rel "slideLayout") ("../slideLayouts/slideLayout" ++ decn n ++ ".xml") ""). split; [eexists; eexists; split; [apply in_master_rels|split; [apply master_rels_read|]]|].
    - apply in_or_app. left. apply (in_map (fun k => Rel ("rId" ++ decn k) (doc_rel "slideLayout") ("../slideLayouts/slideLayout" ++ decn k ++ ".xml") "")). apply in_seq. lia.
    - repeat split; [|now apply in_layout]. cbn [rel_target]. apply (leads_num ["ppt"] "slideMasters" "slideLayouts" "slideLayout" ".xml"); [now apply is_nameb_ok|now apply is_nameb_ok|reflexivity|reflexivity].
  Qed.
  Lemma layout_range l : 1 <= layout_number l <= 7.
  Proof. destruct l; cbn; lia. Qed.
  Context (i : nat) (s : slide) (H : nth_error slides i = Some s) (OK : deck_slide_ok s = true) (ST : stored s = true).
  Lemma layout_chain : match ps_print p with Some q => footer_ok q | None => true end = true ->
    exists rels rel f c x m y, relations deck ["ppt"; "slides"] ("slide" ++ decn (i + 1) ++ ".xml") rels /\ rels_kind "slideLayout" rels = [rel]
      /\ linked deck ["ppt"; "slides"] ("slide" ++ decn (i + 1) ++ ".xml") (rel_id rel) "slideLayout" (path ["ppt"; "slideLayouts"; f]) c
      /\ xml_read c = Some x /\ is_layout (s_layout s) x
      /\ linked deck ["ppt"; "slideLayouts"] f "rId1" "slideMaster" "ppt/slideMasters/slideMaster1.xml" m /\ xml_read m = Some y
      /\ exists e, In e (at_path ["p:sldLayoutIdLst"; "p:sldLayoutId"] y) /\ linked deck ["ppt"; "slideMasters"] "slideMaster1.xml" (attr "r:id" e) "slideLayout" (path ["ppt"; "slideLayouts"; f]) c.
  Proof.
    intros F. destruct (layout_reads (s_layout s)) as (x & X1 & X2). set (n := layout_number (s_layout s)) in *. pose proof (layout_range (s_layout s)) as N. fold n in N.
    assert (RR : relations deck ["ppt"; "slides"] ("slide" ++ decn (i + 1) ++ ".xml") (my_rels slides i s)).
    { destruct (rels_read (statics_of p r) title slides (settings_of p) i s H OK ST) as (xml & I & E). exists xml. split; [|exact E].
      replace (path _) with (slide_rels_path (i + 1)); [exact I|]. unfold slide_rels_path, path. cbn [app sjoin append]. now rewrite !sapp_assoc. }
    assert (PL : forall f, path ["ppt"; "slideLayouts"; f] = ("ppt/slideLayouts/" ++ f)%string) by reflexivity.
    set (rel := Rel "rId1" (doc_rel "slideLayout") ("../slideLayouts/slideLayout" ++ decn n ++ ".xml") "").
    exists (my_rels slides i s), rel, ("slideLayout" ++ decn n ++ ".xml"), (slide_layout_xml n), x, (written_master (ps_print p)), (tnode (masterT (ps_print p))).
    split; [exact RR|]. split.
    { unfold my_rels, slide_rel_list, rels_kind. rewrite !filter_app. fold n.
      assert (Z : forall {A} (f : A -> OpcSpec.rel) l, (forall a, String.eqb (rel_type (f a)) (doc_rel "slideLayout") = false) -> filter (fun r => String.eqb (rel_type r) (doc_rel "slideLayout")) (map f l) = []).
      { intros A f l Q. induction l as [|a l IH]; [reflexivity|]. cbn [map filter]. rewrite Q. exact IH. }
      rewrite (Z _ (image_rel _)), (Z _ chart_rel) by (intros a; reflexivity).
      rewrite (Z _ link_rel) by (intros a; reflexivity). destruct (has_notes s), (s_ink s); reflexivity. }
    split.
    { exists rel. split; [destruct RR as (xml & I & E); exists xml, (my_rels slides i s); split; [exact I|split; [exact E|now left]]|].
      repeat split; [|now apply in_layout]. cbn [rel_target]. apply (leads_num ["ppt"] "slides" "slideLayouts" "slideLayout" ".xml"); [now apply is_nameb_ok|now apply is_nameb_ok|reflexivity|reflexivity]. }
    split; [exact X1|]. split; [exact X2|]. split; [now apply layout_to_master|]. split; [now apply master_read|].
    pose proof (master_list (ps_print p)) as ML. pose proof (master_to_layout n N) as MT.
    assert (E : exists e, In e (at_path ["p:sldLayoutIdLst"; "p:sldLayoutId"] (tnode (masterT (ps_print p)))) /\ attr "r:id" e = ("rId" ++ decn n)%string).
    { revert ML. generalize (at_path ["p:sldLayoutIdLst"; "p:sldLayoutId"] (tnode (masterT (ps_print p)))). intros es ML.
      assert (I : In ("rId" ++ decn n)%string (map (fun e => attr "r:id" e) es)).
      { rewrite <- (map_map (fun e => (attr "id" e, attr "r:id" e)) snd), ML. unfold n. destruct (s_layout s); cbn; auto 10. }
      apply in_map_iff in I. destruct I as (e & E & I). now exists e. }
    destruct E as (e & I & E). exists e. split; [exact I|]. rewrite E. exact MT.
  Qed.
End LINK.

(** ** What print settings reach *)
Section PRINT.
  Context (r : rest) (title : string) (slides : list slide).
  Lemma handout_family p : family "ppt/handoutMasters/handoutMaster1.xml" (generate r title slides p)
    = match ps_print p with
      | Some q => match pr_what q with PrintHandouts => [("ppt/handoutMasters/handoutMaster1.xml", handout_master_xml q)] | _ => [] end
      | None => []
      end.
  Proof.
    unfold generate, create_pptx_with_settings. rewrite deck_blocks.
    rewrite (entries_family "ppt/handoutMasters/handoutMaster1.xml" _ _ 2 (blocks_heads _ _ _ _ _) eq_refl eq_refl eq_refl). cbn [snd].
    unfold settings_of. cbn [st_handout]. destruct (ps_print p) as [q|] eqn:E; [|reflexivity]. destruct (pr_what q) eqn:W; try reflexivity.
    unfold write_handout_master, statics_of. rewrite E. reflexivity.
  Qed.
End PRINT.
