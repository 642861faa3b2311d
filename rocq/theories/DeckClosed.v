(** Lemmas: every relationship of a generated deck leads to a part. *)
From Coq Require Import String Ascii List Bool Arith NArith Lia.
From Verif Require Import Str Num XmlSpec XmlProofs XmlTpl OpcSpec GenModel GenProofs FontsModel FontsSpec PresProofs TypesProofs ChartModel ShapeModel SlideModel DeckModel ResolveSpec ResolveModel ResolveProofs DeckSpec DeckInput DeckParts DeckWhole DeckRels.
Import ListNotations.
Open Scope nat_scope.
Open Scope string_scope.
Local Open Scope list_scope.

Lemma leads_walk dir t : leads dir t (path (fold_left step (split_char "/" t) dir)).
Proof.
  exists (split_char "/" t), (fold_left step (split_char "/" t) dir). split; [apply split_segments|]. split; [|reflexivity].
  apply fold_walks. apply (segments_noslash t). apply split_segments.
Qed.
(** The directory of a relationship part, by its name. *)
Definition rels_view (n : string) : option (list string) :=
  match rev (split_char "/" n) with _ :: g :: d => if String.eqb g "_rels" then Some (rev d) else None | _ => None end.
Lemma split_path l : l <> [] -> Forall (fun x => noslash x = true) l -> split_char "/" (path l) = l.
Proof. intros N F. apply segments_split. now apply join_segments. Qed.
Lemma view_path d x y : Forall (fun x => noslash x = true) d -> noslash x = true -> noslash y = true -> rels_view (path (d ++ [x; y])) = if String.eqb x "_rels" then Some d else None.
Proof.
  intros D A B. unfold rels_view. rewrite split_path.
  - rewrite rev_app_distr. cbn [rev app]. now rewrite rev_involutive.
  - now destruct d.
  - apply Forall_app. split; [exact D|]. now repeat constructor.
Qed.
Lemma view_rels dir f : Forall name dir -> noslash f = true -> rels_view (path (dir ++ ["_rels"; (f ++ ".rels")%string])) = Some dir.
Proof. intros D F. rewrite view_path; [reflexivity|now apply names_noslash|reflexivity|]. rewrite sforall_app, F. reflexivity. Qed.
Lemma digits_noslash k : noslash (decn k) = true.
Proof. apply (sforall_weaken is_digit); [|apply dec_digits]. intros a. destruct (Ascii.eqb_spec a "/") as [->|]; [discriminate|reflexivity]. Qed.
Lemma view_num d x pre post k : Forall (fun x => noslash x = true) d -> noslash x = true -> noslash pre = true -> noslash post = true ->
  rels_view (path (d ++ [x; (pre ++ decn k ++ post)%string])) = if String.eqb x "_rels" then Some d else None.
Proof. intros D A B C. apply view_path; [exact D|exact A|]. rewrite !sforall_app, B, C. cbn [andb]. rewrite andb_true_r. apply digits_noslash. Qed.

Section C.
  Context (X : statics) (title : string) (count : nat) (custom : option (list slide)) (st : settings).
  Notation deck := (write_package_files X title count custom st).
  Definition has (n : string) : Prop := exists c, In (n, c) deck.
  Definition closed_in (d : list (string * string)) (e : entry) : Prop := match rels_view (fst e) with Some dir => closed_at d dir (snd e) | None => True end.
  Notation closed := (closed_in deck).
  Lemma has_block k b n : nth_error (blocks X title count custom st) k = Some b -> In n (map fst (snd b)) -> has n.
  Proof. intros K N. apply in_map_iff in N. destruct N as ([m c] & <- & I). exists c. exact (in_block X title count custom st k b _ K I). Qed.
  Lemma has_first n : In n first_names -> has n.
  Proof. exact (has_block 0 _ n eq_refl). Qed.
  Lemma has_standard n : In n ["ppt/presProps.xml"; "ppt/viewProps.xml"; "ppt/tableStyles.xml"] -> has n.
  Proof. exact (has_block 1 _ n eq_refl). Qed.
  Lemma has_handout n : st_handout st = true -> In n handout_names -> has n.
  Proof. intros H I. apply (has_block 2 _ n eq_refl). cbn [snd]. rewrite H. exact I. Qed.
  Lemma has_master n : deck_notes custom = true -> In n master_names -> has n.
  Proof. intros H I. apply (has_block 6 _ n eq_refl). cbn [snd]. rewrite H. exact I. Qed.
  Lemma has_theme n : In n theme_names -> has n.
  Proof. exact (has_block 7 _ n eq_refl). Qed.
  Lemma has_props n : In n ["docProps/core.xml"; "docProps/app.xml"] -> has n.
  Proof. exact (has_block 8 _ n eq_refl). Qed.
  Lemma has_sig n : st_signature st = true -> In n ["_xmlsignatures/origin.sigs"; "_xmlsignatures/sig1.xml"] -> has n.
  Proof. intros H I. apply (has_block 12 _ n eq_refl). cbn [snd]. rewrite H. exact I. Qed.
  Lemma has_font f : In f (st_fonts st) -> has (part_name f).
  Proof. intros H. apply (has_block 11 _ _ eq_refl). cbn [snd]. unfold write_fonts. rewrite map_map. now apply (in_map part_name). Qed.
  Lemma has_num p pre post l k : family p deck = numF 1 pre post l -> 1 <= k <= length l -> has (pre ++ decn k ++ post).
  Proof.
    intros F K. destruct (nth_error l (k - 1)) as [c|] eqn:E; [|apply nth_error_None in E; lia]. exists c. apply (family_In p). rewrite F. replace k with (1 + (k - 1)) by lia. now apply numF_nth.
  Qed.
  Lemma has_slide k : 1 <= k <= length (slide_contents count custom) -> has (slide_path k).
  Proof. exact (has_num _ _ _ _ k (deck_slide_parts X title count custom st)). Qed.
  Lemma has_sheet k : 1 <= k <= length (all_charts (deck_slides custom)) -> has (embedding_path k).
  Proof. intros K. apply (has_num _ _ _ _ k (deck_sheets X title count custom st)). now rewrite map_length. Qed.
  Lemma has_notes_part k : 1 <= k <= length (notes_contents custom) -> has (notes_path k).
  Proof. exact (has_num _ _ _ _ k (deck_notes_parts X title count custom st)). Qed.

  (** Relative references that are all literal. *)
  Definition ref_ok (dir : list string) (t : string) : Prop := has (path (fold_left step (split_char "/" t) dir)).
  Lemma closed_list dir xml l : rels_of xml = Some l -> (forall r, In r l -> rel_mode r = "" -> ref_ok dir (rel_target r)) -> closed_at deck dir xml.
  Proof. intros E F. exists l. split; [exact E|]. intros r R M. destruct (F r R M) as [c C]. exists (path (fold_left step (split_char "/" (rel_target r)) dir)), c. split; [apply leads_walk|exact C]. Qed.
  Ltac lit := unfold ref_ok; cbn [rel_target]; match goal with |- has ?n => let v := eval vm_compute in n in change (has v) end.
  Lemma closed_first : (count <= length (slide_contents count custom)) -> forallb font_ok (st_fonts st) = true -> Forall (fun f => noslash (f_typeface f) = true) (st_fonts st) ->
    forall e, In e (first_parts count custom st) -> closed e.
  Proof.
    intros CS FO FN e [<-|[<-|[<-|[<-|[]]]]]; [exact I| | |exact I]; unfold closed_in; cbn [fst snd].
    - change (rels_view "_rels/.rels") with (Some (@nil string)). cbv iota. destruct (st_signature st) eqn:S.
      + eapply closed_list; [vm_compute; reflexivity|]. intros r R _. cbn [In] in R. destruct R as [<-|[<-|[<-|[<-|[]]]]]; lit; [apply has_first|apply has_props|apply has_props|apply has_sig; [exact S|]]; cbn; auto.
      + eapply closed_list; [vm_compute; reflexivity|]. intros r R _. cbn [In] in R. destruct R as [<-|[<-|[<-|[]]]]; lit; [apply has_first|apply has_props|apply has_props]; cbn; auto.
    - change (rels_view "ppt/_rels/presentation.xml.rels") with (Some ["ppt"]). cbv iota. eapply closed_list; [apply presentation_rels_read; exact FO|]. intros r R _.
      apply in_app_or in R. destruct R as [[<-|R]|R].
      + lit. apply has_theme. cbn. auto 20.
      + apply in_app_or in R. destruct R as [R|R].
        * apply in_map_iff in R. destruct R as (k & <- & K). apply in_seq in K. cbn [rel_target]. unfold ref_ok.
          change ("slides/slide" ++ decn k ++ ".xml")%string with (path ["slides"; ("slide" ++ decn k ++ ".xml")%string]).
          assert (N : name ("slide" ++ decn k ++ ".xml")) by (apply name_num; [now apply is_nameb_ok|reflexivity|reflexivity]).
          rewrite split_path; [|discriminate|constructor; [reflexivity|constructor; [apply N|constructor]]]. cbn [fold_left]. rewrite (step_name ["ppt"] "slides"), step_name by (try exact N; now apply is_nameb_ok).
          apply (has_slide k). lia.
        * apply in_app_or in R. destruct R as [R|R]; [destruct (deck_notes custom) eqn:DN; [|destruct R]; destruct R as [<-|[]]; lit; apply has_master; [exact DN|cbn; auto]|].
          apply in_app_or in R. destruct R as [R|R]; [destruct (st_handout st) eqn:DH; [|destruct R]; destruct R as [<-|[]]; lit; apply has_handout; [exact DH|cbn; auto]|].
          destruct R as [<-|[<-|[<-|[<-|[]]]]]; lit; [apply has_standard|apply has_standard|apply has_theme|apply has_standard]; cbn; auto 20.
      + apply in_map_iff in R. destruct R as (f & <- & F). cbn [rel_target font_rel]. unfold ref_ok.
        assert (G : exists g, In g (st_fonts st) /\ f_typeface g = f_typeface f /\ f_style g = f_style f).
        { unfold prepare_fonts, assign_relationship_ids in F. apply in_map_iff in F. destruct F as ([k g] & <- & F). unfold enumerate in F. apply in_combine_r in F. exists g. split; [exact F|]. unfold assign_one. destruct (String.eqb (f_rid g) ""); auto. }
        destruct G as (g & G & T & S). assert (N : name (replace_char " " "" (f_typeface f) ++ "-" ++ xml_element (f_style f) ++ ".fntdata")).
        { rewrite Forall_forall in FN. specialize (FN g G). rewrite T in FN. set (q := replace_char " " "" (f_typeface f)).
          assert (Q : noslash q = true). { subst q. clear -FN. revert FN. unfold replace_char. induction (f_typeface f) as [|c t IH]; [reflexivity|]. cbn [sforall smap]. intros H. apply andb_true_iff in H. rewrite sforall_app, (IH (proj2 H)), andb_true_r. destruct (Ascii.eqb c " "); [reflexivity|]. cbn [s1 sforall]. now rewrite (proj1 H). }
          repeat split.
          - destruct q; discriminate.
          - destruct q as [|c q]; [destruct (f_style f); discriminate|]. cbn. intros E. injection E as _ E. destruct q; discriminate.
          - destruct q as [|c [|c2 q]]; [destruct (f_style f); discriminate| |]; cbn; intros E; injection E as E1 E2; [|destruct q; discriminate]. destruct (f_style f); discriminate.
          - rewrite !sforall_app, Q. now destruct (f_style f). }
        unfold rel_target_of. change ("fonts/" ++ replace_char " " "" (f_typeface f) ++ "-" ++ xml_element (f_style f) ++ ".fntdata")%string with (path ["fonts"; (replace_char " " "" (f_typeface f) ++ "-" ++ xml_element (f_style f) ++ ".fntdata")%string]).
        rewrite split_path; [|discriminate|constructor; [reflexivity|constructor; [apply N|constructor]]]. cbn [fold_left]. rewrite (step_name ["ppt"] "fonts"), step_name by (try exact N; now apply is_nameb_ok).
        pose proof (has_font g G) as HG. unfold part_name in HG. rewrite T, S in HG. exact HG.
  Qed.
  Lemma closed_handout e : st_handout st = true -> In e (write_handout_master X) -> closed e.
  Proof.
    intros S [<-|[<-|[<-|[]]]]; [exact I|exact I|]. unfold closed_in. cbn [fst snd]. change (rels_view _) with (Some ["ppt"; "handoutMasters"]). cbv iota.
    eapply closed_list; [vm_compute; reflexivity|]. intros r R _. cbn [In] in R. destruct R as [<-|[]]. lit. apply has_handout; [exact S|cbn; auto].
  Qed.
  Lemma closed_master e : deck_notes custom = true -> In e (write_notes_master X) -> closed e.
  Proof.
    intros S [<-|[<-|[<-|[]]]]; [exact I|exact I|]. unfold closed_in. cbn [fst snd]. change (rels_view _) with (Some ["ppt"; "notesMasters"]). cbv iota.
    eapply closed_list; [vm_compute; reflexivity|]. intros r R _. cbn [In] in R. destruct R as [<-|[]]. lit. apply has_master; [exact S|cbn; auto].
  Qed.
  Lemma closed_theme e : In e (write_theme_and_layouts X) -> closed e.
  Proof.
    intros H. apply in_app_or in H. destruct H as [H|[<-|[<-|[<-|[]]]]]; [|exact I| |exact I].
    - assert (L : closed_at deck ["ppt"; "slideLayouts"] layout_rels_xml).
      { eapply closed_list; [vm_compute; reflexivity|]. intros r R _. cbn [In] in R. destruct R as [<-|[]]. lit. apply has_theme. cbn. auto 20. }
      apply in_flat_map in H. destruct H as (n & N & H). apply in_seq in N. unfold standard_layout_count in N. destruct H as [<-|[<-|[]]]; unfold closed_in; cbn [fst snd].
      + replace (rels_view (layout_path n)) with (@None (list string)); [exact I|]. symmetry. apply (view_num ["ppt"] "slideLayouts" "slideLayout" ".xml"); [now repeat constructor|reflexivity..].
      + replace (rels_view (layout_rels_path n)) with (Some ["ppt"; "slideLayouts"]); [exact L|]. symmetry. apply (view_num ["ppt"; "slideLayouts"] "_rels" "slideLayout" ".xml.rels"); [now repeat constructor|reflexivity..].
    - unfold closed_in. cbn [fst snd]. change (rels_view _) with (Some ["ppt"; "slideMasters"]). cbv iota.
      eapply closed_list; [vm_compute; reflexivity|]. intros r R _. cbn [In] in R. repeat (destruct R as [<-|R]; [lit; apply has_theme; cbn; auto 20|]). destruct R.
  Qed.
  (** Numbered relationship parts. *)
  Lemma closed_nums (P : nat -> string -> Prop) d pre l : Forall (fun x => noslash x = true) d -> noslash pre = true ->
    (forall k c, nth_error l k = Some c -> P (1 + k) c) -> (forall k c, P k c -> closed_at deck d c) ->
    forall e, In e (numF 1 (path (d ++ ["_rels"; pre])) ".xml.rels" l) -> closed e.
  Proof.
    intros D N A B e E. apply numF_In in E. destruct E as (k & c & K & ->). unfold closed_in. cbn [fst snd].
    replace (path (d ++ ["_rels"; pre]) ++ decn (1 + k) ++ ".xml.rels")%string with (path (d ++ ["_rels"; (pre ++ decn (1 + k) ++ ".xml.rels")%string])).
    - rewrite view_num by (auto; reflexivity). cbn [String.eqb]. apply (B (1 + k)). now apply A.
    - unfold path. clear. induction d as [|x d IH]; [cbn [app sjoin append]; now rewrite ?sapp_assoc|]. destruct d; cbn [app sjoin] in *; rewrite ?IH, ?sapp_assoc; reflexivity.
  Qed.
  Lemma closed_plain (pre : string) d x post l k0 : Forall (fun x => noslash x = true) d -> noslash x = true -> noslash pre = true -> noslash post = true -> x <> "_rels" ->
    forall e, In e (numF k0 (path (d ++ [x; pre])) post l) -> closed e.
  Proof.
    intros D A N B Q e E. apply numF_In in E. destruct E as (k & c & K & ->). unfold closed_in. cbn [fst snd].
    replace (path (d ++ [x; pre]) ++ decn (k0 + k) ++ post)%string with (path (d ++ [x; (pre ++ decn (k0 + k) ++ post)%string])).
    - rewrite view_num by auto. destruct (String.eqb_spec x "_rels"); [contradiction|exact I].
    - unfold path. clear. induction d as [|y d IH]; [cbn [app sjoin append]; now rewrite ?sapp_assoc|]. destruct d; cbn [app sjoin] in *; rewrite ?IH, ?sapp_assoc; reflexivity.
  Qed.
  Lemma closed_notes_rels : length (slide_contents count custom) = count -> count >= length (deck_slides custom) -> forall e, In e (numF 1 P_nrels ".xml.rels" (notes_rels custom)) -> closed e.
  Proof.
    intros L C. change P_nrels with (path (["ppt"; "notesSlides"] ++ ["_rels"; "notesSlide"])).
    apply (closed_nums (fun _ c => deck_notes custom = true /\ exists i, i < length (deck_slides custom) /\ c = create_notes_rels_xml (i + 1))); [now repeat constructor|reflexivity| |].
    - intros k c K. apply nth_error_In in K. unfold notes_rels in K. apply in_flat_map in K. destruct K as ([i s] & I & K). unfold notes_link in K. cbn [fst snd] in K. destruct (has_notes s) eqn:N; [|destruct K]. destruct K as [<-|[]]. split.
      + unfold deck_notes. apply existsb_exists. exists s. split; [|exact N]. now apply in_combine_r in I.
      + exists i. split; [|reflexivity]. apply in_combine_l in I. apply in_seq in I. lia.
    - intros _ c [DN (i & I & ->)]. eapply closed_list; [apply notes_rels_read|]. intros r [<-|[<-|[]]] _; cbn [rel_target].
      + unfold ref_ok. change ("../slides/slide" ++ decn (i + 1) ++ ".xml")%string with (path [".."; "slides"; ("slide" ++ decn (i + 1) ++ ".xml")%string]).
        assert (N : name ("slide" ++ decn (i + 1) ++ ".xml")) by (apply name_num; [now apply is_nameb_ok|reflexivity|reflexivity]).
        rewrite split_path; [|discriminate|constructor; [reflexivity|constructor; [reflexivity|constructor; [apply N|constructor]]]]. cbn [fold_left].
        change (step ["ppt"; "notesSlides"] "..") with ["ppt"]. rewrite (step_name ["ppt"] "slides"), step_name by (try exact N; now apply is_nameb_ok). apply (has_slide (i + 1)). lia.
      + lit. apply has_master; [exact DN|cbn; auto].
  Qed.
  Lemma closed_charts e : In e (write_slide_charts X 1 (all_charts (deck_slides custom))) -> closed e.
  Proof.
    intros E. destruct (charts_heads X (all_charts (deck_slides custom)) 1 e E) as (p & x & P & Ex).
    assert (M : In e (family p (write_slide_charts X 1 (all_charts (deck_slides custom))))) by (apply filter_In; split; [exact E|rewrite Ex; apply starts_self]).
    destruct P as [<-|[<-|[<-|[]]]].
    - rewrite charts_charts in M. change P_chart with (path (["ppt"] ++ ["charts"; "chart"])) in M. revert M. apply closed_plain; [now repeat constructor|reflexivity..|discriminate].
    - rewrite charts_rels in M. change P_crels with (path (["ppt"; "charts"] ++ ["_rels"; "chart"])) in M. revert M.
      apply (closed_nums (fun k c => 1 <= k <= length (all_charts (deck_slides custom)) /\ c = create_chart_rels_xml (chart_embedding_filename k))); [now repeat constructor|reflexivity| |].
      + intros k c K. assert (k < length (all_charts (deck_slides custom))). { apply nth_error_Some. intros N. apply nth_error_None in N. assert (nth_error (map (fun j => create_chart_rels_xml (chart_embedding_filename j)) (seq 1 (length (all_charts (deck_slides custom))))) k = None) by (apply nth_error_None; now rewrite map_length, seq_length). congruence. }
        split; [lia|]. rewrite (map_nth_error (fun j => create_chart_rels_xml (chart_embedding_filename j)) k (seq 1 (length (all_charts (deck_slides custom)))) (d := 1 + k)) in K; [now injection K|]. rewrite (nth_error_nth' _ 0) by (now rewrite seq_length). now rewrite seq_nth.
      + intros k c [K ->]. eapply closed_list; [apply chart_rels_read|]. intros r [<-|[]] _. cbn [rel_target]. unfold ref_ok.
        change ("../embeddings/Microsoft_Excel_Sheet" ++ decn k ++ ".xlsx")%string with (path [".."; "embeddings"; ("Microsoft_Excel_Sheet" ++ decn k ++ ".xlsx")%string]).
        assert (N : name ("Microsoft_Excel_Sheet" ++ decn k ++ ".xlsx")) by (apply name_num; [now apply is_nameb_ok|reflexivity|reflexivity]).
        rewrite split_path; [|discriminate|constructor; [reflexivity|constructor; [reflexivity|constructor; [apply N|constructor]]]]. cbn [fold_left].
        change (step ["ppt"; "charts"] "..") with ["ppt"]. rewrite (step_name ["ppt"] "embeddings"), step_name by (try exact N; now apply is_nameb_ok). apply (has_sheet k K).
    - rewrite charts_sheets in M. change P_sheet with (path (["ppt"] ++ ["embeddings"; "Microsoft_Excel_Sheet"])) in M. revert M. apply closed_plain; [now repeat constructor|reflexivity..|discriminate].
  Qed.
End C.

Section W.
  Context (X : statics) (title : string) (count : nat) (custom : option (list slide)) (st : settings).
  Notation deck := (write_package_files X title count custom st).
  Notation closed := (closed_in deck).
  Lemma ref_up d x f pre post k n : is_nameb x = true -> is_nameb f = true -> is_nameb pre = true -> noslash post = true -> starts_with "." pre = false ->
    n = path (d ++ [f; (pre ++ decn k ++ post)%string]) -> (exists c, In (n, c) deck) -> ref_ok X title count custom st (d ++ [x]) (path [".."; f; (pre ++ decn k ++ post)%string]).
  Proof.
    intros A B C D E -> H. unfold ref_ok. assert (N : name (pre ++ decn k ++ post)) by (apply name_num; [now apply is_nameb_ok|exact D|exact E]).
    rewrite split_path; [|discriminate|constructor; [reflexivity|constructor; [now apply is_nameb_ok|constructor; [apply N|constructor]]]]. cbn [fold_left].
    replace (step (d ++ [x]) "..") with d by (unfold step; cbn; now rewrite removelast_last). rewrite (step_name d f), step_name by (try exact N; now apply is_nameb_ok).
    rewrite <- app_assoc. exact H.
  Qed.
End W.
Section S.
  Context (X : statics) (title : string) (slides : list slide) (st : settings).
  Notation deck := (create_pptx_with_settings X title slides st).
  Notation reg := (build_media_registry slides).
  Notation ref := (ref_ok X title (length slides) (Some slides) st).
  Lemma closed_slide i s : nth_error slides i = Some s -> exts_ok s = true -> links_ok s = true -> ext_names s = true -> forallb (link_lands (length slides)) (slide_links s) = true ->
    closed_at deck ["ppt"; "slides"] (eager_rels reg (notes_before slides i) (inks_before slides i) (charts_before slides i + 1) s).
  Proof.
    intros H E L EN LL. apply (closed_list X title (length slides) (Some slides) st _ _ _ (eager_rels_read _ _ _ _ s E L)). intros r R M. apply in_app_or in R. destruct R as [[<-|[]]|R].
    { apply (ref_up X title (length slides) (Some slides) st ["ppt"] "slides" "slideLayouts" "slideLayout" ".xml" (layout_number (s_layout s)) _ eq_refl eq_refl eq_refl eq_refl eq_refl eq_refl).
      apply (has_theme X title (length slides) (Some slides) st). unfold theme_names. destruct (s_layout s); cbn; auto 20. }
    apply in_app_or in R. destruct R as [R|R].
    { destruct (has_notes s) eqn:N; [|destruct R]. destruct R as [<-|[]]. destruct (s_notes s) as [t|] eqn:T; [|unfold has_notes in N; rewrite T in N; discriminate].
      apply (ref_up X title (length slides) (Some slides) st ["ppt"] "slides" "notesSlides" "notesSlide" ".xml" (notes_before slides i + 1) _ eq_refl eq_refl eq_refl eq_refl eq_refl eq_refl).
      eexists. apply (notes_in X title slides st i s H t T). }
    apply in_app_or in R. destruct R as [R|R].
    { apply in_map_iff in R. destruct R as ([k [n e]] & <- & R). unfold enumerate in R. apply in_combine_r in R. unfold slide_image_rel_targets in R. apply in_flat_map in R. destruct R as (m & Mi & R).
      destruct (im_bytes m) as [b|] eqn:B; [|destruct R]. destruct (In_nth_error _ _ Mi) as [q Q]. destruct (media_number slides i s H q m b Q B) as (p & P1 & P2). rewrite P1 in R. destruct R as [R|[]]. injection R as <- <-.
      unfold ext_names in EN. rewrite forallb_forall in EN. specialize (EN m Mi).
      apply (ref_up X title (length slides) (Some slides) st ["ppt"] "slides" "media" "image" ("." ++ im_ext m) (p + 1) _ eq_refl eq_refl eq_refl EN eq_refl eq_refl).
      eexists. apply (media_in X title slides st p b (im_ext m) P2). }
    apply in_app_or in R. destruct R as [R|R].
    { apply in_map_iff in R. destruct R as (p & <- & R). apply in_map_iff in R. destruct R as (j & <- & R). apply in_seq in R. cbn [chart_rel snd rel_target].
      destruct (nth_error (s_charts s) j) as [c|] eqn:C; [|apply nth_error_None in C; lia].
      apply (ref_up X title (length slides) (Some slides) st ["ppt"] "slides" "charts" "chart" ".xml" (charts_before slides i + 1 + j) _ eq_refl eq_refl eq_refl eq_refl eq_refl eq_refl).
      replace (charts_before slides i + 1 + j) with (charts_before slides i + j + 1) by lia. eexists. apply (chart_in X title slides st i s H j c C). }
    apply in_app_or in R. destruct R as [R|R].
    { destruct (s_ink s) eqn:K; [|destruct R]. destruct R as [<-|[]].
      apply (ref_up X title (length slides) (Some slides) st ["ppt"] "slides" "ink" "ink" ".xml" (inks_before slides i + 1) _ eq_refl eq_refl eq_refl eq_refl eq_refl eq_refl).
      eexists. apply (ink_in X title slides st i s H K). }
    apply in_map_iff in R. destruct R as (p & <- & R). rewrite forallb_forall in LL. specialize (LL p R). unfold link_lands in LL. unfold link_rel in *. cbn [rel_mode rel_target] in *.
    destruct (h_action (fst p)); cbn [is_external] in M; try discriminate. apply andb_true_iff in LL. destruct LL as [K1 K2]. apply N.leb_le in K1, K2. cbn [relationship_target].
    rewrite <- (N2Nat.id n). fold (decn (N.to_nat n)). set (k := N.to_nat n).
    assert (K : 1 <= k <= length slides) by (subst k; lia). clearbody k.
    unfold ref_ok. assert (NN : name ("slide" ++ decn k ++ ".xml")) by (apply name_num; [now apply is_nameb_ok|reflexivity|reflexivity]).
    change ("slide" ++ decn k ++ ".xml")%string with (path ["slide" ++ decn k ++ ".xml"])%string. rewrite split_path; [|discriminate|constructor; [apply NN|constructor]]. cbn [fold_left]. rewrite step_name by exact NN.
    apply (has_slide X title (length slides) (Some slides) st k). cbn [slide_contents]. now rewrite map_length.
  Qed.
  Lemma closed_slide_rels : deck_ok slides st = true -> forall e, In e (numF 1 P_rels ".xml.rels" (rels_list reg 0 0 0 slides)) -> closed_in deck e.
  Proof.
    intros OK. change P_rels with (path (["ppt"; "slides"] ++ ["_rels"; "slide"])).
    apply (closed_nums X title (length slides) (Some slides) st (fun k c => exists i s, nth_error slides i = Some s /\ c = eager_rels reg (notes_before slides i) (inks_before slides i) (charts_before slides i + 1) s)); [now repeat constructor|reflexivity| |].
    - intros k c K. assert (A : k < length slides) by (rewrite <- (rels_list_length reg slides 0 0 0); apply nth_error_Some; congruence). destruct (nth_error slides k) as [s|] eqn:S; [|apply nth_error_None in S; lia].
      exists k, s. split; [exact S|]. rewrite (rels_list_nth reg slides 0 0 0 k s S) in K. injection K as <-. reflexivity.
    - intros k c (i & s & S & ->). unfold deck_ok in OK. apply andb_true_iff in OK. destruct OK as [OK _]. rewrite forallb_forall in OK. specialize (OK s (nth_error_In _ _ S)). rewrite !andb_true_iff in OK.
      apply closed_slide; tauto.
  Qed.
End S.
Section V.
  Context (X : statics) (title : string) (count : nat) (custom : option (list slide)) (st : settings).
  Notation deck := (write_package_files X title count custom st).
  Notation closed := (closed_in deck).
  Lemma closed_slides_block e : In e (slides_block X count custom) -> closed e.
  Proof.
    intros E. destruct (slides_block_heads X count custom e E) as (p & x & P & Ex).
    assert (M : In e (family p (slides_block X count custom))) by (apply filter_In; split; [exact E|rewrite Ex; apply starts_self]).
    rewrite <- (slides_family X title count custom st p P) in M. destruct P as [<-|[<-|[<-|[]]]].
    - rewrite deck_ink_parts in M. change P_ink with (path (["ppt"] ++ ["ink"; "ink"])) in M. revert M. apply closed_plain; [now repeat constructor|reflexivity..|discriminate].
    - rewrite deck_slide_parts in M. change P_slide with (path (["ppt"] ++ ["slides"; "slide"])) in M. revert M. apply closed_plain; [now repeat constructor|reflexivity..|discriminate].
    - rewrite deck_notes_parts in M. change P_notes with (path (["ppt"] ++ ["notesSlides"; "notesSlide"])) in M. revert M. apply closed_plain; [now repeat constructor|reflexivity..|discriminate].
  Qed.
  Lemma closed_image e : forallb ext_names (deck_slides custom) = true -> In e (write_images (deck_reg custom)) -> closed e.
  Proof.
    intros EN E. unfold write_images in E. apply in_map_iff in E. destruct E as ([k [b x]] & <- & E). unfold enumerate in E. apply in_combine_r in E. unfold deck_reg in E. rewrite registry_eq, uniques_In in E. unfold all_media in E.
    apply in_flat_map in E. destruct E as (s & S & E). apply in_flat_map in E. destruct E as (m & M & E). unfold media_of in E. destruct (im_bytes m); [|destruct E]. destruct E as [E|[]]. injection E as -> <-.
    rewrite forallb_forall in EN. specialize (EN s S). unfold ext_names in EN. rewrite forallb_forall in EN. specialize (EN m M). unfold closed_in. cbn [fst snd].
    replace (rels_view (media_path (k + 1) (im_ext m))) with (@None (list string)); [exact I|]. symmetry.
    apply (view_num ["ppt"] "media" "image" ("." ++ im_ext m)); [now repeat constructor|reflexivity|reflexivity|exact EN].
  Qed.
  Lemma closed_font e : Forall (fun f => noslash (f_typeface f) = true) (st_fonts st) -> In e (write_fonts (st_fonts st)) -> closed e.
  Proof.
    intros FN E. unfold write_fonts in E. apply in_map_iff in E. destruct E as (f & <- & E). rewrite Forall_forall in FN. specialize (FN f E). unfold closed_in. cbn [fst snd].
    replace (rels_view (part_name f)) with (@None (list string)); [exact I|]. symmetry. apply (view_path ["ppt"] "fonts"); [now repeat constructor|reflexivity|]. rewrite !sforall_app.
    replace (sforall (fun c => negb (Ascii.eqb c "/")) (replace_char " " "" (f_typeface f))) with true; [now destruct (f_style f)|]. symmetry. unfold replace_char.
    revert FN. induction (f_typeface f) as [|c t IH]; [reflexivity|]. cbn [sforall smap]. intros H. apply andb_true_iff in H. rewrite sforall_app, (IH (proj2 H)), andb_true_r. destruct (Ascii.eqb c " "); [reflexivity|]. cbn [s1 sforall]. now rewrite (proj1 H).
  Qed.
  Definition contents_ok : Prop := length (slide_contents count custom) = count /\ length (deck_slides custom) <= count.
  Lemma closed_all : contents_ok -> forallb font_ok (st_fonts st) = true -> Forall (fun f => noslash (f_typeface f) = true) (st_fonts st) -> forallb ext_names (deck_slides custom) = true ->
    (forall e, In e (numF 1 P_rels ".xml.rels" (slide_rels count custom)) -> closed e) ->
    forall e, In e deck -> closed e.
  Proof.
    intros [CO CL] FO FN EN SR e E. rewrite deck_blocks in E. unfold entries in E. apply in_flat_map in E. destruct E as (b & B & E). unfold blocks in B.
    repeat (destruct B as [<-|B]; [cbn [snd] in E|]); [..|destruct B].
    - apply (closed_first X title count custom st); auto. lia.
    - destruct E as [<-|[<-|[<-|[]]]]; exact I.
    - destruct (st_handout st) eqn:S; [|destruct E]. now apply closed_handout.
    - now apply closed_slides_block.
    - now apply SR.
    - revert E. now apply closed_notes_rels.
    - destruct (deck_notes custom) eqn:S; [|destruct E]. now apply closed_master.
    - now apply closed_theme.
    - destruct E as [<-|[<-|[]]]; exact I.
    - now apply closed_charts.
    - now apply closed_image.
    - now apply closed_font.
    - destruct (st_signature st); [|destruct E]. destruct E as [<-|[<-|[]]]; exact I.
  Qed.
  (** The statement of the theorem follows from the names. *)
  Lemma closed_named dir f xml : (forall e, In e deck -> closed e) -> Forall name dir -> noslash f = true -> In (path (dir ++ ["_rels"; (f ++ ".rels")%string]), xml) deck -> closed_at deck dir xml.
  Proof. intros A D F I. specialize (A _ I). unfold closed_in in A. cbn [fst snd] in A. now rewrite view_rels in A. Qed.
End V.
Lemma deck_closed X title slides st dir f xml : deck_ok slides st = true -> Forall name dir -> noslash f = true ->
  In (path (dir ++ ["_rels"; (f ++ ".rels")%string]), xml) (create_pptx_with_settings X title slides st) -> closed_at (create_pptx_with_settings X title slides st) dir xml.
Proof.
  intros OK. apply closed_named. unfold deck_ok in OK. apply andb_true_iff in OK. destruct OK as [OK1 OK2].
  assert (FO : forallb font_ok (st_fonts st) = true /\ Forall (fun f => noslash (f_typeface f) = true) (st_fonts st)).
  { rewrite forallb_forall in OK2. split; [apply forallb_forall|apply Forall_forall]; intros g G; specialize (OK2 g G); apply andb_true_iff in OK2; tauto. }
  apply closed_all; [|tauto|tauto| |].
  - split; [cbn [slide_contents]; apply map_length|apply le_n].
  - apply forallb_forall. intros s S. rewrite forallb_forall in OK1. specialize (OK1 s S). rewrite !andb_true_iff in OK1. tauto.
  - apply closed_slide_rels. unfold deck_ok. now rewrite OK1, OK2.
Qed.
Lemma plain_closed X title count dir f xml : Forall name dir -> noslash f = true ->
  In (path (dir ++ ["_rels"; (f ++ ".rels")%string]), xml) (create_pptx X title count) -> closed_at (create_pptx X title count) dir xml.
Proof.
  apply closed_named. apply closed_all; [split; [cbn [slide_contents]; now rewrite map_length, seq_length|apply Nat.le_0_l]|reflexivity|constructor|reflexivity|].
  cbn [slide_rels]. change P_rels with (path (["ppt"; "slides"] ++ ["_rels"; "slide"])). apply (closed_nums X title count None _ (fun _ c => c = create_slide_rels_xml)); [now repeat constructor|reflexivity| |].
  - intros k c K. apply nth_error_In, in_map_iff in K. now destruct K as (? & <- & _).
  - intros _ c ->. eapply closed_list; [vm_compute; reflexivity|]. intros r [<-|[]] _. unfold ref_ok. cbn [rel_target]. match goal with |- has _ _ _ _ _ ?n => let v := eval vm_compute in n in change (has X title count None no_settings v) end.
    apply has_theme. cbn. auto 20.
Qed.
