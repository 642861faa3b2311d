(** Sample decks, counterexamples and last lemmas for C13, C14, C15, C17, C45,
    C51 and C52. *)
From Coq Require Import String Ascii List Bool Arith NArith ZArith Lia Permutation.
From Verif Require Import Str Num XmlSpec XmlProofs XmlTpl XmlPath OpcSpec GenModel FontsModel FontsSpec PresProofs TypesProofs ChartModel ShapeModel SlideModel SlideSpec SlideInput SlideWant SlideRefute SlideRead SlideThms DeckModel ResolveSpec ResolveModel ResolveProofs DeckSpec DeckInput DeckParts DeckWhole DeckRels NotesRead DeckTypes DeckThms DeckLinks DeckKindSpec DeckClosed DeckKinds.
Import ListNotations.
Open Scope nat_scope.
Open Scope string_scope.
Local Open Scope list_scope.

Definition pic (b : option string) (e : string) : image := Image "a" 0 0 10 10 None None [] b e.
Definition mixed (links : list (hyperlink * string)) (images : list image) (notes : option string) (charts : list chart) (ink : bool) : slide :=
  Slide "T" [] bullets5 Bullet None None true false false false false None None TitleAndContent NoTransition None
    (map (fun p => Shape KRectangle 5 6 7 8 None None None None None None (Some (Hyperlink (fst p) None false (Some (snd p)))) 0 false) (map (fun p => (h_action (fst p), snd p)) links)) images notes [] charts [] ink.
Definition link (a : action) : hyperlink := Hyperlink a None false None.
Definition deck0 : list slide :=
  [mixed [(link (Url "http://example.org/?a&b"), "rLink")] [pic (Some "one") "png"; pic (Some "two") "jpg"] (Some "Say < this") [chart0] true;
   mixed [] [pic (Some "one") "gif"; pic (Some "one") "png"] None [] false;
   mixed [(link (ToSlide 1), "back")] [] (Some "and this") [chart0; chart0] false].
Definition settings0 : settings := Settings true true [Font "Deja Vu" Regular 1 None 18 "data" ""; Font "Deja Vu" Bold 1 None 18 "data" ""].

Section T.
  Context (X : statics) (title : string) (slides : list slide) (st : settings).
  Notation deck := (create_pptx_with_settings X title slides st).
  Context (i : nat) (s : slide) (H : nth_error slides i = Some s) (OK : deck_slide_ok s = true) (ST : stored s = true).
  Lemma my_tree : shows deck ("ppt/slides/slide" ++ decn (i + 1) ++ ".xml") (tree s).
  Proof. exists (eager_slide s). split; [exact (slide_in X title slides st i s H)|exact (tree_read s OK)]. Qed.
  Lemma my_relations : relations deck ["ppt"; "slides"] ("slide" ++ decn (i + 1) ++ ".xml") (my_rels slides i s).
  Proof.
    destruct (rels_read X title slides st i s H OK ST) as (xml & I & E). exists xml. split; [|exact E].
    replace (path _) with (slide_rels_path (i + 1)); [exact I|]. unfold slide_rels_path, path. cbn [app sjoin append]. now rewrite !sapp_assoc.
  Qed.
  Lemma filter_all {A} (f : A -> bool) l : (forall x, In x l -> f x = true) -> filter f l = l.
  Proof. intros F. induction l as [|x l IH]; [reflexivity|]. cbn. rewrite (F x (or_introl eq_refl)), IH; [reflexivity|]. intros y Y. apply F. now right. Qed.
  Lemma filter_none {A} (f : A -> bool) l : (forall x, In x l -> f x = false) -> filter f l = [].
  Proof. intros F. induction l as [|x l IH]; [reflexivity|]. cbn. rewrite (F x (or_introl eq_refl)). apply IH. intros y Y. apply F. now right. Qed.
  Lemma chart_rels_only : rels_kind "chart" (my_rels slides i s) = map chart_rel (chart_rels (start s) (charts_before slides i + 1) (length (s_charts s))).
  Proof.
    unfold rels_kind, my_rels, slide_rel_list. rewrite !filter_app.
    rewrite (filter_all _ (map chart_rel _)) by (intros r R; apply in_map_iff in R; destruct R as (? & <- & _); reflexivity).
    rewrite (filter_none _ (map (image_rel _) _)) by (intros r R; apply in_map_iff in R; destruct R as (? & <- & _); reflexivity).
    rewrite (filter_none _ (map link_rel _)) by (intros r R; apply in_map_iff in R; destruct R as (? & <- & _); reflexivity).
    destruct (has_notes s), (s_ink s); cbn; now rewrite app_nil_r.
  Qed.
  Lemma notes_rels_only : length (rels_kind "notesSlide" (my_rels slides i s)) = if noted s then 1 else 0.
  Proof.
    unfold rels_kind, my_rels, slide_rel_list. rewrite !filter_app.
    rewrite (filter_none _ (map chart_rel _)) by (intros r R; apply in_map_iff in R; destruct R as (? & <- & _); reflexivity).
    rewrite (filter_none _ (map (image_rel _) _)) by (intros r R; apply in_map_iff in R; destruct R as (? & <- & _); reflexivity).
    rewrite (filter_none _ (map link_rel _)) by (intros r R; apply in_map_iff in R; destruct R as (? & <- & _); reflexivity).
    change (has_notes s) with (noted s). destruct (noted s), (s_ink s); reflexivity.
  Qed.
  Lemma slide_charts : exists x rels, shows deck ("ppt/slides/slide" ++ decn (i + 1) ++ ".xml") x /\ relations deck ["ppt"; "slides"] ("slide" ++ decn (i + 1) ++ ".xml") rels
    /\ map rel_id (rels_kind "chart" rels) = flat_map chart_ids (slide_frames x) /\ length (flat_map chart_ids (slide_frames x)) = length (s_charts s)
    /\ forall j c, nth_error (s_charts s) j = Some c -> exists r, nth_error (flat_map chart_ids (slide_frames x)) j = Some r
         /\ linked deck ["ppt"; "slides"] ("slide" ++ decn (i + 1) ++ ".xml") r "chart" ("ppt/charts/chart" ++ decn (charts_before slides i + j + 1) ++ ".xml") (chart_part_xml c).
  Proof.
    exists (tree s), (my_rels slides i s). split; [exact my_tree|]. split; [exact my_relations|]. rewrite chart_rels_only.
    assert (E : flat_map chart_ids (slide_frames (tree s)) = chart_rids (start s) (length (s_charts s))) by (unfold tree; apply charts_shown, rids_length).
    split; [|split].
    - rewrite E, map_map. unfold chart_rels, chart_rids. rewrite map_map. reflexivity.
    - rewrite E. apply rids_length.
    - intros j c J. exact (chart_linked X title slides st i s H OK ST j c J).
  Qed.
  Lemma slide_notes t : s_notes s = Some t -> text_ok t = true ->
    exists rels n x m, relations deck ["ppt"; "slides"] ("slide" ++ decn (i + 1) ++ ".xml") rels /\ length (rels_kind "notesSlide" rels) = 1
      /\ xml_read n = Some x /\ page_texts "body" x = [[t]]
      /\ linked deck ["ppt"; "slides"] ("slide" ++ decn (i + 1) ++ ".xml") "rId2" "notesSlide" ("ppt/notesSlides/notesSlide" ++ decn (notes_before slides i + 1) ++ ".xml") n
      /\ linked deck ["ppt"; "notesSlides"] ("notesSlide" ++ decn (notes_before slides i + 1) ++ ".xml") "rId1" "slide" ("ppt/slides/slide" ++ decn (i + 1) ++ ".xml") m.
  Proof.
    intros N T. destruct (notes_linked X title slides st i s H OK ST t N T) as (n & x & A & B & C & D). exists (my_rels slides i s), n, x, (eager_slide s). split; [exact my_relations|]. split; [|auto].
    rewrite notes_rels_only. unfold noted. now rewrite N.
  Qed.
  Lemma slide_no_notes : s_notes s = None -> exists rels, relations deck ["ppt"; "slides"] ("slide" ++ decn (i + 1) ++ ".xml") rels /\ rels_kind "notesSlide" rels = [].
  Proof.
    intros N. exists (my_rels slides i s). split; [exact my_relations|]. apply length_zero_iff_nil. rewrite notes_rels_only. unfold noted. now rewrite N.
  Qed.
  Lemma notes_names : map fst (family "ppt/notesSlides/notesSlide" deck) = map (fun k => ("ppt/notesSlides/notesSlide" ++ decn k ++ ".xml")%string) (seq 1 (length (filter noted slides))).
  Proof.
    unfold create_pptx_with_settings. change "ppt/notesSlides/notesSlide" with P_notes. rewrite deck_notes_parts, numF_names. now rewrite notes_count.
  Qed.
  Lemma slide_image k m b : nth_error (s_images s) k = Some m -> im_bytes m = Some b -> sforall (fun c => negb (Ascii.eqb c "/")) (im_ext m) = true ->
    exists x p r n, shows deck ("ppt/slides/slide" ++ decn (i + 1) ++ ".xml") x /\ nth_error (slide_pictures x) k = Some p /\ picture_info p = ([(im_name m, im_alt m)], [r])
      /\ n = ("ppt/media/image" ++ decn (part_number slides m) ++ "." ++ im_ext m)%string
      /\ linked deck ["ppt"; "slides"] ("slide" ++ decn (i + 1) ++ ".xml") r "image" n b.
  Proof.
    intros K B NE. exists (tree s).
    destruct (pictures_shown s (chart_rids (start s) (length (s_charts s))) (my_ink s)) as [_ P]. destruct (P k m K) as (p & P1 & P2 & _). exists p, (image_rid s k), ("ppt/media/image" ++ decn (part_number slides m) ++ "." ++ im_ext m)%string. split; [exact my_tree|]. split; [exact P1|]. split; [exact P2|]. split; [reflexivity|].
    destruct (media_number slides i s H k m b K B) as (n & L & N).
    assert (PN : part_number slides m = n + 1) by (unfold part_number; now rewrite B, L).
    exists (image_rel (if has_notes s then 3 else 2) (k, (part_number slides m, im_ext m))). split; [|repeat split].
    - apply (slide_rel_in X title slides st i s H OK ST). unfold my_rels, slide_rel_list. do 2 (apply in_or_app; right). apply in_or_app. left. apply in_map. apply enumerate_nth. now apply (map_nth_error (fun m => (part_number slides m, im_ext m))).
    - unfold image_rel, image_rid, has_notes. cbn [rel_id fst snd]. destruct (s_notes s); reflexivity.
    - cbn [image_rel rel_target fst snd]. apply (leads_num ["ppt"] "slides" "media" "image" ("." ++ im_ext m)); [now apply is_nameb_ok|now apply is_nameb_ok| |reflexivity]. cbn [append sforall]. cbn [negb andb Ascii.eqb]. exact NE.
    - rewrite PN. apply (media_in X title slides st n b (im_ext m) N).
  Qed.
  Lemma slide_rel_ids : link_ids_free s -> exists x rels P C K, shows deck ("ppt/slides/slide" ++ decn (i + 1) ++ ".xml") x
    /\ relations deck ["ppt"; "slides"] ("slide" ++ decn (i + 1) ++ ".xml") rels /\ NoDup (map rel_id rels)
    /\ rel_ids_used x = map snd (slide_links s) ++ P ++ C ++ K
    /\ length P = length (s_images s) /\ Forall (of_kind rels "image") P
    /\ length C = length (s_charts s) /\ Forall (of_kind rels "chart") C
    /\ length K = (if s_ink s then 1 else 0) /\ Forall (of_kind rels "ink") K
    /\ (forall h r, In (h, r) (slide_links s) -> In (Rel r (doc_rel "hyperlink") (fst (destination (h_action h))) (snd (destination (h_action h)))) rels).
  Proof.
    intros LF. destruct (slide_ids slides i s) as (P & C & K & E & F). exists (tree s), (my_rels slides i s), P, C, K. split; [exact my_tree|]. split; [exact my_relations|].
    split; [now apply rel_ids_NoDup|]. split; [exact E|]. destruct F as (F1 & F2 & F3 & F4 & F5 & F6). repeat (split; [assumption|]). intros h r L. rewrite <- target_destination, <- mode_destination. exact (link_rel_in slides i s h r L).
  Qed.
End T.
Lemma shared X title slides st i s k m b i' s' k' m' b' :
  nth_error slides i = Some s -> deck_slide_ok s = true -> stored s = true -> nth_error (s_images s) k = Some m -> im_bytes m = Some b -> sforall (fun c => negb (Ascii.eqb c "/")) (im_ext m) = true ->
  nth_error slides i' = Some s' -> deck_slide_ok s' = true -> stored s' = true -> nth_error (s_images s') k' = Some m' -> im_bytes m' = Some b' -> sforall (fun c => negb (Ascii.eqb c "/")) (im_ext m') = true ->
  exists x p r n x' p' r' n',
    shows (create_pptx_with_settings X title slides st) ("ppt/slides/slide" ++ decn (i + 1) ++ ".xml") x /\ nth_error (slide_pictures x) k = Some p /\ picture_info p = ([(im_name m, im_alt m)], [r])
    /\ linked (create_pptx_with_settings X title slides st) ["ppt"; "slides"] ("slide" ++ decn (i + 1) ++ ".xml") r "image" n b
    /\ shows (create_pptx_with_settings X title slides st) ("ppt/slides/slide" ++ decn (i' + 1) ++ ".xml") x' /\ nth_error (slide_pictures x') k' = Some p' /\ picture_info p' = ([(im_name m', im_alt m')], [r'])
    /\ linked (create_pptx_with_settings X title slides st) ["ppt"; "slides"] ("slide" ++ decn (i' + 1) ++ ".xml") r' "image" n' b'
    /\ (n = n' <-> b = b' /\ im_ext m = im_ext m').
Proof.
  intros H O S K B E H' O' S' K' B' E'. destruct (slide_image X title slides st i s H O S k m b K B E) as (x & p & r & n & A1 & A2 & A3 & A4 & A5).
  destruct (slide_image X title slides st i' s' H' O' S' k' m' b' K' B' E') as (x' & p' & r' & n' & A1' & A2' & A3' & A4' & A5'). exists x, p, r, n, x', p', r', n'. repeat (split; [assumption|]).
  rewrite A4, A4'. exact (same_part slides i s k m b i' s' k' m' b' H K B H' K' B').
Qed.

(** ** Content types *)
Lemma deck_contents slides : contents_ok (length slides) (Some slides).
Proof. split; [cbn [slide_contents]; apply map_length|apply le_n]. Qed.
Lemma typed_all X title slides st : (forall b e, In (b, e) (all_media slides) -> In e ["jpg"; "png"; "gif"]) ->
  exists xml types, In ("[Content_Types].xml", xml) (create_pptx_with_settings X title slides st) /\ types_of xml = Some types
    /\ (forall n c, In (n, c) (create_pptx_with_settings X title slides st) -> n <> "[Content_Types].xml" -> content_type types n = wanted_type n /\ wanted_type n <> None)
    /\ (forall o, In o (snd types) -> exists n c, fst o = ("/" ++ n)%string /\ In (n, c) (create_pptx_with_settings X title slides st)).
Proof.
  intros ME. destruct (deck_types X title (length slides) (Some slides) st) as (xml & I & E). exists xml. eexists. split; [exact I|]. split; [exact E|]. split.
  - intros n c. apply (all_right X title (length slides) (Some slides) st (deck_contents slides) ME n c).
  - cbn [snd]. intros o O. destruct (overrides_ok X title (length slides) (Some slides) st (deck_contents slides) o O) as (n & N & _ & _ & c & C). exists n, c. auto.
Qed.
Lemma typed_plain X title count :
  exists xml types, In ("[Content_Types].xml", xml) (create_pptx X title count) /\ types_of xml = Some types
    /\ (forall n c, In (n, c) (create_pptx X title count) -> n <> "[Content_Types].xml" -> content_type types n = wanted_type n /\ wanted_type n <> None)
    /\ (forall o, In o (snd types) -> exists n c, fst o = ("/" ++ n)%string /\ In (n, c) (create_pptx X title count)).
Proof.
  assert (CO : contents_ok count None) by (split; [cbn [slide_contents]; now rewrite map_length, seq_length|apply Nat.le_0_l]).
  destruct (deck_types X title count None no_settings) as (xml & I & E). exists xml. eexists. split; [exact I|]. split; [exact E|]. split.
  - intros n c. apply (all_right X title count None no_settings CO (fun b e (F : In (b, e) (all_media [])) => match F with end) n c).
  - cbn [snd]. intros o O. destruct (overrides_ok X title count None no_settings CO o O) as (n & N & _ & _ & c & C). exists n, c. auto.
Qed.
Lemma typed_media X title slides st : (forall b e, In (b, e) (all_media slides) -> In e ["jpg"; "png"; "gif"]) ->
  exists xml types, In ("[Content_Types].xml", xml) (create_pptx_with_settings X title slides st) /\ types_of xml = Some types
    /\ forall n c, In (n, c) (family "ppt/media/" (create_pptx_with_settings X title slides st)) -> exists t, In (extension_of n, t) image_types /\ content_type types n = Some t.
Proof.
  intros ME. destruct (typed_all X title slides st ME) as (xml & types & I & E & T & _). exists xml, types. split; [exact I|]. split; [exact E|]. intros n c N. apply filter_In in N. destruct N as [N P]. cbn [fst] in P.
  destruct (T n c N) as [A B]; [intros ->; discriminate P|]. rewrite A. unfold wanted_type in *. rewrite P in *. destruct (find (fun d => String.eqb (fst d) (extension_of n)) image_types) as [[a t]|] eqn:F; [|contradiction].
  exists t. split; [|reflexivity]. apply find_some in F. destruct F as [F G]. apply String.eqb_eq in G. cbn [fst] in G. now rewrite <- G.
Qed.
(** Any other extension is left without a type. *)
Lemma untyped X title st b e : lowercase e = e -> sforall (fun c => negb (Ascii.eqb c ".")) e = true -> ~ In e ["jpg"; "png"; "gif"; "rels"; "xml"; "xlsx"; "sigs"; "fntdata"] ->
  exists xml types, In ("[Content_Types].xml", xml) (create_pptx_with_settings X title [mixed [] [pic (Some b) e] None [] false] st) /\ types_of xml = Some types
    /\ In (("ppt/media/image1." ++ e)%string, b) (create_pptx_with_settings X title [mixed [] [pic (Some b) e] None [] false] st) /\ content_type types ("ppt/media/image1." ++ e) = None.
Proof.
  intros LE D N. set (slides := [mixed [] [pic (Some b) e] None [] false]). destruct (deck_types X title 1 (Some slides) st) as (xml & I & E). exists xml. eexists. split; [exact I|]. split; [exact E|]. split.
  - apply (media_in X title slides st 0 b e). transitivity (Some (b, lowercase e)); [reflexivity|now rewrite LE].
  - unfold content_type. cbn [fst snd]. assert (EE : extension_of ("ppt/media/image1." ++ e) = e) by (apply (ext_of "ppt/media/image1" e D)).
    destruct (find (fun o => String.eqb (fst o) ("/" ++ "ppt/media/image1." ++ e)) (overrides 1 (Some slides) st)) as [o|] eqn:F.
    + exfalso. apply find_some in F. destruct F as [Oo Q]. apply String.eqb_eq in Q. destruct (overrides_ok X title 1 (Some slides) st (deck_contents slides) o Oo) as (m & M & _ & R & _). rewrite M in Q. apply sapp_inj_l in Q. subst m. rewrite EE in R. apply N. cbn. destruct R as [R|R]; rewrite R; tauto.
    + rewrite EE. destruct (find _ (defaults (Some slides) st)) as [d|] eqn:G; [|reflexivity]. exfalso. apply find_some in G. destruct G as [Dd Q]. apply String.eqb_eq in Q. apply (defaults_incl (Some slides) st) in Dd. apply N. rewrite <- Q. revert Dd. clear. unfold default_types, image_types. cbn.
      intros Dd. repeat (destruct Dd as [<-|Dd]; [cbn; tauto|]). destruct Dd.
Qed.

(** ** Counterexamples *)
(** A slide with an image that cannot be loaded and a chart. *)
Lemma unloadable X title st : let s := mixed [] [pic None "png"] None [chart0] false in
  deck_slide_ok s = true /\ link_ids_free s
  /\ exists x rels, shows (create_pptx_with_settings X title [s] st) "ppt/slides/slide1.xml" x /\ relations (create_pptx_with_settings X title [s] st) ["ppt"; "slides"] "slide1.xml" rels
     /\ flat_map chart_ids (slide_frames x) = ["rId3"] /\ ~ In "rId3" (map rel_id rels).
Proof.
  intros s. split; [reflexivity|]. split; [split; [constructor|intros r k []]|].
  assert (R1 := slide_in X title [s] st 0 s eq_refl). assert (R2 := rels_in X title [s] st 0 s eq_refl).
  destruct (xml_read (eager_slide s)) as [x|] eqn:E; [|vm_compute in E; discriminate].
  pose proof (eager_rels_read (build_media_registry [s]) 0 0 1 s eq_refl eq_refl) as Q. cbv zeta in Q. vm_compute in Q.
  exists x. eexists. split; [exists (eager_slide s); split; [exact R1|exact E]|]. split; [eexists; split; [exact R2|exact Q]|]. split.
  - assert (F : option_map (fun x => flat_map chart_ids (slide_frames x)) (xml_read (eager_slide s)) = Some ["rId3"]) by (vm_compute; reflexivity). rewrite E in F. now injection F.
  - cbn. intros [F|[F|[]]]; discriminate.
Qed.
(** A hyperlink id chosen by the caller that is the layout's. *)
Lemma taken_id X title st : let s := mixed [(link (Url "http://example.org/"), "rId1")] [] None [] false in
  deck_slide_ok s = true /\ stored s = true
  /\ exists rels, relations (create_pptx_with_settings X title [s] st) ["ppt"; "slides"] "slide1.xml" rels /\ ~ NoDup (map rel_id rels).
Proof.
  intros s. split; [reflexivity|]. split; [reflexivity|]. assert (R2 := rels_in X title [s] st 0 s eq_refl).
  pose proof (eager_rels_read (build_media_registry [s]) 0 0 1 s eq_refl eq_refl) as Q. cbv zeta in Q. vm_compute in Q.
  eexists. split; [eexists; split; [exact R2|exact Q]|]. cbn. intros F. inversion F as [|a l A B]; subst. apply A. now left.
Qed.
(** A shape that jumps to the first slide. *)
Lemma leads_fun dir t n : leads dir t n -> n = path (fold_left step (split_char "/" t) dir).
Proof. intros (segs & e & S & W & ->). rewrite (segments_split _ _ S). now rewrite (walks_fold _ _ _ W). Qed.
Lemma jump X title st : let s := mixed [(link FirstSlide, "jump")] [] None [] false in
  deck_slide_ok s = true /\ stored s = true /\ link_ids_free s
  /\ has_rel (create_pptx_with_settings X title [s] st) ["ppt"; "slides"] "slide1.xml" (Rel "jump" (doc_rel "hyperlink") "ppaction://hlinkshowjump?jump=firstslide" "")
  /\ forall n c, leads ["ppt"; "slides"] "ppaction://hlinkshowjump?jump=firstslide" n -> ~ In (n, c) (create_pptx_with_settings X title [s] st).
Proof.
  intros s. split; [reflexivity|]. split; [reflexivity|]. split.
  { split; [repeat constructor; intros []|]. intros r k [<-|[]] _. discriminate. }
  split.
  - assert (R2 := rels_in X title [s] st 0 s eq_refl).
    pose proof (eager_rels_read (build_media_registry [s]) 0 0 1 s eq_refl eq_refl) as Q. cbv zeta in Q. vm_compute in Q.
    eexists. eexists. split; [exact R2|]. split; [exact Q|]. cbn. auto.
  - intros n c L I. apply leads_fun in L. vm_compute in L. unfold create_pptx_with_settings in I.
    assert (F : In (n, c) (family "ppt/slides/p" (write_package_files X title (length [s]) (Some [s]) st))) by (apply filter_In; split; [exact I|rewrite L; reflexivity]).
    rewrite deck_blocks in F. rewrite (family_none "ppt/slides/p" (flat_map fst (blocks X title (length [s]) (Some [s]) st))) in F; [destruct F|apply entries_heads, blocks_heads|reflexivity].
Qed.
(** Two typefaces that differ by a space. *)
Definition two_fonts : settings := Settings false false [Font "A B" Regular 1 None 18 "x" ""; Font "AB" Regular 1 None 18 "y" ""].
Lemma same_fonts X title slides : length (st_fonts two_fonts) = 2 /\ NoDup (map f_typeface (st_fonts two_fonts)) /\ ~ NoDup (map fst (create_pptx_with_settings X title slides two_fonts)).
Proof.
  split; [reflexivity|]. split; [repeat constructor; cbn; intuition discriminate|]. set (st := two_fonts). intros N. unfold create_pptx_with_settings in N. rewrite deck_blocks in N. unfold entries, blocks in N. cbn [flat_map snd] in N.
  change (write_fonts (st_fonts st)) with [("ppt/fonts/AB-regular.fntdata", "x"); ("ppt/fonts/AB-regular.fntdata", "y")] in N. change (st_signature st) with false in N. cbv iota in N.
  rewrite !app_assoc, app_nil_r, app_nil_r in N. rewrite map_app in N. cbn [map fst] in N. apply NoDup_remove_2 in N. apply N. apply in_or_app. right. now left.
Qed.
(** A lazy source without its second slide. *)
Lemma lazy_missing X title : let src := Source 2 (fun i => if Nat.eqb i 0 then Some (slide_new "T") else None) in
  has_rel (write_package_files_lazy X title src no_settings) ["ppt"] "presentation.xml" (Rel "rId3" (doc_rel "slide") "slides/slide2.xml" "")
  /\ forall n c, leads ["ppt"] "slides/slide2.xml" n -> ~ In (n, c) (write_package_files_lazy X title src no_settings).
Proof.
  intros src. split.
  - eexists. eexists. split; [right; right; left; reflexivity|]. split; [vm_compute; reflexivity|]. cbn. auto.
  - intros n c L I. apply leads_fun in L. vm_compute in L. apply (in_map fst) in I. cbn [fst] in I. rewrite L in I.
    assert (E : existsb (String.eqb "ppt/slides/slide2.xml") (map fst (write_package_files_lazy X title src no_settings)) = false) by (vm_compute; reflexivity).
    assert (E2 : existsb (String.eqb "ppt/slides/slide2.xml") (map fst (write_package_files_lazy X title src no_settings)) = true) by (apply existsb_exists; eexists; split; [exact I|apply String.eqb_refl]). congruence.
Qed.
(** Signature, fonts and ink of a lazy deck have no content type. *)
Definition inked : slide := mixed [] [] None [] true.
Lemma lazy_untyped X title : let src := Source 1 (fun _ => Some inked) in let st := Settings false true [Font "A" Regular 1 None 18 "x" ""] in
  exists xml types, In ("[Content_Types].xml", xml) (write_package_files_lazy X title src st) /\ types_of xml = Some types
    /\ (exists c, In ("_xmlsignatures/origin.sigs", c) (write_package_files_lazy X title src st)) /\ content_type types "_xmlsignatures/origin.sigs" = None
    /\ (exists c, In ("ppt/fonts/A-regular.fntdata", c) (write_package_files_lazy X title src st)) /\ content_type types "ppt/fonts/A-regular.fntdata" = None
    /\ (exists c, In ("ppt/ink/ink1.xml", c) (write_package_files_lazy X title src st)) /\ content_type types "ppt/ink/ink1.xml" = Some "application/xml".
Proof.
  intros src st.
  assert (G : forall n, existsb (String.eqb n) (map fst (write_package_files_lazy X title src st)) = true -> exists c, In (n, c) (write_package_files_lazy X title src st)).
  { intros n E. apply existsb_exists in E. destruct E as (m & M & E). apply String.eqb_eq in E. subst m. apply in_map_iff in M. destruct M as ([a c] & <- & M). exists c. exact M. }
  eexists. eexists. split; [left; reflexivity|]. split; [vm_compute; reflexivity|].
  split; [apply G; vm_compute; reflexivity|]. split; [vm_compute; reflexivity|]. split; [apply G; vm_compute; reflexivity|]. split; [vm_compute; reflexivity|]. split; [apply G; vm_compute; reflexivity|]. vm_compute. reflexivity.
Qed.
(** ** Presentations *)
Definition apply_op (p : presentation) (o : slide + presentation) : presentation := match o with inl s => add_slide p s | inr q => add_presentation p q end.
Definition op_slides (o : slide + presentation) : list slide := match o with inl s => [s] | inr q => p_slides q end.
Lemma ops_slides ops : forall p, fold_left apply_op ops p = Presentation (p_title p) (p_slides p ++ flat_map op_slides ops) (p_settings p).
Proof.
  induction ops as [|o ops IH]; intros p; cbn [fold_left flat_map]; [rewrite app_nil_r; now destruct p|]. rewrite IH.
  destruct o; cbn [apply_op add_slide add_presentation p_title p_slides p_settings op_slides]; now rewrite <- app_assoc.
Qed.
Lemma build_ops X title st ops :
  build X (with_settings (fold_left apply_op ops (with_title title)) st) = match flat_map op_slides ops with [] => None | l => Some (create_pptx_with_settings X title l st) end.
Proof. rewrite ops_slides. unfold with_settings, build, with_title. cbn [p_slides p_title p_settings app]. now destruct (flat_map op_slides ops). Qed.
