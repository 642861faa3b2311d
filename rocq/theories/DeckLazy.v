(** Lemmas: a deck made from a lazy source has the parts of the deck made from
    the slides it gives. *)
From Coq Require Import String Ascii List Bool Arith NArith Lia Permutation.
From Verif Require Import Str StrRefl Num XmlSpec XmlProofs XmlTpl OpcSpec GenModel GenProofs FontsModel PresProofs TypesProofs DocPropsModel ChartModel ShapeModel SlideModel DeckModel DeckSpec DeckInput DeckParts DeckWhole DeckTypes DeckThms.
Import ListNotations.
Open Scope nat_scope.
Open Scope string_scope.
Local Open Scope list_scope.

(** ** Content types *)
Definition typesL (slides notes charts : nat) (handout : bool) (exts : list string) : list tpl :=
  openT exts charts ++ flat_map (numT "/ppt/slides/slide" ".xml" slide_type) (seq 1 slides) ++ notesOT notes ++ handoutOT handout
  ++ flat_map chartOT (seq 1 charts) ++ footT ++ flat_map (numT "/ppt/slideLayouts/slideLayout" ".xml" (pml "slideLayout")) (seq 1 standard_layout_count) ++ [nlT].
Lemma lazy_str slides notes charts handout exts :
  content_types_lazy slides notes charts handout exts false false 0 = (decl ++ nl ++ tstr (TE "Types" xmlns_types (typesL slides notes charts handout exts)))%string.
Proof.
  unfold content_types_lazy, append_ink_content_types, content_types_opening. cbv zeta. cbn [Nat.eqb]. rewrite images_str, slide_overrides_tpl, handoutO_str, chartO_str, layoutO_str.
  replace (if Nat.ltb 0 notes then notes_overrides notes else "") with (tstrs (notesOT notes)) by (rewrite notesO_str; destruct notes; reflexivity).
  cbn [tstr]. change (sconcat (map tstr (typesL slides notes charts handout exts))) with (tstrs (typesL slides notes charts handout exts)).
  unfold typesL, openT. rewrite !tstrs_app, tstrs_when.
  match goal with |- context [(append ?f (tstrs (flat_map (numT "/ppt/slideLayouts/slideLayout" _ _) _)))] => change f with (tstrs footT) end.
  generalize (tstrs (imagesT exts)) (tstrs (flat_map (numT "/ppt/slides/slide" ".xml" slide_type) (seq 1 slides))) (tstrs (notesOT notes)) (tstrs (handoutOT handout)) (tstrs (flat_map chartOT (seq 1 charts)))
    (tstrs (flat_map (numT "/ppt/slideLayouts/slideLayout" ".xml" (pml "slideLayout")) (seq 1 standard_layout_count))) (tstrs footT). intros a b c d e f g.
  unfold defT, overT, nlT, sheet_type, pml, ct, xmlns_types. destruct (Nat.ltb 0 charts); tstr_eq.
Qed.
Lemma toks_typesL slides notes charts handout exts : toks (typesL slides notes charts handout exts).
Proof.
  unfold typesL, openT, notesOT, imagesT, handoutOT. toks_apps; try (apply toks_when); toks_apps; try (apply toks_nums; reflexivity).
  all: try (apply toks_flat_map; intros i _; unfold chartOT; toks_apps; unfold numT, nlT, overT; toks_solve).
  all: unfold footT, ov, nlT, overT, defT; cbn [app]; toks_solve.
Qed.
Lemma lazy_types slides notes charts handout exts : exists ov, types_of (content_types_lazy slides notes charts handout exts false false 0) = Some (deck_defaults charts exts false false, ov)
  /\ Permutation ov (deck_overrides slides notes charts handout false 0).
Proof.
  exists (overrides_in (typesL slides notes charts handout exts)). split.
  - rewrite lazy_str, types_of_tpl by apply toks_typesL. f_equal. f_equal. rewrite <- (typesT_defaults slides notes charts handout exts false false 0).
    unfold typesL, typesT, typesB, openT, notesOT, inkOT, handoutOT. rewrite !defaults_app, !nums_defaults, (defaults_none chartOT) by reflexivity. cbn [when seq flat_map].
    destruct (Nat.ltb 0 charts), (Nat.ltb 0 notes), handout; cbn [app]; rewrite ?app_nil_r, <- ?app_assoc; reflexivity.
  - rewrite <- (typesT_overrides slides notes charts handout exts false false 0). unfold typesL, typesT, typesB. rewrite !overrides_app. cbn [when]. change (overrides_in []) with (@nil (string * string)). change (overrides_in (inkOT 0)) with (@nil (string * string)). rewrite !app_nil_r.
    do 5 apply Permutation_app_head. apply Permutation_app_comm.
Qed.

(** ** Slides by index *)
Section L.
  Context (X : statics) (src : source).
  Definition gives (i0 : nat) (l : list slide) : Prop := forall k, k < length l -> generate_slide src (i0 + k) = nth_error l k.
  Lemma gives_hd i0 s l : gives i0 (s :: l) -> generate_slide src i0 = Some s.
  Proof. intros G. specialize (G 0). rewrite Nat.add_0_r in G. apply G. cbn. lia. Qed.
  Lemma gives_tl i0 s l : gives i0 (s :: l) -> gives (S i0) l.
  Proof. intros G k K. specialize (G (S k)). rewrite <- Nat.add_succ_comm in G. apply G. cbn. lia. Qed.
  Lemma starts_length counts : forall t, length (chart_starts t counts) = length counts.
  Proof. induction counts as [|c r IH]; intros t; [reflexivity|]. cbn. now rewrite IH. Qed.
  Lemma lazy_slides reg : forall l i0 nn kn t, gives i0 l ->
    (forall s, In s l -> length (slide_image_rel_targets reg s) = length (s_images s)) ->
    Permutation (write_slides_lazy X src reg nn kn (combine (seq i0 (length l)) (chart_starts t (chart_counts l))))
      (write_slides_from X i0 nn kn l ++ write_slide_rels_from reg i0 nn kn (chart_starts t (chart_counts l)) l ++ write_charts X (chart_starts t (chart_counts l)) l).
  Proof.
    induction l as [|s l IH]; intros i0 nn kn t G SS; [constructor|].
    cbn [length seq chart_counts map chart_starts combine write_slides_lazy write_slides_from write_slide_rels_from write_charts flat_map]. fold (chart_counts l). rewrite (gives_hd _ _ _ G).
    pose proof (SS s (or_introl eq_refl)) as T. rewrite T. fold (write_charts X). cbn [fst snd].
    specialize (IH (S i0) (if has_notes s then nn + 1 else nn) (if s_ink s then kn + 1 else kn) (t + length (s_charts s)) (gives_tl _ _ _ G) (fun x I => SS x (or_intror I))).
    rewrite (Nat.add_1_r i0) in *. fold (write_charts X (chart_starts (t + length (s_charts s)) (chart_counts l)) l).
    set (L := write_slides_lazy _ _ _ _ _ _) in *. set (W := write_charts _ _ _) in *. set (R := write_slide_rels_from _ _ _ _ _ _) in *. set (SL := write_slides_from X _ _ _ l) in *.
    rewrite <- !app_assoc. apply Permutation_app_head. cbn [app]. apply perm_skip. apply Permutation_app_head. apply Permutation_cons_app.
    transitivity (write_slide_charts X (t + 1) (s_charts s) ++ SL ++ R ++ W); [now apply Permutation_app_head|].
    rewrite !app_assoc. apply Permutation_app_tail. rewrite <- app_assoc. apply Permutation_app_comm.
  Qed.
  Lemma lazy_notes : forall l i0 nn, gives i0 l -> write_notes_rels_lazy src nn (seq i0 (length l)) = write_notes_rels_from i0 nn l.
  Proof.
    induction l as [|s l IH]; intros i0 nn G; [reflexivity|]. cbn [length seq write_notes_rels_lazy write_notes_rels_from]. unfold notes_at, slide_features. rewrite (gives_hd _ _ _ G). cbn [option_map].
    rewrite (Nat.add_1_r i0). destruct (has_notes s); [f_equal|]; apply IH; exact (gives_tl _ _ _ G).
  Qed.
  Lemma lazy_filter (f : nat -> bool) (g : slide -> bool) : (forall i s, generate_slide src i = Some s -> f i = g s) ->
    forall l i0, gives i0 l -> count_if f (seq i0 (length l)) = count_if g l.
  Proof.
    intros F. unfold count_if. induction l as [|s l IH]; intros i0 G; [reflexivity|]. cbn [length seq filter]. rewrite (F _ _ (gives_hd _ _ _ G)). specialize (IH (S i0) (gives_tl _ _ _ G)). destruct (g s); cbn [length]; now rewrite IH.
  Qed.
  Lemma lazy_exists (f : nat -> bool) (g : slide -> bool) : (forall i s, generate_slide src i = Some s -> f i = g s) ->
    forall l i0, gives i0 l -> existsb f (seq i0 (length l)) = existsb g l.
  Proof.
    intros F. induction l as [|s l IH]; intros i0 G; [reflexivity|]. cbn [length seq existsb]. rewrite (F _ _ (gives_hd _ _ _ G)). f_equal. exact (IH (S i0) (gives_tl _ _ _ G)).
  Qed.
  Lemma lazy_map {B} (f : nat -> B) (g : slide -> B) : (forall i s, generate_slide src i = Some s -> f i = g s) ->
    forall l i0, gives i0 l -> map f (seq i0 (length l)) = map g l.
  Proof.
    intros F. induction l as [|s l IH]; intros i0 G; [reflexivity|]. cbn [length seq map]. rewrite (F _ _ (gives_hd _ _ _ G)). f_equal. exact (IH (S i0) (gives_tl _ _ _ G)).
  Qed.
  Lemma lazy_registry : forall l i0 r, gives i0 l ->
    fold_left (fun r i => match generate_slide src i with Some s => fold_left register_image (s_images s) r | None => r end) (seq i0 (length l)) r = fold_left (fun r s => fold_left register_image (s_images s) r) l r.
  Proof.
    induction l as [|s l IH]; intros i0 r G; [reflexivity|]. cbn [length seq fold_left]. rewrite (gives_hd _ _ _ G). exact (IH (S i0) _ (gives_tl _ _ _ G)).
  Qed.
  Lemma lazy_titles : forall l i0, gives i0 l ->
    map (fun i => match option_map s_title (generate_slide src i) with Some t => slide_title i t | None => ("Slide " ++ decn (i + 1))%string end) (seq i0 (length l)) = slide_titles_from i0 (map s_title l).
  Proof.
    induction l as [|s l IH]; intros i0 G; [reflexivity|]. cbn [length seq map slide_titles_from]. rewrite (gives_hd _ _ _ G). cbn [option_map]. f_equal. exact (IH (S i0) (gives_tl _ _ _ G)).
  Qed.
End L.
Lemma stored_targets slides s : In s slides -> stored s = true -> length (slide_image_rel_targets (build_media_registry slides) s) = length (s_images s).
Proof. intros I S. destruct (In_nth_error _ _ I) as [i H]. apply (targets_length slides i s H S). Qed.
Lemma lazy_deck X title src slides st : slide_count src = length slides -> (forall i, i < length slides -> generate_slide src i = nth_error slides i) -> forallb stored slides = true ->
  exists ct1 ct2 rest1 rest2, write_package_files_lazy X title src st = ("[Content_Types].xml", ct1) :: rest1 /\ create_pptx_with_settings X title slides st = ("[Content_Types].xml", ct2) :: rest2
    /\ Permutation rest1 rest2
    /\ (st_signature st = false -> st_fonts st = [] -> forallb (fun s => negb (s_ink s)) slides = true ->
        exists df ov1 ov2, types_of ct1 = Some (df, ov1) /\ types_of ct2 = Some (df, ov2) /\ Permutation ov1 ov2).
Proof.
  intros C G SS. assert (GG : gives src 0 slides) by (intros k K; apply G; exact K).
  unfold write_package_files_lazy, create_pptx_with_settings, write_package_files, indices. cbv zeta. rewrite C.
  rewrite (lazy_exists src (notes_at src) has_notes) by (try exact GG; intros i s E; unfold notes_at, slide_features; now rewrite E).
  rewrite (lazy_filter src (notes_at src) has_notes) by (try exact GG; intros i s E; unfold notes_at, slide_features; now rewrite E).
  rewrite (lazy_filter src (ink_at src) s_ink) by (try exact GG; intros i s E; unfold ink_at; now rewrite E).
  rewrite (lazy_map src (charts_at src) (fun s => length (s_charts s))) by (try exact GG; intros i s E; unfold charts_at, slide_features; now rewrite E).
  fold (chart_counts slides). unfold build_media_registry_lazy, indices. rewrite C, (lazy_registry src slides 0 [] GG). fold (build_media_registry slides).
  rewrite (lazy_notes src slides 0 0 GG). unfold collect_slide_titles_lazy, collect_slide_titles, option_map at 2. rewrite (lazy_titles src slides 0 GG).
  assert (E : enumerate (chart_starts 0 (chart_counts slides)) = combine (seq 0 (length slides)) (chart_starts 0 (chart_counts slides))).
  { unfold enumerate. rewrite starts_length. unfold chart_counts. now rewrite map_length. }
  rewrite E. pose proof (lazy_slides X src (build_media_registry slides) slides 0 0 0 0 GG) as P.
  rewrite forallb_forall in SS. specialize (P (fun s I => stored_targets slides s I (SS s I))).
  assert (W : (if Nat.ltb 0 (chart_total (chart_counts slides)) then write_charts X (chart_starts 0 (chart_counts slides)) slides else []) = write_charts X (chart_starts 0 (chart_counts slides)) slides).
  { rewrite total_eq. rewrite charts_form. destruct (all_charts slides); reflexivity. }
  rewrite W.
  do 4 eexists. split; [reflexivity|]. split; [reflexivity|]. split.
  - cbn [app]. do 3 apply perm_skip. do 2 apply Permutation_app_head. rewrite (app_assoc (write_slides_from _ _ _ _ _)).
    set (N := if existsb has_notes slides then _ else []). set (L := write_slides_lazy _ _ _ _ _ _) in *. set (W' := write_charts _ _ _) in *. set (RR := write_slide_rels_from _ _ _ _ _ _) in *. set (SL := write_slides_from X _ _ _ slides) in *.
    set (Q := write_document_properties _ _ _ _ _). set (T := write_theme_and_layouts X). set (Z := write_images _ ++ _).
    transitivity ((SL ++ RR ++ W') ++ N ++ T ++ Q ++ Z); [now apply Permutation_app_tail|]. rewrite (app_assoc SL RR W'). rewrite <- (app_assoc (SL ++ RR)). apply Permutation_app_head.
    replace (W' ++ N ++ T ++ Q ++ Z) with (W' ++ (N ++ T ++ Q) ++ Z) by (now rewrite <- !app_assoc).
    replace (N ++ T ++ Q ++ W' ++ Z) with ((N ++ T ++ Q) ++ W' ++ Z) by (now rewrite <- !app_assoc). apply Permutation_app_swap_app.
  - intros SG SF SI. rewrite SG. unfold has_fonts. rewrite SF.
    assert (I0 : count_if s_ink slides = 0). { unfold count_if. clear -SI. induction slides as [|s l IH]; [reflexivity|]. cbn [forallb filter] in *. apply andb_true_iff in SI. destruct (s_ink s); [destruct SI; discriminate|]. apply IH, SI. }
    rewrite I0. destruct (lazy_types (length slides) (count_if has_notes slides) (chart_total (chart_counts slides)) (st_handout st) (extensions (build_media_registry slides))) as (ov & A & B).
    do 3 eexists. split; [exact A|]. split; [apply eager_types|exact B].
Qed.
