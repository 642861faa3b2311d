(** Lemmas: [Content_Types].xml of a generated deck, read back. *)
From Coq Require Import String Ascii List Bool Arith NArith Lia.
From Verif Require Import Str StrRefl XmlSpec XmlProofs XmlTpl OpcSpec GenModel GenProofs PresProofs TypesProofs.
Import ListNotations.
Open Scope nat_scope.
Open Scope string_scope.
Local Open Scope list_scope.

Definition ct (s : string) : string := ("application/vnd.openxmlformats-officedocument." ++ s)%string.
Definition pml (s : string) : string := ("application/vnd.openxmlformats-officedocument.presentationml." ++ s ++ "+xml")%string.
Definition when {A} (b : bool) (l : list A) : list A := if b then l else [].
Definition is_jpeg (e : string) : bool := String.eqb e "jpg" || String.eqb e "jpeg".
Definition is_png (e : string) : bool := String.eqb e "png".
Definition is_gif (e : string) : bool := String.eqb e "gif".
Definition imagesT (exts : list string) : list tpl :=
  when (existsb is_jpeg exts) [defT [Lit "jpg"] [Lit "image/jpeg"]] ++ when (existsb is_png exts) [defT [Lit "png"] [Lit "image/png"]] ++ when (existsb is_gif exts) [defT [Lit "gif"] [Lit "image/gif"]].
Definition ov (part type : string) : list tpl := [nlT; overT [Lit part] [Lit type]].
Definition theme_type : string := ct "theme+xml".
Definition sheet_type : string := ct "spreadsheetml.sheet".
Definition chart_type : string := ct "drawingml.chart+xml".
Definition chartOT (i : nat) : list tpl := numT "/ppt/charts/chart" ".xml" chart_type i ++ numT "/ppt/embeddings/Microsoft_Excel_Sheet" ".xlsx" sheet_type i.
Definition footT : list tpl :=
  ov "/ppt/slideMasters/slideMaster1.xml" (pml "slideMaster") ++ ov "/ppt/theme/theme1.xml" theme_type ++ ov "/ppt/tableStyles.xml" (pml "tableStyles")
  ++ ov "/ppt/viewProps.xml" (pml "viewProps") ++ ov "/ppt/presProps.xml" (pml "presProps")
  ++ ov "/docProps/core.xml" "application/vnd.openxmlformats-package.core-properties+xml" ++ ov "/docProps/app.xml" (ct "extended-properties+xml").
Definition openT (exts : list string) (charts : nat) : list tpl :=
  imagesT exts ++ [defT [Lit "rels"] [Lit "application/vnd.openxmlformats-package.relationships+xml"]; nlT; defT [Lit "xml"] [Lit "application/xml"]]
  ++ when (Nat.ltb 0 charts) [defT [Lit "xlsx"] [Lit sheet_type]] ++ [overT [Lit "/ppt/presentation.xml"] [Lit (pml "presentation.main")]].
Definition notesOT (n : nat) : list tpl :=
  flat_map (numT "/ppt/notesSlides/notesSlide" ".xml" (pml "notesSlide")) (seq 1 n)
  ++ when (Nat.ltb 0 n) (ov "/ppt/notesMasters/notesMaster1.xml" (pml "notesMaster") ++ ov "/ppt/theme/theme2.xml" theme_type).
Definition handoutOT (b : bool) : list tpl := when b (ov "/ppt/handoutMasters/handoutMaster1.xml" (pml "handoutMaster") ++ ov "/ppt/theme/theme3.xml" theme_type).
Definition sigOT : list tpl := [defT [Lit "sigs"] [Lit "application/vnd.openxmlformats-package.digital-signature-origin"]; overT [Lit "/_xmlsignatures/sig1.xml"] [Lit "application/vnd.openxmlformats-package.digital-signature-xmlsignature+xml"]].
Definition fontOT : list tpl := [defT [Lit "fntdata"] [Lit "application/x-fontdata"]].
Definition inkOT (n : nat) : list tpl := flat_map (numT "/ppt/ink/ink" ".xml" (pml "ink")) (seq 1 n).
Definition typesB (slides notes charts : nat) (handout : bool) (exts : list string) : list tpl :=
  openT exts charts ++ flat_map (numT "/ppt/slides/slide" ".xml" slide_type) (seq 1 slides) ++ notesOT notes ++ handoutOT handout
  ++ flat_map chartOT (seq 1 charts) ++ flat_map (numT "/ppt/slideLayouts/slideLayout" ".xml" (pml "slideLayout")) (seq 1 standard_layout_count) ++ footT ++ [nlT].
Definition typesT (slides notes charts : nat) (handout : bool) (exts : list string) (sig fonts : bool) (ink : nat) : list tpl :=
  ((typesB slides notes charts handout exts ++ when sig sigOT) ++ when fonts fontOT) ++ inkOT ink.

Lemma tstrs_when b l : tstrs (when b l) = if b then tstrs l else "".
Proof. now destruct b. Qed.
Lemma images_str exts : image_content_type_defaults exts = tstrs (imagesT exts).
Proof. unfold image_content_type_defaults, imagesT, when. change (fun e => String.eqb e "jpg" || String.eqb e "jpeg") with is_jpeg. change (fun e => String.eqb e "png") with is_png. change (fun e => String.eqb e "gif") with is_gif.
  destruct (existsb is_jpeg exts), (existsb is_png exts), (existsb is_gif exts); reflexivity. Qed.
Lemma nums_str (f : nat -> string) pre post type l : (forall i, f i = tstrs (numT pre post type i)) -> sconcat (map f l) = tstrs (flat_map (numT pre post type) l).
Proof. intros H. rewrite tstrs_flat_map. apply sconcat_ext. intros i _. apply H. Qed.
Lemma notesO_str n : notes_overrides n = tstrs (notesOT n).
Proof.
  unfold notes_overrides, notesOT. rewrite tstrs_app, tstrs_when. rewrite (nums_str notes_override "/ppt/notesSlides/notesSlide" ".xml" (pml "notesSlide")); [now destruct (Nat.ltb 0 n)|]. intros i. unfold notes_override, numT, nlT, overT, pml. generalize (decn i) as d. intros d. tstr_eq.
Qed.
Lemma handoutO_str b : handout_overrides b = tstrs (handoutOT b).
Proof. destruct b; reflexivity. Qed.
Lemma chartO_str l : sconcat (map chart_override l) = tstrs (flat_map chartOT l).
Proof.
  rewrite tstrs_flat_map. apply sconcat_ext. intros i _. unfold chart_override, chartOT, chart_embedding_filename, numT, nlT, overT, chart_type, sheet_type, ct. generalize (decn i) as d. intros d. cbn [app]. tstr_eq.
Qed.
Lemma layoutO_str n : layout_overrides n = tstrs (flat_map (numT "/ppt/slideLayouts/slideLayout" ".xml" (pml "slideLayout")) (seq 1 n)).
Proof. unfold layout_overrides. apply nums_str. intros i. unfold layout_override, numT, nlT, overT, pml. generalize (decn i) as d. intros d. tstr_eq. Qed.
Lemma ink_str n : sconcat (map ink_override (seq 1 n)) = tstrs (inkOT n).
Proof. apply nums_str. intros i. unfold ink_override, numT, nlT, overT, pml. generalize (decn i) as d. intros d. tstr_eq. Qed.
Lemma types_str slides notes charts handout exts :
  create_content_types_xml_with_notes_and_charts slides notes charts handout exts = (decl ++ nl ++ tstr (TE "Types" xmlns_types (typesB slides notes charts handout exts)))%string.
Proof.
  unfold create_content_types_xml_with_notes_and_charts, content_types_opening. rewrite images_str, slide_overrides_tpl, notesO_str, handoutO_str, chartO_str, layoutO_str.
  cbn [tstr]. change (sconcat (map tstr (typesB slides notes charts handout exts))) with (tstrs (typesB slides notes charts handout exts)).
  unfold typesB, openT. rewrite !tstrs_app, tstrs_when. change content_types_footer with (tstrs (footT ++ [nlT]) ++ "</Types>")%string. rewrite tstrs_app.
  generalize (tstrs (imagesT exts)) (tstrs (flat_map (numT "/ppt/slides/slide" ".xml" slide_type) (seq 1 slides))) (tstrs (notesOT notes)) (tstrs (handoutOT handout)) (tstrs (flat_map chartOT (seq 1 charts)))
    (tstrs (flat_map (numT "/ppt/slideLayouts/slideLayout" ".xml" (pml "slideLayout")) (seq 1 standard_layout_count))) (tstrs footT). intros a b c d e f g.
  unfold defT, overT, nlT, sheet_type, pml, ct, xmlns_types. destruct (Nat.ltb 0 charts); tstr_eq.
Qed.
Lemma eager_str slides notes charts handout exts sig fonts ink :
  content_types_eager slides notes charts handout exts sig fonts ink = (decl ++ nl ++ tstr (TE "Types" xmlns_types (typesT slides notes charts handout exts sig fonts ink)))%string.
Proof.
  unfold content_types_eager, typesT. cbv zeta. rewrite types_str. generalize (typesB slides notes charts handout exts) as b. intros b.
  assert (S1 : (if sig then append_digital_signature_content_type (decl ++ nl ++ tstr (TE "Types" xmlns_types b)) else decl ++ nl ++ tstr (TE "Types" xmlns_types b))%string = (decl ++ nl ++ tstr (TE "Types" xmlns_types (b ++ when sig sigOT)))%string).
  { destruct sig; [|cbn [when]; now rewrite app_nil_r]. unfold append_digital_signature_content_type. now rewrite (insert_tpl decl nl "Types" xmlns_types b _ sigOT). }
  rewrite S1. generalize (b ++ when sig sigOT) as b2. clear. intros b.
  assert (S1 : (if fonts then append_embedded_font_content_type (decl ++ nl ++ tstr (TE "Types" xmlns_types b)) else decl ++ nl ++ tstr (TE "Types" xmlns_types b))%string = (decl ++ nl ++ tstr (TE "Types" xmlns_types (b ++ when fonts fontOT)))%string).
  { destruct fonts; [|cbn [when]; now rewrite app_nil_r]. unfold append_embedded_font_content_type. now rewrite (insert_tpl decl nl "Types" xmlns_types b _ fontOT). }
  rewrite S1. generalize (b ++ when fonts fontOT) as b2. clear. intros b.
  unfold append_ink_content_types. destruct (Nat.eqb_spec ink 0) as [->|]; [cbn; now rewrite app_nil_r|]. now rewrite (insert_tpl decl nl "Types" xmlns_types b _ (inkOT ink)) by apply ink_str.
Qed.

(** ** What it declares *)
Definition image_defaults (exts : list string) : list (string * string) :=
  when (existsb is_jpeg exts) [("jpg", "image/jpeg")] ++ when (existsb is_png exts) [("png", "image/png")] ++ when (existsb is_gif exts) [("gif", "image/gif")].
Definition deck_defaults (charts : nat) (exts : list string) (sig fonts : bool) : list (string * string) :=
  image_defaults exts ++ [("rels", "application/vnd.openxmlformats-package.relationships+xml"); ("xml", "application/xml")] ++ when (Nat.ltb 0 charts) [("xlsx", sheet_type)]
  ++ when sig [("sigs", "application/vnd.openxmlformats-package.digital-signature-origin")] ++ when fonts [("fntdata", "application/x-fontdata")].
Definition nums (pre post type : string) (n : nat) : list (string * string) := map (fun i => ((pre ++ decn i ++ post)%string, type)) (seq 1 n).
Definition deck_overrides (slides notes charts : nat) (handout sig : bool) (ink : nat) : list (string * string) :=
  [("/ppt/presentation.xml", pml "presentation.main")] ++ nums "/ppt/slides/slide" ".xml" slide_type slides
  ++ nums "/ppt/notesSlides/notesSlide" ".xml" (pml "notesSlide") notes
  ++ when (Nat.ltb 0 notes) [("/ppt/notesMasters/notesMaster1.xml", pml "notesMaster"); ("/ppt/theme/theme2.xml", theme_type)]
  ++ when handout [("/ppt/handoutMasters/handoutMaster1.xml", pml "handoutMaster"); ("/ppt/theme/theme3.xml", theme_type)]
  ++ flat_map (fun i => [(("/ppt/charts/chart" ++ decn i ++ ".xml")%string, chart_type); (("/ppt/embeddings/Microsoft_Excel_Sheet" ++ decn i ++ ".xlsx")%string, sheet_type)]) (seq 1 charts)
  ++ nums "/ppt/slideLayouts/slideLayout" ".xml" (pml "slideLayout") standard_layout_count
  ++ [("/ppt/slideMasters/slideMaster1.xml", pml "slideMaster"); ("/ppt/theme/theme1.xml", theme_type); ("/ppt/tableStyles.xml", pml "tableStyles"); ("/ppt/viewProps.xml", pml "viewProps");
      ("/ppt/presProps.xml", pml "presProps"); ("/docProps/core.xml", "application/vnd.openxmlformats-package.core-properties+xml"); ("/docProps/app.xml", ct "extended-properties+xml")]
  ++ when sig [("/_xmlsignatures/sig1.xml", "application/vnd.openxmlformats-package.digital-signature-xmlsignature+xml")]
  ++ nums "/ppt/ink/ink" ".xml" (pml "ink") ink.
Lemma defaults_none l : (forall x : nat, defaults_in (l x) = []) -> forall m, defaults_in (flat_map l m) = [].
Proof. intros H m. rewrite defaults_flat_map. induction m as [|x m IH]; [reflexivity|]. cbn. now rewrite H, IH. Qed.
Lemma typesT_defaults slides notes charts handout exts sig fonts ink : defaults_in (typesT slides notes charts handout exts sig fonts ink) = deck_defaults charts exts sig fonts.
Proof.
  unfold typesT, typesB, openT, notesOT, inkOT. rewrite !defaults_app, !nums_defaults, (defaults_none chartOT) by reflexivity.
  assert (I : defaults_in (imagesT exts) = image_defaults exts) by (unfold imagesT, image_defaults, when; destruct (existsb is_jpeg exts), (existsb is_png exts), (existsb is_gif exts); reflexivity).
  rewrite I. unfold deck_defaults, handoutOT, when. destruct (Nat.ltb 0 charts), (Nat.ltb 0 notes), handout, sig, fonts; cbn [app]; rewrite ?app_nil_r, <- ?app_assoc; reflexivity.
Qed.
Lemma nums_eq pre post type n : overrides_in (flat_map (numT pre post type) (seq 1 n)) = nums pre post type n.
Proof. apply nums_overrides. Qed.
Lemma charts_overrides l : overrides_in (flat_map chartOT l) = flat_map (fun i => [(("/ppt/charts/chart" ++ decn i ++ ".xml")%string, chart_type); (("/ppt/embeddings/Microsoft_Excel_Sheet" ++ decn i ++ ".xlsx")%string, sheet_type)]) l.
Proof. rewrite overrides_flat_map. apply flat_map_ext. intros i. unfold chartOT. now rewrite overrides_app, !numT_overrides. Qed.
Lemma typesT_overrides slides notes charts handout exts sig fonts ink : overrides_in (typesT slides notes charts handout exts sig fonts ink) = deck_overrides slides notes charts handout sig ink.
Proof.
  unfold typesT, typesB, openT, notesOT, inkOT. rewrite !overrides_app, !nums_eq, charts_overrides.
  assert (I : overrides_in (imagesT exts) = []) by (unfold imagesT, when; destruct (existsb is_jpeg exts), (existsb is_png exts), (existsb is_gif exts); reflexivity).
  rewrite I. unfold deck_overrides, handoutOT, when.
  generalize (nums "/ppt/slides/slide" ".xml" slide_type slides) (nums "/ppt/notesSlides/notesSlide" ".xml" (pml "notesSlide") notes)
    (flat_map (fun i => [(("/ppt/charts/chart" ++ decn i ++ ".xml")%string, chart_type); (("/ppt/embeddings/Microsoft_Excel_Sheet" ++ decn i ++ ".xlsx")%string, sheet_type)]) (seq 1 charts))
    (nums "/ppt/slideLayouts/slideLayout" ".xml" (pml "slideLayout") standard_layout_count) (nums "/ppt/ink/ink" ".xml" (pml "ink") ink). intros a b c d e.
  destruct (Nat.ltb 0 charts), (Nat.ltb 0 notes), handout, sig, fonts; cbn [app]; rewrite ?app_nil_r, <- ?app_assoc; reflexivity.
Qed.
Lemma toks_when b l : toks l -> toks (when b l).
Proof. now destruct b. Qed.
Lemma toks_typesT slides notes charts handout exts sig fonts ink : toks (typesT slides notes charts handout exts sig fonts ink).
Proof.
  unfold typesT, typesB, openT, notesOT, inkOT, imagesT, handoutOT. toks_apps; try (apply toks_when); toks_apps; try (apply toks_nums; reflexivity).
  all: try (apply toks_flat_map; intros i _; unfold chartOT; toks_apps; unfold numT, nlT, overT; toks_solve).
  all: unfold footT, ov, sigOT, fontOT, nlT, overT, defT; cbn [app]; toks_solve.
Qed.
Lemma eager_types slides notes charts handout exts sig fonts ink :
  types_of (content_types_eager slides notes charts handout exts sig fonts ink) = Some (deck_defaults charts exts sig fonts, deck_overrides slides notes charts handout sig ink).
Proof. rewrite eager_str, types_of_tpl by apply toks_typesT. now rewrite typesT_defaults, typesT_overrides. Qed.
