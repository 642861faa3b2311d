(** Parts on their own: what must come back and what must be found in the text. *)
From Coq Require Import String Ascii List Bool Arith NArith.
From Verif Require Import Str Num XmlSpec OpcSpec XmlPath PartsModel.
Import ListNotations.
Open Scope string_scope.

(** Texts that may stand in a document, or in an attribute, as they are *)
Definition as_text (s : string) : bool := sforall (fun c => xml_char c && negb (Ascii.eqb c "<") && negb (Ascii.eqb c "&") && negb (Ascii.eqb c c_cr)) s.
Definition as_value (s : string) : bool :=
  sforall (fun c => xml_char c && negb (Ascii.eqb c "<") && negb (Ascii.eqb c "&") && negb (Ascii.eqb c c_quot) && negb (Ascii.eqb c c_cr || Ascii.eqb c c_lf || Ascii.eqb c c_tab)) s.
(** What a reader can say of a field: one that is blank is as good as none. *)
Definition kept (o : option string) : option string := match o with Some s => if blank s then None else Some s | None => None end.
Definition opt_ok (f : string -> bool) (o : option string) : bool := match o with Some s => f s | None => true end.
Definition texts_at (p : list string) (x : node) : list string := map text_in (at_path p x).

(** ** Core properties: any history of calls *)
Inductive core_call := SetTitle (s : string) | SetSubject (s : string) | SetCreator (s : string) | SetKeywords (s : string) | SetDescription (s : string) | Touch (secs : N).
Definition core_do (c : core) (k : core_call) : core :=
  match k with
  | SetTitle s => set_title s c | SetSubject s => set_subject s c | SetCreator s => set_creator s c
  | SetKeywords s => set_keywords s c | SetDescription s => set_description s c | Touch t => touch t c
  end.
Definition core_call_ok (ok : string -> bool) (k : core_call) : bool :=
  match k with SetTitle s | SetSubject s | SetCreator s | SetKeywords s | SetDescription s => ok s | Touch _ => true end.
(** The last value a kind of call gave *)
Fixpoint last_of {C A} (f : C -> option A) (start : option A) (l : list C) : option A :=
  match l with [] => start | k :: l => last_of f (match f k with Some x => Some x | None => start end) l end.
Definition title_in (k : core_call) := match k with SetTitle s => Some s | _ => None end.
Definition subject_in (k : core_call) := match k with SetSubject s => Some s | _ => None end.
Definition creator_in (k : core_call) := match k with SetCreator s => Some s | _ => None end.
Definition keywords_in (k : core_call) := match k with SetKeywords s => Some s | _ => None end.
Definition description_in (k : core_call) := match k with SetDescription s => Some s | _ => None end.
Definition touch_in (k : core_call) := match k with Touch t => Some t | _ => None end.
Definition touches (l : list core_call) : nat := length (filter (fun k => match k with Touch _ => true | _ => false end) l).
(** Fields that can be written and read *)
Definition core_fields_ok (c : core) : bool :=
  opt_ok text_ok (k_title c) && opt_ok text_ok (k_subject c) && opt_ok text_ok (k_creator c) && opt_ok text_ok (k_keywords c) && opt_ok text_ok (k_description c) && opt_ok text_ok (k_by c)
  && opt_ok as_text (k_created c) && opt_ok as_text (k_modified c) && match k_revision c with Some r => (r <=? u32_max)%N | None => true end.

(** ** Application properties *)
Definition app_ok (a : aprops) : bool := as_text (a_application a) && as_text (a_version a) && opt_ok as_text (a_company a) && as_text (a_format a).
Inductive app_call := Application (s : string) | Company (s : string) | SlideCount (n : N) | Format (s : string).
Definition app_do (a : aprops) (k : app_call) : aprops :=
  match k with Application s => app_set_application s a | Company s => app_set_company s a | SlideCount n => app_set_slides n a | Format s => app_set_format s a end.
Definition app_call_ok (k : app_call) : bool := match k with Application s | Company s | Format s => as_text s | SlideCount _ => true end.
Definition application_in (k : app_call) := match k with Application s => Some s | _ => None end.
Definition company_in (k : app_call) := match k with Company s => Some s | _ => None end.
Definition slides_in (k : app_call) := match k with SlideCount n => Some (dec n) | _ => None end.
Definition format_in (k : app_call) := match k with Format s => Some s | _ => None end.
(** The one text a field must have, or none *)
Definition one (o : option string) : list string := match o with Some s => [s] | None => [] end.

(** ** The presentation *)
(** Numbers of the width the caller's types have, ids that may stand in an attribute *)
Definition pres_ok (p : pres) : bool :=
  forallb (fun x => (fst x <=? u32_max)%N && as_value (snd x)) (p_slides p) && opt_ok as_value (p_master p) && (p_width p <=? u32_max)%N && (p_height p <=? u32_max)%N.
(** The relationship id of the master *)
Definition master_id (p : pres) : string := match p_master p with Some r => r | None => "rId1" end.
(** The slides a history of [add_slide] calls makes, and the ids it returned *)
Fixpoint add_all (p : pres) (rs : list string) : list N * pres :=
  match rs with [] => ([], p) | r :: rs => let '(i, p) := pres_add r p in let '(l, p) := add_all p rs in (i :: l, p) end.
(** The relationship ids of the master and the theme, as given or as handed out *)
Inductive own (p : pres) : string -> string -> Prop :=
| own_both m t : p_master p = Some m -> p_theme p = Some t -> own p m t
| own_theme t : p_master p = None -> p_theme p = Some t -> own p "rId1" t
| own_none : p_master p = None -> p_theme p = None -> own p "rId1" "rId2"
| own_master n : p_master p = Some ("rId" ++ dec n) -> p_theme p = None -> (1 <= n < 4294967295)%N -> own p ("rId" ++ dec n) ("rId" ++ dec (n + 1)).
(** The relationships a presentation needs *)
Fixpoint number_slides (i : nat) (l : list string) : list rel :=
  match l with [] => [] | r :: l => Rel r (doc_rel "slide") ("slides/slide" ++ decn (S i) ++ ".xml") "" :: number_slides (S i) l end.
Definition wanted_rels (m t : string) (l : list string) : list rel :=
  Rel m (doc_rel "slideMaster") "slideMasters/slideMaster1.xml" "" :: Rel t (doc_rel "theme") "theme/theme1.xml" "" :: number_slides 0 l.

(** ** Content types: the parts of a package and their media types (ECMA-376) *)
(** Names and types that may stand in an attribute *)
Definition entry_ok (x : string * string) : bool := as_value (fst x) && as_value (snd x).
Definition ctypes_ok (c : ctypes) : bool := forallb entry_ok (t_defaults c) && forallb entry_ok (t_overrides c).
Inductive kind := KPresentation | KSlide (n : nat) | KLayout (n : nat) | KMaster (n : nat) | KTheme (n : nat) | KNotes (n : nat) | KChart (n : nat) | KCore | KApp | KOther (name type : string).
Definition part_name (k : kind) : string :=
  match k with
  | KPresentation => "/ppt/presentation.xml" | KSlide n => "/ppt/slides/slide" ++ decn n ++ ".xml" | KLayout n => "/ppt/slideLayouts/slideLayout" ++ decn n ++ ".xml"
  | KMaster n => "/ppt/slideMasters/slideMaster" ++ decn n ++ ".xml" | KTheme n => "/ppt/theme/theme" ++ decn n ++ ".xml" | KNotes n => "/ppt/notesSlides/notesSlide" ++ decn n ++ ".xml"
  | KChart n => "/ppt/charts/chart" ++ decn n ++ ".xml" | KCore => "/docProps/core.xml" | KApp => "/docProps/app.xml" | KOther n _ => n
  end.
Definition office (s : string) : string := "application/vnd.openxmlformats-officedocument." ++ s ++ "+xml".
Definition media_type (k : kind) : string :=
  match k with
  | KPresentation => office "presentationml.presentation.main" | KSlide _ => office "presentationml.slide" | KLayout _ => office "presentationml.slideLayout" | KMaster _ => office "presentationml.slideMaster"
  | KTheme _ => office "theme" | KNotes _ => office "presentationml.notesSlide" | KChart _ => office "drawingml.chart" | KCore => "application/vnd.openxmlformats-package.core-properties+xml"
  | KApp => office "extended-properties" | KOther _ t => t
  end.
Definition kind_ok (k : kind) : bool := match k with KOther n t => as_value n && as_value t | _ => true end.
Definition declare (c : ctypes) (k : kind) : ctypes :=
  match k with
  | KPresentation => add_presentation c | KSlide n => add_slide_type n c | KLayout n => add_slide_layout n c | KMaster n => add_slide_master n c | KTheme n => add_theme n c
  | KNotes n => add_notes_slide n c | KChart n => add_chart n c | KCore => add_core_properties c | KApp => add_app_properties c | KOther n t => add_override n t c
  end.

(** ** Themes: any history of calls *)
Inductive theme_call := Name (s : string) | Major (s : string) | Minor (s : string) | Color (name value : string).
Definition theme_do (t : theme) (k : theme_call) : theme :=
  match k with Name s => theme_set_name s t | Major s => theme_set_major s t | Minor s => theme_set_minor s t | Color n v => theme_set_color n v t end.
Definition theme_call_ok (k : theme_call) : bool :=
  match k with Name s | Major s | Minor s => as_value s | Color n v => is_name ("a:" ++ n) && as_value n && as_value v end.
Fixpoint last_given (f : theme_call -> option string) (start : string) (l : list theme_call) : string :=
  match l with [] => start | k :: l => last_given f (match f k with Some x => x | None => start end) l end.
Definition name_in (k : theme_call) := match k with Name s => Some s | _ => None end.
Definition major_in (k : theme_call) := match k with Major s => Some s | _ => None end.
Definition minor_in (k : theme_call) := match k with Minor s => Some s | _ => None end.
(** The colour of a name after a history of calls *)
Fixpoint color_after (n : string) (start : option string) (l : list theme_call) : option string :=
  match l with [] => start | Color m v :: l => color_after n (if String.eqb m n then Some v else start) l | _ :: l => color_after n start l end.
Definition office_color (n : string) : option string :=
  option_map snd (find (fun p => String.eqb (fst p) n)
    [("dk1", "000000"); ("lt1", "FFFFFF"); ("dk2", "44546A"); ("lt2", "E7E6E6"); ("accent1", "4472C4"); ("accent2", "ED7D31"); ("accent3", "A5A5A5"); ("accent4", "FFC000"); ("accent5", "5B9BD5"); ("accent6", "70AD47"); ("hlink", "0563C1"); ("folHlink", "954F72")]).
(** The colours found in a theme under a name *)
Definition colors_found (n : string) (x : node) : list string := map (attr "val") (at_path ["a:themeElements"; "a:clrScheme"; "a:" ++ n; "a:srgbClr"] x).

(** ** Notes *)
Definition body_paragraphs (x : node) : list node := at_path ["p:cSld"; "p:spTree"; "p:sp"; "p:txBody"; "a:p"] x.
Definition paragraph_text (x : node) : string := sconcat (map text_in (at_path ["a:r"; "a:t"] x)).

(** ** Layouts and masters *)
(** ECMA-376, ST_SlideLayoutType *)
Definition layout_code (t : layout_type) : string :=
  match t with
  | LTitle => "title" | LTitleAndContent => "obj" | LSectionHeader => "secHead" | LTwoContent => "twoObj" | LComparison => "twoTxTwoObj" | LTitleOnly => "titleOnly" | LBlank => "blank"
  | LContentWithCaption => "objTx" | LPictureWithCaption => "picTx" | LTitleAndVerticalText => "vertTx" | LVerticalTitleAndText => "vertTitleAndTx" | LCustom => "cust"
  end.
(** The layouts of a master are numbered from 2147483649. *)
Fixpoint number_layouts (k : N) (l : list string) : list (string * string) :=
  match l with [] => [] | r :: l => (dec (2147483649 + k), r) :: number_layouts (k + 1) l end.
(** A line of notes *)
Definition line_ok (l : string) : Prop := text_ok l = true /\ sforall (fun c => negb (Ascii.eqb c c_lf)) l = true.
