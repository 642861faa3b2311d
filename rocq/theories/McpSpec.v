(** What the tools of the server should do. *)
From Coq Require Import String Ascii List Bool Arith NArith ZArith.
From Verif Require Import Str Num XmlSpec FontsModel FontsSpec PackageModel TableModel ShapeModel ChartModel SlideModel SlideInput SlideWant SlideBackSpec DeckModel DeckInput ReaderModel ReaderSpec DocPropsProofs ImportSpec McpModel.
Import ListNotations.
Open Scope string_scope.

(** What is at a path is a deck of this title and these slides, as the library
    saves it. *)
Definition slides_in (slides : list slide) : Prop := Forall (fun s => deck_slide_ok s = true /\ slide_fits s = true /\ sizes_ok s = true) slides.
Definition saved_deck (o : option (package * list string)) (title : string) (slides : list slide) : Prop :=
  exists X st is_dir keys, let deck := create_pptx_with_settings X title slides st in
    o = Some (open_entries is_dir deck, keys) /\ List.NoDup (map part_name (st_fonts st)) /\ forallb font_ok (st_fonts st) = true
    /\ (forall n c, In (n, c) deck -> is_dir n = false) /\ keys_order (open_entries is_dir deck) keys /\ (N.of_nat (length slides) < u32_max)%N
    /\ slides_in slides /\ plain_title (x_now X) = true /\ plain_title title = true.
(** What a reader finds in a file, however the archive lists its parts. *)
Definition reads_as (files : list entry) (P : list pslide -> Prop) : Prop :=
  forall is_dir keys, (forall n c, In (n, c) files -> is_dir n = false) -> keys_order (open_entries is_dir files) keys ->
    exists l, get_all_slides (reader_open (open_entries is_dir files) keys) = Some l /\ P l.
(** A slide with this title and these bullets, and nothing else. *)
Definition bullets_slide (r : pslide) (a : slide_arg) : Prop :=
  sl_title r = Some (visible (a_title a)) /\ sl_body r = filter nonblank (a_bullets a) /\ sl_tables r = [] /\ Forall (fun p => ps_title p || ps_body p = true) (sl_shapes r).
Definition slide_arg_ok (a : slide_arg) : bool := text_ok (a_title a) && forallb text_ok (a_bullets a).
(** A slide with this title and this table, and nothing else. *)
Definition filled (r : list string) : bool := match r with [] => false | _ => true end.
Definition tabular (a : table_arg) : bool := match t_rows a with r :: _ => filled r | [] => false end.
Definition table_slide_read (r : pslide) (a : table_arg) : Prop :=
  sl_title r = Some (visible (t_title a)) /\ sl_body r = [] /\ map (map (map pc_text)) (sl_tables r) = [map (map visible) (filter filled (t_rows a))].
Definition table_arg_ok (a : table_arg) : bool := text_ok (t_title a) && forallb (forallb text_ok) (t_rows a).
(** The slide the table tool makes: the texts of the rows, the first in bold. *)
Definition table_of (s : slide) (a : table_arg) : Prop :=
  s_title s = t_title a /\ exists t, s_table s = Some t /\ Forall2 (fun r ts => map ctext (cells r) = ts) (rows t) (t_rows a)
    /\ forall k r, nth_error (rows t) k = Some r -> Forall (fun c => cbold c = Nat.eqb k 0) (cells r).
(** A slide with this chart; a name that is not known gives bars. *)
Definition kind_names : list (string * chart_type) := [("line", ChartModel.Line); ("pie", Pie); ("area", Area)].
Definition kind_named (t : string) (k : chart_type) : Prop := In (t, k) kind_names \/ (~ In t (map fst kind_names) /\ k = Bar).
Definition chart_of (s : slide) (a : chart_arg) : Prop :=
  s_title s = c_title a /\ exists c, s_charts s = [c] /\ title c = c_chart a /\ kind_named (c_type a) (ctype c) /\ categories c = c_cats a /\ sers c = c_series a.
(** The summary of a slide: its place in the deck, its title, how many bullets
    are shown, and whether a table or shapes are. *)
Definition summed_up (slides : list slide) (k : nat) (m : summary) : Prop :=
  exists s, nth_error slides k = Some s /\ m_number m = S k /\ m_title m = (match s_layout s with Blank => "" | _ => visible (s_title s) end)
    /\ m_bullets m = length (filter nonblank (map b_text (shown_bullets s)))
    /\ (In "table" (m_features m) <-> shown_cells s <> []) /\ (In "shapes" (m_features m) <-> s_shapes s <> [] \/ s_code s <> [])
    /\ ~ In "images" (m_features m) /\ ~ In "charts" (m_features m).
