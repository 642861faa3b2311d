(** C55: the tools of the server. *)
From Coq Require Import String Ascii List Bool Arith NArith ZArith.
From Verif Require Import Str Num XmlSpec FontsModel PackageModel TableModel ShapeModel ChartModel SlideModel SlideInput SlideBackSpec DeckModel DeckInput DeckRefute ReaderModel ReaderSpec
  DocPropsProofs ImportModel ImportSpec ImportRefute McpModel McpSpec McpProofs McpRefute.
Import ListNotations.
Open Scope nat_scope.
Open Scope string_scope.

(** C55: the file made from titles and bullets reads back as these slides, and the
    reply counts them; with no slides there is no file. *)
Theorem C55_create X title path args : forallb slide_arg_ok args = true -> (N.of_nat (length args) < u32_max)%N ->
  (args = [] -> handle_create_presentation X title path args = Failed)
  /\ (args <> [] -> exists files, handle_create_presentation X title path args = Done ("Created presentation '" ++ title ++ "' with " ++ decn (length args) ++ " slide(s) at: " ++ path) files
      /\ reads_as files (fun l => Forall2 bullets_slide l args)).
Proof. intros A B. split; [now intros ->|intros C; exact (create_works X title path args C A B)]. Qed.
Print Assumptions C55_create.
Example C55_create_case : forallb slide_arg_ok [SlideArg "Plan & budget" ["first <b>"; " "; "second"] (Some "title"); SlideArg "" [] None] = true.
Proof. reflexivity. Qed.

(** C55: the file made from tables has a slide for each table whose first row has
    a cell, with its texts, the first row in bold; if there is none, no file. *)
Theorem C55_tables X title path args : forallb table_arg_ok args = true -> (N.of_nat (length args) < u32_max)%N ->
  (filter tabular args = [] -> handle_create_with_tables X title path args = Failed)
  /\ (filter tabular args <> [] -> exists slides files, handle_create_with_tables X title path args = Done ("Created presentation with " ++ decn (length args) ++ " table slide(s) at: " ++ path) files
      /\ files = create_pptx_with_settings X title slides no_settings /\ Forall2 table_of slides (filter tabular args) /\ reads_as files (fun l => Forall2 table_slide_read l (filter tabular args))).
Proof. exact (tables_work X title path args). Qed.
Print Assumptions C55_tables.
Example C55_tables_case : let args := [TableArg "One" [["a"; "b"]; ["1"]; []]; TableArg "Two" []; TableArg "Three" [[]; ["x"]]] in
  forallb table_arg_ok args = true /\ length (filter tabular args) = 1.
Proof. split; reflexivity. Qed.
(** Finding: the reply counts tables that were left out. *)
Theorem C55_tables_count_refuted : exists args files l, handle_create_with_tables statics1 "T" "out.pptx" args = Done "Created presentation with 2 table slide(s) at: out.pptx" files
  /\ get_all_slides (reader_open (open_entries (fun _ => false) files) []) = Some l /\ length l = 1.
Proof. exact count_wrong. Qed.
Print Assumptions C55_tables_count_refuted.

(** C55: the file made from charts is that of a presentation with one slide for
    each, with the chart asked for. *)
Theorem C55_charts X title path args :
  (args = [] -> handle_create_with_charts X title path args = Failed)
  /\ (args <> [] -> exists slides files, handle_create_with_charts X title path args = Done ("Created presentation with " ++ decn (length args) ++ " chart slide(s) at: " ++ path) files
      /\ files = create_pptx_with_settings X title slides no_settings /\ Forall2 chart_of slides args).
Proof. split; [now intros ->|exact (proj2 (charts_work X title path args))]. Qed.
Print Assumptions C55_charts.

(** C55: merging takes the slides of all files in the order of the paths, under the
    title of the first; fewer than two paths, or one that cannot be imported, and
    nothing is written. *)
Theorem C55_merge fit load X paths decks first out : let slides := flat_map snd decks in
  Forall2 (fun p d => saved_deck (load p) (fst d) (snd d)) paths decks -> 2 <= length paths -> slides <> [] -> (N.of_nat (length slides) < u32_max)%N ->
  plain_title (x_now X) = true -> hd_error decks = Some first ->
  exists files, handle_merge_pptx X fit load paths out = Done ("Merged " ++ decn (length paths) ++ " files (" ++ decn (length slides) ++ " total slides) to: " ++ out) files
    /\ forall is_dir keys, (forall n c, In (n, c) files -> is_dir n = false) -> keys_order (open_entries is_dir files) keys ->
       exists q, import_pptx fit (open_entries is_dir files) keys = Some q /\ p_title q = visible (fst first) /\ Forall2 kept_slide slides (p_slides q).
Proof. intros slides F L. exact (merge_works fit load X paths decks first slides out F L eq_refl). Qed.
Print Assumptions C55_merge.
Example C55_merge_case : Forall2 (fun p d => saved_deck (disk p) (fst d) (snd d)) ["a.pptx"; "b.pptx"] [("First", deck0); ("Second", [slide_new "More"])] /\ 1 < length deck0.
Proof. split; [exact disk_decks|vm_compute; repeat constructor]. Qed.
Theorem C55_merge_fails fit load X paths out : length paths < 2 \/ (exists p, In p paths /\ from_path fit load p = None) -> handle_merge_pptx X fit load paths out = Failed.
Proof. exact (merge_fails fit load X paths out). Qed.
Print Assumptions C55_merge_fails.

(** C55: the summary of a saved deck: its title, the number of its slides, and one
    entry for each in order. *)
Theorem C55_info fit load path title slides : saved_deck (load path) title slides ->
  exists ms, handle_get_pptx_info fit load path = Some (visible title, length slides, ms) /\ length ms = length slides /\ forall k m, nth_error ms k = Some m -> summed_up slides k m.
Proof. exact (info_works fit load path title slides). Qed.
Print Assumptions C55_info.
(** Finding: pictures and charts are never listed. *)
Theorem C55_features_refuted : exists s ms, deck_slide_ok s = true /\ length (s_charts s) = 1 /\ length (s_images s) = 1
  /\ handle_get_pptx_info (fun _ _ _ => 0%N) (fun _ => Some (pack "T" [s], [])) "a.pptx" = Some ("T", 1, ms) /\ map m_features ms = [["shapes"]].
Proof. exact charts_unseen. Qed.
Print Assumptions C55_features_refuted.
(** Finding: the layout asked for makes no difference. *)
Theorem C55_layout_refuted X title path a l : handle_create_presentation X title path [SlideArg (a_title a) (a_bullets a) l] = handle_create_presentation X title path [a].
Proof. exact (layout_ignored X title path a l). Qed.
Print Assumptions C55_layout_refuted.
