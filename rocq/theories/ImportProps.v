(** C54: a saved presentation, imported to be worked on. *)
From Coq Require Import String Ascii List Bool Arith NArith ZArith Sorted Permutation.
From Verif Require Import Str Num XmlSpec FontsModel FontsSpec PackageModel PackageSpec TableModel ShapeModel SlideModel SlideInput SlideSpec SlideWant SlideBackSpec DeckModel DeckInput DeckRefute ReaderModel ReaderSpec
  DocPropsProofs ImportModel ImportSpec ImportProofs ImportDeck ImportAgain ImportRefute.
Import ListNotations.
Open Scope nat_scope.
Open Scope string_scope.

(** C54: whatever wrote the file, importing fails exactly when the reader cannot
    read one of its slides; otherwise there is one slide for each the reader
    gives, in order, with its title, its body text as bullets, one shape for each
    that is neither title nor body, and its first table. *)
Theorem C54_any_file fit p keys :
  (import_pptx fit p keys = None <-> get_all_slides (reader_open p keys) = None)
  /\ forall q, import_pptx fit p keys = Some q -> exists l, get_all_slides (reader_open p keys) = Some l /\ Forall2 taken l (p_slides q)
     /\ p_title q = (match i_title (rd_info (reader_open p keys)) with Some t => t | None => "" end).
Proof. exact (any_file fit p keys). Qed.
Print Assumptions C54_any_file.

(** C54: of a generated deck, importing keeps the title, the slides in their order
    and of each slide exactly what [kept_slide] says. *)
Theorem C54_import fit X title slides st is_dir keys : let deck := create_pptx_with_settings X title slides st in
  List.NoDup (map part_name (st_fonts st)) -> forallb font_ok (st_fonts st) = true -> (forall n c, In (n, c) deck -> is_dir n = false) ->
  keys_order (open_entries is_dir deck) keys -> (N.of_nat (length slides) < u32_max)%N ->
  Forall (fun s => deck_slide_ok s = true /\ slide_fits s = true /\ sizes_ok s = true) slides ->
  exists q, import_pptx fit (open_entries is_dir deck) keys = Some q /\ Forall2 kept_slide slides (p_slides q)
    /\ (plain_title (x_now X) = true -> plain_title title = true -> p_title q = visible title).
Proof. exact (import_kept fit X title slides st is_dir keys). Qed.
Print Assumptions C54_import.
Example C54_import_case : forallb (fun s => deck_slide_ok s && slide_fits s && sizes_ok s) deck0 = true /\ plain_title "Quarterly ""review""" = true
  /\ filter nonblank (map b_text (shown_bullets (hd (nth 1 deck0 (mixed [] [] None [] false)) deck0))) <> [].
Proof. split; [reflexivity|]. split; [reflexivity|]. vm_compute. discriminate. Qed.

(** C54: what was imported, saved and imported again is the same presentation. *)
Theorem C54_again fit X title slides st is_dir keys q Y is_dir' keys' : let deck := create_pptx_with_settings X title slides st in
  List.NoDup (map part_name (st_fonts st)) -> forallb font_ok (st_fonts st) = true -> (forall n c, In (n, c) deck -> is_dir n = false) ->
  keys_order (open_entries is_dir deck) keys -> (N.of_nat (length slides) < u32_max)%N -> slides <> [] ->
  Forall (fun s => deck_slide_ok s = true /\ slide_fits s = true /\ sizes_ok s = true) slides ->
  plain_title (x_now X) = true -> plain_title title = true -> plain_title (x_now Y) = true ->
  import_pptx fit (open_entries is_dir deck) keys = Some q ->
  exists saved, build Y q = Some saved
    /\ ((forall n c, In (n, c) saved -> is_dir' n = false) -> keys_order (open_entries is_dir' saved) keys' -> import_pptx fit (open_entries is_dir' saved) keys' = Some q).
Proof. exact (import_again fit X title slides st is_dir keys q Y is_dir' keys'). Qed.
Print Assumptions C54_again.

(** Finding: a title with an ampersand is lost, because it is not escaped when
    the deck is saved (see C36). *)
Theorem C54_title_refuted : exists title q, text_ok title = true /\ title = "R&D"
  /\ import_pptx (fun _ _ _ => 0%N) (open_entries (fun _ => false) (create_pptx_with_settings statics1 title [slide_new "T"] no_settings)) [] = Some q /\ p_title q = "" /\ length (p_slides q) = 1.
Proof. exact title_lost. Qed.
Print Assumptions C54_title_refuted.
(** Finding: pictures, notes, charts, connectors and the kind and colour of most
    shapes are lost when a deck is imported. *)
Theorem C54_lost_refuted : exists s q v, deck_slide_ok s = true /\ length (s_images s) = 1 /\ s_notes s = Some "notes" /\ length (s_charts s) = 1 /\ map sh_type (s_shapes s) = [KHeart]
  /\ import_pptx (fun _ _ _ => 0%N) (open_entries (fun _ => false) (create_pptx_with_settings statics1 "T" [s] no_settings)) [] = Some q /\ p_slides q = [v]
  /\ s_images v = [] /\ s_notes v = None /\ s_charts v = [] /\ map sh_type (s_shapes v) = [KRectangle] /\ map sh_fill (s_shapes v) = [None].
Proof. exact content_lost. Qed.
Print Assumptions C54_lost_refuted.
(** Finding: of a slide with a body and a table, as another program may have
    written it, the body is imported but no longer shown once saved. *)
Theorem C54_again_refuted : exists files q r, import_pptx (fun _ _ _ => 0%N) (open_entries (fun _ => false) files) [] = Some q
  /\ map s_content (p_slides q) = [["one"]] /\ import_pptx (fun _ _ _ => 0%N) (open_entries (fun _ => false) (create_pptx_with_settings statics1 (p_title q) (p_slides q) no_settings)) [] = Some r
  /\ map s_content (p_slides r) = [[]].
Proof. exact body_lost. Qed.
Print Assumptions C54_again_refuted.
