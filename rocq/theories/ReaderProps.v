(** C18, C53: presentations as the reader gives them. *)
From Coq Require Import String Ascii List Bool Arith NArith ZArith Sorted Permutation.
From Verif Require Import Str Num XmlSpec XmlPath OpcSpec FontsModel FontsSpec PackageModel PackageSpec TableModel ShapeModel SlideModel SlideInput SlideWant DeckModel DeckSpec DeckInput DeckRefute ReaderModel ReaderSpec ReaderProofs DeckReader SlideBackSpec SlideBackProofs DeckBack.
Import ListNotations.
Open Scope nat_scope.
Open Scope string_scope.

(** C18: whatever wrote the file, the slides are those the presentation's
    relationships name, ordered by the number in the relationship id. *)
Theorem C18_any_file p keys xml n a ks r : get_part p "ppt/_rels/presentation.xml.rels" = Some xml -> xml_read xml = Some (Elem n a ks) ->
  slide_rels ks r -> r <> [] -> Forall (fun e => (fst e <= u32_max)%N) r ->
  exists l, Permutation l r /\ StronglySorted (fun x y => (fst x <= fst y)%N) l /\ Forall2 placed_at (map snd l) (rd_slides (reader_open p keys)).
Proof. exact (listed_order p keys xml n a ks r). Qed.
Print Assumptions C18_any_file.

(** C18: a generated deck is read with all its slides, in order. *)
Theorem C18_deck X title slides st is_dir keys : let deck := create_pptx_with_settings X title slides st in
  List.NoDup (map part_name (st_fonts st)) -> forallb font_ok (st_fonts st) = true -> (forall n c, In (n, c) deck -> is_dir n = false) ->
  keys_order (open_entries is_dir deck) keys -> (N.of_nat (length slides) < u32_max)%N ->
  rd_slides (reader_open (open_entries is_dir deck) keys) = map (fun k => ("ppt/slides/slide" ++ decn k ++ ".xml")%string) (seq 1 (length slides))
  /\ rd_count (reader_open (open_entries is_dir deck) keys) = length slides.
Proof.
  cbv zeta. intros A B C D E. pose proof (deck_paths X title slides st is_dir A B C keys D E) as P. split; [exact P|].
  unfold rd_count. now rewrite P, map_length, seq_length.
Qed.
Print Assumptions C18_deck.
(** The order is that of the numbers: slide2 before slide10. *)
Example C18_deck_case : List.NoDup (map part_name (st_fonts settings0)) /\ forallb font_ok (st_fonts settings0) = true
  /\ nth_error (map (fun k => ("ppt/slides/slide" ++ decn k ++ ".xml")%string) (seq 1 12)) 1 = Some "ppt/slides/slide2.xml"
  /\ nth_error (map (fun k => ("ppt/slides/slide" ++ decn k ++ ".xml")%string) (seq 1 12)) 9 = Some "ppt/slides/slide10.xml".
Proof. split; [|repeat split]. repeat constructor; cbn; intuition discriminate. Qed.

(** Finding: the reader goes by the numbers in the relationship ids, not by the
    slide list of presentation.xml, which is what fixes the order of slides. *)
Definition swapped : list entry :=
  [("ppt/presentation.xml", "<p:presentation><p:sldIdLst><p:sldId id=""256"" r:id=""rId3""/><p:sldId id=""257"" r:id=""rId2""/></p:sldIdLst></p:presentation>");
   ("ppt/_rels/presentation.xml.rels", "<Relationships><Relationship Id=""rId2"" Type=""http://x/relationships/slide"" Target=""slides/slide1.xml""/><Relationship Id=""rId3"" Type=""http://x/relationships/slide"" Target=""slides/slide2.xml""/></Relationships>")].
Theorem C18_list_order_refuted : exists files x rels,
  option_map (fun c => xml_read c) (get_part (open_entries (fun _ => false) files) "ppt/presentation.xml") = Some (Some x)
  /\ option_map rels_of (get_part (open_entries (fun _ => false) files) "ppt/_rels/presentation.xml.rels") = Some (Some rels)
  /\ map (fun r => (rel_id r, rel_target r)) rels = [("rId2", "slides/slide1.xml"); ("rId3", "slides/slide2.xml")]
  /\ map (attr "r:id") (at_path ["p:sldIdLst"; "p:sldId"] x) = ["rId3"; "rId2"]
  /\ forall keys, rd_slides (reader_open (open_entries (fun _ => false) files) keys) = ["ppt/slides/slide1.xml"; "ppt/slides/slide2.xml"].
Proof.
  exists swapped. eexists. eexists. split; [vm_compute; reflexivity|]. split; [vm_compute; reflexivity|]. split; [vm_compute; reflexivity|]. split; [vm_compute; reflexivity|].
  intros keys. unfold reader_open, slide_paths. replace (rels_paths _) with ["ppt/slides/slide1.xml"; "ppt/slides/slide2.xml"] by (vm_compute; reflexivity). now destruct (core_info _).
Qed.
Print Assumptions C18_list_order_refuted.

(** C53: a slide part read back gives the caller's title, bullets (text, level,
    format), table and shapes. *)
Theorem C53_slide s rids ink : slide_ok s = true -> rids_ok rids ink = true -> slide_fits s = true -> sizes_ok s = true ->
  exists r, parse_slide (slide_xml s rids ink) = Some r /\ given_back s r.
Proof. exact (slide_back s rids ink). Qed.
Print Assumptions C53_slide.
Example C53_slide_case : forallb (fun s => slide_ok s && slide_fits s && sizes_ok s) deck0 = true /\ length (shown_bullets (hd (nth 1 deck0 (mixed [] [] None [] false)) deck0)) = 5.
Proof. split; reflexivity. Qed.
(** C53: so for every slide of a generated deck, by its index. *)
Theorem C53_deck_slide X title slides st is_dir keys i s : let deck := create_pptx_with_settings X title slides st in
  List.NoDup (map part_name (st_fonts st)) -> forallb font_ok (st_fonts st) = true -> (forall n c, In (n, c) deck -> is_dir n = false) ->
  keys_order (open_entries is_dir deck) keys -> (N.of_nat (length slides) < u32_max)%N ->
  nth_error slides i = Some s -> deck_slide_ok s = true -> slide_fits s = true -> sizes_ok s = true ->
  exists r, get_slide (reader_open (open_entries is_dir deck) keys) i = Some r /\ given_back s r.
Proof. cbv zeta. intros A B C D E. exact (deck_slide X title slides st is_dir A B C keys D E i s). Qed.
Print Assumptions C53_deck_slide.
Theorem C53_deck X title slides st is_dir keys : let deck := create_pptx_with_settings X title slides st in
  List.NoDup (map part_name (st_fonts st)) -> forallb font_ok (st_fonts st) = true -> (forall n c, In (n, c) deck -> is_dir n = false) ->
  keys_order (open_entries is_dir deck) keys -> (N.of_nat (length slides) < u32_max)%N ->
  Forall (fun s => deck_slide_ok s = true /\ slide_fits s = true /\ sizes_ok s = true) slides ->
  exists l, get_all_slides (reader_open (open_entries is_dir deck) keys) = Some l /\ Forall2 given_back slides l.
Proof. cbv zeta. intros A B C D E. exact (deck_slides X title slides st is_dir A B C keys D E). Qed.
Print Assumptions C53_deck.
Example C53_deck_case : forallb (fun s => deck_slide_ok s && slide_fits s && sizes_ok s) deck0 = true.
Proof. reflexivity. Qed.
(** Finding: the text of a code block is not read back: it stands in no paragraph. *)
Theorem C53_code_refuted : exists s c r, slide_ok s = true /\ s_code s = [c] /\ cb_code c = "let x = 1;"
  /\ parse_slide (slide_xml s [] None) = Some r /\ slide_all_text r = ["T"; "T"].
Proof.
  exists (Slide "T" [] [] Bullet None None true false false false false None None TitleAndContent NoTransition None [] [] None [] [] [Code "let x = 1;" "rust" 1 2 3 4] false).
  eexists. eexists. split; [reflexivity|]. split; [reflexivity|]. split; [reflexivity|]. split; vm_compute; reflexivity.
Qed.
Print Assumptions C53_code_refuted.
(** Finding: the text of a slide is listed twice, once as title or body and
    once more for the shape that holds it; the text of its table not at all. *)
Definition with_text (t : option table) : slide := Slide "Title" ["one"; "two"] [] Bullet None None true false false false false None None TitleAndContent NoTransition t [] [] None [] [] [] false.
Theorem C53_all_text_refuted : exists s r t q, slide_ok s = true /\ s_content s = ["one"; "two"] /\ parse_slide (slide_xml s [] None) = Some r /\ slide_all_text r = ["Title"; "one"; "two"; "Title"; "one" ++ nl ++ "two"]
  /\ slide_ok t = true /\ parse_slide (slide_xml t [] None) = Some q /\ map (map (map pc_text)) (sl_tables q) = [[["cell"]]] /\ slide_all_text q = ["Title"; "Title"].
Proof.
  exists (with_text None). eexists. exists (with_text (Some (Table [TableModel.Row [cell_new "cell"] None] [100%N] 0 0))). eexists.
  split; [reflexivity|]. split; [reflexivity|]. split; [vm_compute; reflexivity|]. split; [vm_compute; reflexivity|]. split; [reflexivity|]. split; [vm_compute; reflexivity|]. split; vm_compute; reflexivity.
Qed.
Print Assumptions C53_all_text_refuted.
