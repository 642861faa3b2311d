(** Last lemmas and counterexamples for C54. *)
From Coq Require Import String Ascii List Bool Arith NArith ZArith Lia Permutation.
From Verif Require Import Str Num XmlSpec FontsModel FontsSpec PackageModel TableModel ChartModel ShapeModel SlideModel SlideInput SlideSpec SlideWant SlideRefute SlideBackSpec DeckModel DeckInput ReaderModel ReaderSpec MdParseModel
  DocPropsProofs ImportModel ImportSpec ImportProofs ImportDeck ImportAgain.
Import ListNotations.
Open Scope nat_scope.
Open Scope string_scope.

Section F.
  Variable fit : string -> N -> N -> N.
  Lemma tables_taken l : forall t bs shs, exists o, fold_left add_table l (base t bs shs None) = base t bs shs o
    /\ match o with
       | None => Forall (fun g : list (list pcell) => match g with [] => True | row :: _ => row = [] end) l
       | Some t => exists before g row rows' after, l = (before ++ g :: after)%list /\ g = row :: rows' /\ row <> []
                   /\ Forall (fun g => match g with [] => True | row :: _ => row = [] end) before /\ map (fun r => map ctext (cells r)) (rows t) = map (map pc_text) g
       end.
  Proof.
    induction l as [|g l IH]; intros t bs shs; [exists None; split; [reflexivity|constructor]|]. cbn [fold_left].
    destruct (Nat.eqb (match g with r :: _ => length r | [] => 0 end) 0) eqn:E.
    - unfold add_table at 2. cbv zeta. rewrite E. destruct (IH t bs shs) as (o & F & H). exists o. split; [exact F|].
      assert (G : match g with [] => True | row :: _ => row = [] end) by (destruct g as [|[|c r] g]; [exact I|reflexivity|discriminate]).
      destruct o as [tb|]; [|now constructor]. destruct H as (b & g' & row & rows' & a & -> & -> & R & B & M). exists (g :: b), (row :: rows'), row, rows', a. split; [reflexivity|]. split; [reflexivity|]. split; [exact R|]. split; [now constructor|exact M].
    - unfold add_table at 2. cbv zeta. rewrite E. cbn [base s_table].
      set (tb := Table _ _ _ _). change (with_table tb _) with (base t bs shs (Some tb)).
      assert (S : forall l, fold_left add_table l (base t bs shs (Some tb)) = base t bs shs (Some tb)).
      { induction l0 as [|h l0 IHl]; [reflexivity|]. cbn [fold_left]. unfold add_table at 2. cbn [base s_table]. destruct (Nat.eqb (match h with r :: _ => length r | [] => 0 end) 0); exact IHl. }
      exists (Some tb). split; [apply S|]. destruct g as [|row g]; [discriminate|]. exists [], (row :: g), row, g, l. split; [reflexivity|]. split; [reflexivity|]. split; [intros ->; discriminate E|]. split; [constructor|].
      unfold tb. cbn [rows]. rewrite map_map. apply map_ext. intros r. cbn [cells]. rewrite map_map. reflexivity.
  Qed.
  Lemma slide_taken r : taken r (import_slide fit r).
  Proof.
    unfold import_slide. cbv zeta. rewrite base_new, base_bullets, base_shapes. destruct (tables_taken (sl_tables r) (or "" (sl_title r)) ([] ++ sl_body r) ([] ++ map (import_shape fit) (filter own (sl_shapes r)))) as (o & -> & H).
    unfold taken, base. cbn [s_title s_content s_bullets s_shapes s_table app]. split; [now destruct (sl_title r)|]. split; [reflexivity|]. split; [rewrite map_map; apply map_id|]. split; [|exact H].
    replace (filter (fun p => negb (ps_title p || ps_body p)) (sl_shapes r)) with (filter own (sl_shapes r)) by (apply filter_ext; intros p; unfold own; now rewrite negb_orb).
    clear. induction (filter own (sl_shapes r)) as [|p l IH]; [constructor|]. cbn [map]. constructor; [|exact IH]. unfold import_shape. cbv zeta. now destruct (String.eqb (pshape_text p) "").
  Qed.
  Lemma any_file p keys :
    (import_pptx fit p keys = None <-> get_all_slides (reader_open p keys) = None)
    /\ forall q, import_pptx fit p keys = Some q -> exists l, get_all_slides (reader_open p keys) = Some l /\ Forall2 taken l (p_slides q)
       /\ p_title q = (match i_title (rd_info (reader_open p keys)) with Some t => t | None => "" end).
  Proof.
    unfold import_pptx. cbv zeta. destruct (get_all_slides (reader_open p keys)) as [l|]; [|split; [split; reflexivity|discriminate]].
    split; [split; discriminate|]. intros q E. injection E as <-. exists l. split; [reflexivity|]. rewrite fold_add. cbn [p_slides p_title].
    split; [|now destruct (i_title _)].
    replace (p_slides (match i_title _ with Some t => _ | None => _ end)) with (@nil slide) by (now destruct (i_title _)). cbn [app].
    induction l as [|r l IH]; [constructor|]. cbn [map]. constructor; [apply slide_taken|exact IH].
  Qed.
End F.
Lemma import_kept fit X title slides st is_dir keys : let deck := create_pptx_with_settings X title slides st in
  List.NoDup (map part_name (st_fonts st)) -> forallb font_ok (st_fonts st) = true -> (forall n c, In (n, c) deck -> is_dir n = false) ->
  keys_order (open_entries is_dir deck) keys -> (N.of_nat (length slides) < u32_max)%N ->
  Forall (fun s => deck_slide_ok s = true /\ slide_fits s = true /\ sizes_ok s = true) slides ->
  exists q, import_pptx fit (open_entries is_dir deck) keys = Some q /\ Forall2 kept_slide slides (p_slides q)
    /\ (plain_title (x_now X) = true -> plain_title title = true -> p_title q = visible title).
Proof.
  cbv zeta. intros A B C D E F. destruct (deck_import fit X title slides st is_dir A B C keys D E F) as (q & I & _ & K & T). exists q. split; [exact I|]. split; [|exact T].
  clear -K. induction K as [|s v l m [H _] _ IH]; constructor; assumption.
Qed.
Lemma plain_visible t : plain_title t = true -> plain_title (visible t) = true.
Proof. unfold visible. now destruct (blank t). Qed.
Lemma import_again fit X title slides st is_dir keys q Y is_dir' keys' : let deck := create_pptx_with_settings X title slides st in
  List.NoDup (map part_name (st_fonts st)) -> forallb font_ok (st_fonts st) = true -> (forall n c, In (n, c) deck -> is_dir n = false) ->
  keys_order (open_entries is_dir deck) keys -> (N.of_nat (length slides) < u32_max)%N -> slides <> [] ->
  Forall (fun s => deck_slide_ok s = true /\ slide_fits s = true /\ sizes_ok s = true) slides ->
  plain_title (x_now X) = true -> plain_title title = true -> plain_title (x_now Y) = true ->
  import_pptx fit (open_entries is_dir deck) keys = Some q ->
  exists saved, build Y q = Some saved
    /\ ((forall n c, In (n, c) saved -> is_dir' n = false) -> keys_order (open_entries is_dir' saved) keys' -> import_pptx fit (open_entries is_dir' saved) keys' = Some q).
Proof.
  cbv zeta. intros A B C D E NE F N1 N2 N3 I. destruct (deck_import fit X title slides st is_dir A B C keys D E F) as (q' & I' & S & K & T). rewrite I in I'. injection I' as <-.
  specialize (T N1 N2). pose proof (deck_imported fit _ _ F K) as IM. assert (L : length (p_slides q) = length slides) by (clear -K; induction K; cbn; congruence).
  unfold build. destruct (p_slides q) as [|v l] eqn:Q; [destruct slides; [congruence|discriminate]|]. rewrite <- Q in *. rewrite S. eexists. split; [reflexivity|]. intros H1 H2.
  destruct (imported_again fit Y q is_dir' keys' H1 H2) as (r & R & S' & Z & T'); [now rewrite L|exact IM|]. rewrite R. f_equal. destruct r as [t s st']. cbn [p_settings p_slides p_title] in *.
  rewrite T' by (exact N3 || (rewrite T; now apply plain_visible)). rewrite T, visible_idem, <- T. subst. rewrite <- S. now destruct q.
Qed.

(** ** Counterexamples *)
Definition statics1 : statics := Statics "" "" "" "" "" (fun _ => "") "" "" "" (fun _ => "") "" "" "" "2024-01-01T00:00:00Z".
Lemma title_lost : exists title q, text_ok title = true /\ title = "R&D"
  /\ import_pptx (fun _ _ _ => 0%N) (open_entries (fun _ => false) (create_pptx_with_settings statics1 title [slide_new "T"] no_settings)) [] = Some q /\ p_title q = "" /\ length (p_slides q) = 1.
Proof. exists "R&D". eexists. split; [reflexivity|]. split; [reflexivity|]. split; [vm_compute; reflexivity|]. split; reflexivity. Qed.
Definition rich : slide :=
  Slide "T" [] [] Bullet None None true false false false false None None TitleAndContent NoTransition None
    [Shape KHeart 5 6 7 8 (Some (Fill "FF0000" None)) None None None None None None 0 false] [Image "a" 0 0 10 10 None None [] (Some "x") "png"] (Some "notes") [] [chart0] [] false.
Lemma content_lost : exists s q v, deck_slide_ok s = true /\ length (s_images s) = 1 /\ s_notes s = Some "notes" /\ length (s_charts s) = 1 /\ map sh_type (s_shapes s) = [KHeart]
  /\ import_pptx (fun _ _ _ => 0%N) (open_entries (fun _ => false) (create_pptx_with_settings statics1 "T" [s] no_settings)) [] = Some q /\ p_slides q = [v]
  /\ s_images v = [] /\ s_notes v = None /\ s_charts v = [] /\ map sh_type (s_shapes v) = [KRectangle] /\ map sh_fill (s_shapes v) = [None].
Proof.
  exists rich. eexists. eexists. split; [vm_compute; reflexivity|]. do 4 (split; [reflexivity|]). split; [vm_compute; reflexivity|]. split; [reflexivity|]. repeat split; reflexivity.
Qed.
Definition foreign : list entry :=
  [("ppt/_rels/presentation.xml.rels", "<Relationships><Relationship Id=""rId2"" Type=""http://x/relationships/slide"" Target=""slides/slide1.xml""/></Relationships>");
   ("ppt/slides/slide1.xml", "<p:sld><p:cSld><p:spTree><p:sp><p:nvSpPr><p:cNvPr id=""2"" name=""Body""/><p:nvPr><p:ph type=""body""/></p:nvPr></p:nvSpPr><p:txBody><a:p><a:r><a:t>one</a:t></a:r></a:p></p:txBody></p:sp><p:graphicFrame><a:tbl><a:tr><a:tc><a:t>cell</a:t></a:tc></a:tr></a:tbl></p:graphicFrame></p:spTree></p:cSld></p:sld>")].
Lemma body_lost : exists files q r, import_pptx (fun _ _ _ => 0%N) (open_entries (fun _ => false) files) [] = Some q
  /\ map s_content (p_slides q) = [["one"]] /\ import_pptx (fun _ _ _ => 0%N) (open_entries (fun _ => false) (create_pptx_with_settings statics1 (p_title q) (p_slides q) no_settings)) [] = Some r
  /\ map s_content (p_slides r) = [[]].
Proof. exists foreign. eexists. eexists. split; [vm_compute; reflexivity|]. split; [reflexivity|]. split; [vm_compute; reflexivity|]. reflexivity. Qed.
