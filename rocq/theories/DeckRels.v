(** Lemmas: the relationship parts of a generated deck, read back. *)
From Coq Require Import String Ascii List Bool Arith NArith Lia.
From Verif Require Import Str StrRefl Num XmlSpec XmlProofs XmlTpl EscapeModel OpcSpec GenModel GenProofs FontsModel PresProofs ChartModel ShapeModel SlideModel SlideInput SlideWant DeckModel ResolveSpec ResolveModel ResolveProofs DeckSpec DeckInput DeckParts.
Import ListNotations.
Open Scope nat_scope.
Open Scope string_scope.
Local Open Scope list_scope.

(** The link targets of the model are the destinations of the specification. *)
Lemma turned_replace s : replace_char "\"%char "/" s = turned s.
Proof. unfold replace_char. induction s as [|c s IH]; [reflexivity|]. cbn [smap turned]. destruct (Ascii.eqb c "\"%char); cbn; now rewrite IH. Qed.
Lemma target_destination a : relationship_target a = fst (destination a).
Proof. destruct a as [| | | | | | |? [?|]|p]; try reflexivity. - cbn. now rewrite sapp_nil_r. - cbn [relationship_target destination fst]. now rewrite turned_replace. Qed.
Lemma mode_destination a : (if is_external a then "External" else "")%string = snd (destination a).
Proof. destruct a as [| | | | | | |? [?|]|]; reflexivity. Qed.

(** ** Slides *)
Definition linkT (h : hyperlink) (r : string) : list tpl :=
  [TT [Lit nl]; TS "Relationship" ([("Id", [Lit r]); ("Type", [Lit (doc_rel "hyperlink")]); ("Target", [Esc (relationship_target (h_action h))])]
     ++ if is_external (h_action h) then [("TargetMode", [Lit "External"])] else [])].
Definition link_rel (p : hyperlink * string) : rel :=
  Rel (snd p) (doc_rel "hyperlink") (relationship_target (h_action (fst p))) (if is_external (h_action (fst p)) then "External" else "").
Definition imageT (st : nat) (p : nat * (nat * string)) : list tpl :=
  relT [Lit "rId"; Lit (decn (st + fst p))] [Lit "image"] [Lit "../media/image"; Lit (decn (fst (snd p))); Lit "."; Lit (snd (snd p))].
Definition image_rel (st : nat) (p : nat * (nat * string)) : rel :=
  Rel ("rId" ++ decn (st + fst p)) (doc_rel "image") ("../media/image" ++ decn (fst (snd p)) ++ "." ++ snd (snd p)) "".
Definition chartT (p : string * string) : list tpl := relT [Lit (fst p)] [Lit "chart"] [Lit (snd p)].
Definition chart_rel (p : string * string) : rel := Rel (fst p) (doc_rel "chart") (snd p) "".
Definition slide_body (layout : nat) (notes : bool) (num : nat) (charts : list (string * string)) (images : list (nat * string)) (links : list (hyperlink * string)) (ink : option (nat * nat)) : list tpl :=
  relT [Lit "rId1"] [Lit "slideLayout"] [Lit "../slideLayouts/slideLayout"; Lit (decn layout); Lit ".xml"]
  ++ (if notes then relT [Lit "rId2"] [Lit "notesSlide"] [Lit "../notesSlides/notesSlide"; Lit (decn num); Lit ".xml"] else [])
  ++ flat_map (imageT (if notes then 3 else 2)) (enumerate images)
  ++ flat_map chartT charts
  ++ match ink with Some (r, k) => relT [Lit "rId"; Lit (decn r)] [Lit "ink"] [Lit "../ink/ink"; Lit (decn k); Lit ".xml"] | None => [] end
  ++ flat_map (fun p => linkT (fst p) (snd p)) links
  ++ [TT [Lit nl]].
Definition slide_rel_list (layout : nat) (notes : bool) (num : nat) (charts : list (string * string)) (images : list (nat * string)) (links : list (hyperlink * string)) (ink : option (nat * nat)) : list rel :=
  [Rel "rId1" (doc_rel "slideLayout") ("../slideLayouts/slideLayout" ++ decn layout ++ ".xml") ""]
  ++ (if notes then [Rel "rId2" (doc_rel "notesSlide") ("../notesSlides/notesSlide" ++ decn num ++ ".xml") ""] else [])
  ++ map (image_rel (if notes then 3 else 2)) (enumerate images)
  ++ map chart_rel charts
  ++ match ink with Some (r, k) => [Rel ("rId" ++ decn r) (doc_rel "ink") ("../ink/ink" ++ decn k ++ ".xml") ""] | None => [] end
  ++ map link_rel links.
Lemma link_str h r : (nl ++ hyperlink_relationship_xml h r)%string = tstrs (linkT h r).
Proof. unfold hyperlink_relationship_xml, linkT, doc_rel. generalize (relationship_target (h_action h)) as u. intros u. destruct (is_external (h_action h)); cbn [app]; tstr_eq. Qed.
Lemma image_str st p : slide_image_rel st p = tstrs (imageT st p).
Proof. destruct p as [i [n e]]. unfold slide_image_rel, imageT, relT. cbn [fst snd]. tstr_eq. Qed.
Lemma chart_str p : slide_chart_rel p = tstrs (chartT p).
Proof. unfold slide_chart_rel, chartT, relT. tstr_eq. Qed.
Lemma slide_rels_tpl layout notes num charts images links ink :
  create_slide_rels_xml_with_images layout notes num charts images (map (fun p => hyperlink_relationship_xml (fst p) (snd p)) links) ink
  = (decl ++ nl ++ tstr (TE "Relationships" xmlns_rels (slide_body layout notes num charts images links ink)))%string.
Proof.
  cbn [tstr]. change (sconcat (map tstr (slide_body layout notes num charts images links ink))) with (tstrs (slide_body layout notes num charts images links ink)).
  unfold slide_body. rewrite !tstrs_app, !tstrs_flat_map. unfold create_slide_rels_xml_with_images, layout_rel_target. rewrite map_map.
  rewrite (sconcat_ext (slide_image_rel _) (fun p => tstrs (imageT (if notes then 3 else 2) p))) by (intros; apply image_str).
  rewrite (sconcat_ext slide_chart_rel (fun p => tstrs (chartT p))) by (intros; apply chart_str).
  rewrite (sconcat_ext (fun x => (nl ++ hyperlink_relationship_xml (fst x) (snd x))%string) (fun p => tstrs (linkT (fst p) (snd p)))) by (intros; apply link_str).
  set (I := sconcat (map (fun p => tstrs (imageT _ p)) _)). set (C := sconcat (map _ charts)). set (L := sconcat (map _ links)). clearbody I C L.
  generalize (decn layout) (decn num). intros d1 d2. change (decn 2) with "2".
  destruct notes; destruct ink as [[r k]|]; [generalize (decn r) (decn k); intros ? ?| |generalize (decn r) (decn k); intros ? ?|]; unfold relT; tstr_eq.
Qed.
Lemma slide_body_rels layout notes num charts images links ink :
  map rel_of (named "Relationship" (tsnodes (slide_body layout notes num charts images links ink))) = slide_rel_list layout notes num charts images links ink.
Proof.
  unfold slide_body, slide_rel_list. rewrite !tsnodes_app, !named_app, !map_app.
  rewrite (rels_flat_map (imageT (if notes then 3 else 2)) (image_rel (if notes then 3 else 2))).
  2:{ intros p. unfold imageT. rewrite relT_rel. unfold image_rel. cbn [vals map sconcat fold_right pval]. now rewrite !sapp_nil_r. }
  rewrite (rels_flat_map chartT chart_rel).
  2:{ intros p. unfold chartT. rewrite relT_rel. unfold chart_rel. cbn [vals map sconcat fold_right pval]. now rewrite !sapp_nil_r. }
  rewrite (rels_flat_map (fun p => linkT (fst p) (snd p)) link_rel).
  2:{ intros [h r]. unfold linkT, link_rel, doc_rel. cbn [fst snd]. generalize (relationship_target (h_action h)) as u. intros u. destruct (is_external (h_action h)); cbn; now rewrite !sapp_nil_r. }
  rewrite !relT_rel. cbn [vals map sconcat fold_right pval]. rewrite !sapp_nil_r.
  change (map rel_of (named "Relationship" (tsnodes [TT [Lit nl]]))) with (@nil rel). rewrite app_nil_r.
  f_equal. f_equal; [destruct notes; [rewrite relT_rel; cbn [vals map sconcat fold_right pval]; now rewrite !sapp_nil_r|reflexivity]|].
  f_equal. f_equal. f_equal. destruct ink as [[r k]|]; [rewrite relT_rel; cbn [vals map sconcat fold_right pval]; now rewrite !sapp_nil_r|reflexivity].
Qed.
Lemma toks_relT id kind target : forallb pv_ok id = true -> forallb pv_ok kind = true -> forallb pv_ok target = true -> toks (relT id kind target).
Proof.
  intros A B C. unfold relT. cbn [toks tok]. repeat split. unfold tattrs_ok. apply andb_true_iff. split; [reflexivity|]. cbn [forallb fst snd pv_ok]. rewrite A, B, C. reflexivity.
Qed.
Lemma toks_flat {A} (f : A -> list tpl) l : (forall x, In x l -> toks (f x)) -> toks (flat_map f l).
Proof. induction l as [|x l IH]; intros H; [exact I|]. cbn [flat_map]. apply toks_app. split; [apply H; now left|apply IH; intros y Y; apply H; now right]. Qed.
Lemma decn_plain n : sforall plain_val (decn n) = true.
Proof. apply decn_val. Qed.
Lemma toks_slide_body layout notes num charts images links ink :
  forallb (fun p => sforall plain_val (fst p) && sforall plain_val (snd p)) charts = true -> forallb (fun p => sforall plain_val (snd p)) images = true -> forallb link_pair_ok links = true ->
  toks (slide_body layout notes num charts images links ink).
Proof.
  intros C I L. unfold slide_body. repeat (apply toks_app; split).
  - apply toks_relT; cbn [forallb pv_ok]; rewrite ?decn_plain; reflexivity.
  - destruct notes; [|exact Logic.I]. apply toks_relT; cbn [forallb pv_ok]; rewrite ?decn_plain; reflexivity.
  - apply toks_flat. intros [i [n e]] H. unfold imageT. cbn [fst snd]. unfold enumerate in H. apply in_combine_r in H. rewrite forallb_forall in I. specialize (I _ H). cbn [snd] in I.
    apply toks_relT; cbn [forallb pv_ok]; rewrite ?decn_plain, ?I; reflexivity.
  - apply toks_flat. intros [a b] H. rewrite forallb_forall in C. specialize (C _ H). cbn [fst snd] in C. apply andb_true_iff in C. unfold chartT. cbn [fst snd].
    apply toks_relT; cbn [forallb pv_ok]; rewrite ?(proj1 C), ?(proj2 C); reflexivity.
  - destruct ink as [[r k]|]; [|exact Logic.I]. apply toks_relT; cbn [forallb pv_ok]; rewrite ?decn_plain; reflexivity.
  - apply toks_flat. intros [h r] H. rewrite forallb_forall in L. specialize (L _ H). unfold link_pair_ok in L. rewrite <- target_destination in L. cbn [fst snd] in *. apply andb_true_iff in L. destruct L as [L1 L2].
    unfold linkT. cbn [toks tok]. repeat split. unfold tattrs_ok. apply andb_true_iff.
    destruct (is_external (h_action h)); (split; [reflexivity|]); cbn [app forallb fst snd pv_ok]; rewrite L1, L2; reflexivity.
  - cbn [toks tok]. repeat split.
Qed.
Lemma slide_rels_read layout notes num charts images links ink :
  forallb (fun p => sforall plain_val (fst p) && sforall plain_val (snd p)) charts = true -> forallb (fun p => sforall plain_val (snd p)) images = true -> forallb link_pair_ok links = true ->
  rels_of (create_slide_rels_xml_with_images layout notes num charts images (map (fun p => hyperlink_relationship_xml (fst p) (snd p)) links) ink)
  = Some (slide_rel_list layout notes num charts images links ink).
Proof. intros C I L. rewrite slide_rels_tpl, rels_of_tpl by (now apply toks_slide_body). now rewrite slide_body_rels. Qed.

(** What the deck writes for a slide, given its place. *)
Lemma links_eq s : slide_hyperlink_relationships s = map (fun p => hyperlink_relationship_xml (fst p) (snd p)) (slide_links s).
Proof.
  unfold slide_hyperlink_relationships, slide_links. induction (s_shapes s) as [|t l IH]; [reflexivity|]. cbn [flat_map]. rewrite map_app, IH. f_equal.
  unfold shape_link. destruct (sh_link t) as [h|]; [|reflexivity]. now destruct (h_rid h).
Qed.
Lemma image_targets_ok reg s : exts_ok s = true -> forallb (fun p => sforall plain_val (snd p)) (slide_image_rel_targets reg s) = true.
Proof.
  unfold exts_ok, slide_image_rel_targets. rewrite !forallb_forall. intros H [n e] I. apply in_flat_map in I. destruct I as (m & M & I). specialize (H m M).
  destruct (im_bytes m) as [b|]; [|destruct I]. destruct (lookup_number reg b (im_ext m)); [|destruct I]. destruct I as [E|[]]. injection E as <- <-. exact H.
Qed.
Lemma chart_rels_ok start k n : forallb (fun p => sforall plain_val (fst p) && sforall plain_val (snd p)) (chart_rels start k n) = true.
Proof.
  unfold chart_rels. rewrite forallb_forall. intros p H. apply in_map_iff in H. destruct H as (j & <- & _). cbn [fst snd]. now rewrite !sforall_app, !decn_plain.
Qed.
Lemma eager_rels_read reg nn kn k s : exts_ok s = true -> links_ok s = true ->
  let images := slide_image_rel_targets reg s in
  let start := slide_content_rel_start (has_notes s) (length images) in
  rels_of (eager_rels reg nn kn k s) = Some (slide_rel_list (layout_number (s_layout s)) (has_notes s) (if has_notes s then nn + 1 else 1)
    (chart_rels start k (length (s_charts s))) images (slide_links s) (if s_ink s then Some (start + length (s_charts s), kn + 1) else None)).
Proof. intros E L. cbv zeta. unfold eager_rels. rewrite links_eq. apply slide_rels_read; [apply chart_rels_ok|now apply image_targets_ok|exact L]. Qed.

(** ** Notes and charts *)
(** ** Notes and charts *)
Lemma notes_rels_read i : rels_of (create_notes_rels_xml i) = Some [Rel "rId1" (doc_rel "slide") ("../slides/slide" ++ decn i ++ ".xml") ""; Rel "rId2" (doc_rel "notesMaster") "../notesMasters/notesMaster1.xml" ""].
Proof.
  transitivity (rels_of (decl ++ nl ++ tstr (TE "Relationships" xmlns_rels (relT [Lit "rId1"] [Lit "slide"] [Lit "../slides/slide"; Lit (decn i); Lit ".xml"]
    ++ relT [Lit "rId2"] [Lit "notesMaster"] [Lit "../notesMasters/notesMaster1.xml"] ++ [TT [Lit nl]])))).
  - f_equal. unfold create_notes_rels_xml, relT. generalize (decn i) as d. intros d. cbn [app]. tstr_eq.
  - rewrite rels_of_tpl.
    + rewrite !tsnodes_app, !named_app, !map_app, !relT_rel. cbn [vals map sconcat fold_right pval]. rewrite !sapp_nil_r. reflexivity.
    + repeat (apply toks_app; split); [apply toks_relT; cbn [forallb pv_ok]; rewrite ?decn_plain; reflexivity|apply toks_relT; reflexivity|cbn [toks tok]; repeat split].
Qed.
Lemma chart_rels_read k : rels_of (create_chart_rels_xml (chart_embedding_filename k)) = Some [Rel "rId1" (doc_rel "package") ("../embeddings/Microsoft_Excel_Sheet" ++ decn k ++ ".xlsx") ""].
Proof.
  transitivity (rels_of (decl ++ nl ++ tstr (TE "Relationships" xmlns_rels (relT [Lit "rId1"] [Lit "package"] [Lit "../embeddings/Microsoft_Excel_Sheet"; Lit (decn k); Lit ".xlsx"] ++ [TT [Lit nl]])))).
  - f_equal. unfold create_chart_rels_xml, chart_embedding_filename, relT. generalize (decn k) as d. intros d. cbn [app]. tstr_eq.
  - rewrite rels_of_tpl.
    + rewrite !tsnodes_app, !named_app, !map_app, !relT_rel. cbn [vals map sconcat fold_right pval]. rewrite !sapp_nil_r. reflexivity.
    + repeat (apply toks_app; split); [apply toks_relT; cbn [forallb pv_ok]; rewrite ?decn_plain; reflexivity|cbn [toks tok]; repeat split].
Qed.

(** ** Where relative references lead *)
Lemma name_num pre post k : name pre -> sforall (fun c => negb (Ascii.eqb c "/")) post = true -> starts_with "." pre = false -> name (pre ++ decn k ++ post).
Proof.
  intros (N & _ & _ & S) P D. destruct pre as [|c pre]; [contradiction|]. assert (c <> "."%char) by (intros ->; destruct pre; discriminate D). repeat split; [discriminate|cbn; congruence|cbn; congruence|].
  rewrite !sforall_app, S, P, andb_true_r. cbn [andb]. apply (sforall_weaken is_digit); [|apply dec_digits]. intros a. destruct (Ascii.eqb_spec a "/") as [->|]; [discriminate|reflexivity].
Qed.
Lemma names_noslash l : Forall name l -> Forall (fun x => sforall (fun c => negb (Ascii.eqb c "/")) x = true) l.
Proof. intros H. eapply Forall_impl; [|exact H]. intros a A. apply A. Qed.
Lemma leads_up d x l : Forall name l -> leads (d ++ [x]) (path (".." :: l)) (path (d ++ l)).
Proof.
  intros N. exists (".." :: l), (d ++ l). split; [apply join_segments; [discriminate|constructor; [reflexivity|now apply names_noslash]]|]. split; [|reflexivity]. constructor. now apply walks_down.
Qed.
Lemma leads_down d l : l <> [] -> Forall name l -> leads d (path l) (path (d ++ l)).
Proof. intros N0 N. exists l, (d ++ l). split; [apply join_segments; [exact N0|now apply names_noslash]|]. split; [now apply walks_down|reflexivity]. Qed.
Definition is_nameb (s : string) : bool := negb (String.eqb s "") && negb (String.eqb s ".") && negb (String.eqb s "..") && sforall (fun c => negb (Ascii.eqb c "/")) s.
Lemma is_nameb_ok s : is_nameb s = true -> name s.
Proof. unfold is_nameb. rewrite !andb_true_iff, !negb_true_iff, !String.eqb_neq. intros [[[A B] C] D]. now repeat split. Qed.
Lemma leads_num d x f pre post k : name f -> name pre -> sforall (fun c => negb (Ascii.eqb c "/")) post = true -> starts_with "." pre = false ->
  leads (d ++ [x]) (path [".."; f; pre ++ decn k ++ post])%string (path (d ++ [f; (pre ++ decn k ++ post)%string])).
Proof. intros F P Q D. apply (leads_up d x [f; (pre ++ decn k ++ post)%string]). repeat constructor; try apply F; now apply name_num. Qed.
