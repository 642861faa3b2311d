(** Importing a generated deck. *)
From Coq Require Import String Ascii List Bool Arith NArith ZArith Lia Permutation.
From Verif Require Import Str Num XmlSpec XmlProofs XmlTpl TplRead PathRead XmlTreeModel XmlTreeSpec XmlTreeProofs TplTree GenProofs RepairText FontsModel FontsSpec PackageModel TableModel ShapeModel SlideModel SlideInput SlideSpec SlideWant SlideBackSpec DeckModel DeckInput DeckParts DeckWhole DeckReader DeckBack
  ReaderModel ReaderSpec DocPropsModel DocPropsProofs ImportModel ImportSpec ImportProofs.
Import ListNotations.
Open Scope nat_scope.
Open Scope string_scope.

(** ** The title *)
Lemma core_doc now title : plain_title now = true -> plain_title title = true ->
  xml_read (core_props_xml now title) = Some (tnode (TE "cp:coreProperties" core_attrs (coreT now title))).
Proof.
  intros Q P. rewrite core_str. apply (tpl_read nl); [reflexivity|reflexivity|]. apply tok_TE; [reflexivity|vm_compute; reflexivity|]. unfold coreT, stampT.
  assert (T : forall n, is_name n = true -> tok (TE n [("xsi:type", [Lit "dcterms:W3CDTF"])] [TT [Lit now]])).
  { intros n Hn. apply tok_TE; [exact Hn|vm_compute; reflexivity|]. cbn [toks tok forallb pt_ok]. unfold plain_title in Q. rewrite Q. now split. }
  cbn [toks]. repeat (split; [first [exact nlT_tok | apply T; reflexivity | apply leaf_tok; [reflexivity|]; cbn [forallb pt_ok]; first [vm_compute; reflexivity | unfold plain_title in P; now rewrite P]]|]). exact I.
Qed.
Lemma core_title p now title : plain_title now = true -> plain_title title = true -> get_part p "docProps/core.xml" = Some (core_props_xml now title) ->
  i_title (core_info p) = if blank title then None else Some title.
Proof.
  intros Q P G. unfold core_info. rewrite G. cbn [bind]. pose proof (core_doc now title Q P) as D.
  rewrite (parse_tree _ _ _ _ D). change (Elem "cp:coreProperties" ?a ?k) with (tnode (TE "cp:coreProperties" core_attrs (coreT now title))). rewrite tree_tnode. cbn [i_title].
  assert (E : find_descendant "title" (XE "cp:coreProperties" (local "cp:coreProperties") (xattrs core_attrs) (xts (coreT now title)) (own_text (merge_text (tsnodes (coreT now title)))))
    = Some (XE "dc:title" "title" (xattrs []) [] (own_text (merge_text (tsnodes [TT [Lit title]]))))) by reflexivity.
  unfold text_of. rewrite E. assert (V : vals [Lit title] = title) by (cbn; apply sapp_nil_r).
  rewrite leaf_text, V. cbn [text_content]. destruct (blank title) eqn:B; [reflexivity|]. cbv zeta.
  change (text_content (XE "dc:title" "title" (xattrs []) [] title)) with title.
  destruct (String.eqb_spec title "") as [->|_]; [discriminate|reflexivity].
Qed.

(** ** Reading the deck *)
Section D.
  Variable fit : string -> N -> N -> N.
  Context (X : statics) (title : string) (slides : list slide) (st : settings) (is_dir : string -> bool).
  Notation deck := (create_pptx_with_settings X title slides st).
  Notation pkg := (open_entries is_dir deck).
  Context (FN : List.NoDup (map part_name (st_fonts st))) (FO : forallb font_ok (st_fonts st) = true) (D : forall n c, In (n, c) deck -> is_dir n = false).
  Context (keys : list string) (K : keys_order pkg keys) (L : (N.of_nat (length slides) < u32_max)%N).
  Context (A : Forall (fun s => deck_slide_ok s = true /\ slide_fits s = true /\ sizes_ok s = true) slides).
  Definition fits_in (s v : slide) : Prop := kept_slide s v /\ Forall (auto_ok fit) (s_shapes v).
  Lemma fold_add l : forall q, fold_left (fun q s => add_slide q (import_slide fit s)) l q = Presentation (p_title q) (p_slides q ++ map (import_slide fit) l) (p_settings q).
  Proof. induction l as [|s l IH]; intros q; [cbn; rewrite app_nil_r; now destruct q|]. cbn [fold_left map]. rewrite IH. cbn. now rewrite <- app_assoc. Qed.
  Lemma deck_import : exists q, import_pptx fit pkg keys = Some q /\ p_settings q = no_settings /\ Forall2 fits_in slides (p_slides q)
    /\ (plain_title (x_now X) = true -> plain_title title = true -> p_title q = visible title).
  Proof.
    destruct (DeckBack.deck_slides X title slides st is_dir FN FO D keys K L A) as (l & G & B). unfold import_pptx. cbv zeta. rewrite G. eexists. split; [reflexivity|]. rewrite fold_add.
    cbn [p_settings p_slides p_title].
    assert (P : p_slides (match i_title (rd_info (reader_open pkg keys)) with Some t => Presentation t (p_slides new_presentation) (p_settings new_presentation) | None => new_presentation end) = []
      /\ p_settings (match i_title (rd_info (reader_open pkg keys)) with Some t => Presentation t (p_slides new_presentation) (p_settings new_presentation) | None => new_presentation end) = no_settings)
      by (destruct (i_title _); split; reflexivity).
    destruct P as [-> ->]. cbn [app]. split; [reflexivity|]. split.
    - clear -B A. revert A. induction B as [|s r ss l H _ IH]; intros A; [constructor|]. inversion A as [|? ? (_ & F & _) A']; subst. cbn [map]. constructor; [now apply slide_kept|now apply IH].
    - intros Pn Pt. assert (C : In ("docProps/core.xml", core_props_xml (x_now X) title) deck).
      { eapply (in_block X title (length slides) (Some slides) st 8); [reflexivity|]. left. reflexivity. }
      apply (deck_get X title slides st is_dir FN D) in C. pose proof (core_title _ _ _ Pn Pt C) as E. unfold reader_open. destruct (core_info pkg) as [i ? ? ? ? ? ?]. cbn [i_title rd_info] in *. subst i. unfold visible. now destruct (blank title).
  Qed.
End D.

(** ** Importing what was imported *)
Lemma text_ok_app a b : text_ok (a ++ b) = text_ok a && text_ok b.
Proof. induction a as [|c a IH]; [reflexivity|]. change (String c a ++ b) with (String c (a ++ b)). cbn [text_ok]. rewrite IH. now rewrite !andb_assoc. Qed.
Lemma lines_ok u : text_ok u = true -> Forall (fun l => text_ok l = true /\ sforall (fun x => negb (Ascii.eqb x LF)) l = true) (lines u).
Proof.
  intros H. assert (R : Forall (fun l => text_ok l = true /\ sforall (fun x => negb (Ascii.eqb x LF)) l = true) (split_char LF u)).
  { induction u as [|c t IH]; [repeat constructor|]. cbn [text_ok] in H. rewrite !andb_true_iff in H. destruct H as [[A B] C]. specialize (IH C).
    cbn [split_char]. destruct (Ascii.eqb c LF) eqn:E; [constructor; [split; reflexivity|assumption]|].
    destruct (split_char LF t) as [|y l].
    - constructor; [|constructor]. cbn [text_ok s1 sforall]. rewrite A, B, E. split; reflexivity.
    - inversion IH as [|? ? [Hx Hy] Hl]; subst. constructor; [|assumption]. cbn [text_ok sforall]. rewrite A, B, E, Hx, Hy. split; reflexivity. }
  unfold lines. assert (CH : forall y, text_ok y = true -> chop_cr y = y).
  { clear. intros y Hy. unfold chop_cr. destruct (srev y) as [|c r] eqn:E; [reflexivity|]. destruct (Ascii.eqb_spec c CR) as [->|]; [|reflexivity]. exfalso.
    assert (X : y = srev r ++ s1 CR) by (rewrite <- (srev_involutive y), E; apply srev_cons). rewrite X, text_ok_app in Hy. apply andb_true_iff in Hy as [_ Hy]. discriminate. }
  revert R. generalize (split_char LF u). clear -CH. induction l as [|y l IH]; intros R; [constructor|]. inversion R as [|? ? Hy Hl]; subst. cbn [chop_last].
  destruct l as [|z l]; [destruct (String.eqb y ""); [constructor|now constructor]|]. constructor; [now rewrite CH|]. now apply IH.
Qed.
Lemma lines_join ls : Forall (fun l => text_ok l = true /\ sforall (fun x => negb (Ascii.eqb x LF)) l = true) ls -> Forall (fun l => l <> "") ls -> lines (sjoin nl ls) = ls.
Proof.
  intros F N. unfold lines. assert (CH : forall y, text_ok y = true -> chop_cr y = y).
  { clear. intros y Hy. unfold chop_cr. destruct (srev y) as [|c r] eqn:E; [reflexivity|]. destruct (Ascii.eqb_spec c CR) as [->|]; [|reflexivity]. exfalso.
    assert (X : y = srev r ++ s1 CR) by (rewrite <- (srev_involutive y), E; apply srev_cons). rewrite X, text_ok_app in Hy. apply andb_true_iff in Hy as [_ Hy]. discriminate. }
  assert (S : ls <> [] -> split_char LF (sjoin nl ls) = ls).
  { clear N. induction F as [|x l [Hx Hy] _ IH]; intros H; [congruence|]. destruct l as [|y l]; [cbn [sjoin]; now apply split_char_none|].
    change (sjoin nl (x :: y :: l)) with (x ++ String LF (sjoin nl (y :: l))). rewrite split_char_app, split_char_none by exact Hy. cbn [app]. f_equal. apply IH. discriminate. }
  destruct ls as [|x ls]; [reflexivity|]. rewrite S by discriminate. clear S. revert F N. generalize (x :: ls). clear x ls.
  induction l as [|y l IH]; intros F N; [reflexivity|]. inversion F as [|? ? [Hy _] Hl]; subst. inversion N as [|? ? Ny Nl]; subst. cbn [chop_last].
  destruct l as [|z l]; [destruct (String.eqb_spec y ""); [contradiction|reflexivity]|]. rewrite CH by exact Hy. f_equal. now apply IH.
Qed.
Lemma visible_idem u : visible (visible u) = visible u.
Proof. unfold visible. destruct (blank u) eqn:B; [reflexivity|]. now rewrite B. Qed.
Lemma visible_ok u : text_ok u = true -> text_ok (visible u) = true.
Proof. unfold visible. now destruct (blank u). Qed.
Lemma blank_app a b : blank (a ++ b) = blank a && blank b.
Proof. induction a as [|c a IH]; [reflexivity|]. change (String c a ++ b) with (String c (a ++ b)). cbn [blank]. now rewrite IH, andb_assoc. Qed.
Lemma join_nonblank ls : ls <> [] -> Forall (fun l => nonblank l = true) ls -> blank (sjoin nl ls) = false.
Proof.
  intros N F. destruct F as [|x l Hx _]; [congruence|]. unfold nonblank in Hx. apply negb_true_iff in Hx. destruct l as [|y l]; [exact Hx|].
  change (sjoin nl (x :: y :: l)) with (x ++ nl ++ sjoin nl (y :: l)). now rewrite blank_app, Hx.
Qed.
Lemma join_ok ls : Forall (fun l => text_ok l = true) ls -> text_ok (sjoin nl ls) = true.
Proof.
  induction 1 as [|x l Hx _ IH]; [reflexivity|]. destruct l as [|y l]; [exact Hx|]. change (sjoin nl (x :: y :: l)) with (x ++ nl ++ sjoin nl (y :: l)). rewrite !text_ok_app, Hx, IH. reflexivity.
Qed.
Lemma forall_filter {B} (P : B -> Prop) f l : Forall P l -> Forall P (filter f l).
Proof. intros H. apply Forall_forall. intros x X. apply filter_In in X as [X _]. rewrite Forall_forall in H. now apply H. Qed.
Lemma filter_holds {B} (f : B -> bool) l : Forall (fun x => f x = true) (filter f l).
Proof. apply Forall_forall. intros x X. now apply filter_In in X. Qed.
Lemma filter_idem {B} (f : B -> bool) l : filter f (filter f l) = filter f l.
Proof. apply filter_all, filter_holds. Qed.
