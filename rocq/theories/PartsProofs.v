(** Proofs: core and application properties on their own. *)
From Coq Require Import String Ascii List Bool Arith NArith Lia.
From Verif Require Import Str StrRefl Num XmlSpec XmlProofs EscapeModel EscapeProofs XmlTpl TplRead XmlTreeModel XmlTreeSpec XmlTreeProofs TplTree OpcSpec XmlPath PathRead GenProofs PresProofs DocPropsModel DocPropsProofs PartsModel PartsSpec.
Import ListNotations.
Open Scope nat_scope.
Open Scope string_scope.
Local Arguments String.append _ _ : simpl nomatch.

(** ** Lists with something between *)
Fixpoint joinT (sep : string) (l : list tpl) : list tpl :=
  match l with [] => [] | [t] => [t] | t :: l => t :: TT [Lit sep] :: joinT sep l end.
Lemma joinT_cons sep t u l : joinT sep (t :: u :: l) = t :: TT [Lit sep] :: joinT sep (u :: l).
Proof. reflexivity. Qed.
Lemma join_str sep l : tstrs (joinT sep l) = sjoin sep (map tstr l).
Proof.
  induction l as [|t l IH]; [reflexivity|]. destruct l as [|u l]; [cbn; now rewrite sapp_nil_r|]. rewrite joinT_cons, !tstrs_cons, IH. cbn [map sjoin tstr raws praw sconcat fold_right]. unfold raws. cbn [map praw sconcat fold_right]. now rewrite sapp_nil_r.
Qed.
Lemma join_toks sep l : sforall plain_text sep = true -> sforall not_cr sep = true -> toks l -> toks (joinT sep l).
Proof.
  intros P C. induction l as [|t l IH]; [easy|]. destruct l as [|u l]; [easy|]. intros [H1 H2]. rewrite joinT_cons. split; [exact H1|]. split; [|now apply IH]. cbn. now rewrite P, C.
Qed.
Lemma join_named m sep l : named m (tsnodes (joinT sep l)) = named m (tsnodes l).
Proof.
  induction l as [|t l IH]; [reflexivity|]. destruct l as [|u l]; [reflexivity|]. rewrite joinT_cons. rewrite tsnodes_cons, (tsnodes_cons t). unfold named in *. rewrite !filter_app. f_equal.
  etransitivity; [apply named_text|exact IH].
Qed.
Lemma join_xts sep l : xts (joinT sep l) = xts l.
Proof.
  induction l as [|t l IH]; [reflexivity|]. destruct l as [|u l]; [reflexivity|]. rewrite joinT_cons. unfold xts in *. cbn [flat_map]. cbn [flat_map] in IH. rewrite <- IH. reflexivity.
Qed.
Lemma as_text_ok s : as_text s = true -> sforall plain_text s && sforall not_cr s = true.
Proof.
  induction s as [|c s IH]; [reflexivity|]. unfold as_text in *. cbn [sforall]. intros H. apply andb_true_iff in H as [H1 H2]. specialize (IH H2). apply andb_true_iff in IH as [-> ->].
  unfold plain_text, not_cr. repeat (apply andb_true_iff in H1 as [H1 ?]). now rewrite H1, H, H0, H3.
Qed.
Lemma as_value_ok s : as_value s = true -> sforall plain_val s = true.
Proof. intros H. exact H. Qed.

Lemma tstr_TE n a b : tstr (TE n a b) = "<" ++ n ++ attrs_raw a ++ ">" ++ tstrs b ++ "</" ++ n ++ ">".
Proof. reflexivity. Qed.

(** ** Core properties *)
Definition elT (n : string) (o : option string) : list tpl := match o with Some s => [TE n [] [TT [Esc s]]] | None => [] end.
Definition revT (o : option N) : list tpl := match o with Some r => [TE "cp:revision" [] [TT [Lit (dec r)]]] | None => [] end.
Definition stT (n : string) (o : option string) : list tpl := match o with Some s => [TE n [("xsi:type", [Lit "dcterms:W3CDTF"])] [TT [Lit s]]] | None => [] end.
Definition coreL (c : core) : list tpl :=
  (elT "dc:title" (k_title c) ++ elT "dc:subject" (k_subject c) ++ elT "dc:creator" (k_creator c) ++ elT "cp:keywords" (k_keywords c)
   ++ elT "dc:description" (k_description c) ++ elT "cp:lastModifiedBy" (k_by c) ++ revT (k_revision c)
   ++ stT "dcterms:created" (k_created c) ++ stT "dcterms:modified" (k_modified c))%list.
Definition coreR (c : core) : tpl := TE "cp:coreProperties" core_attrs ([nlT] ++ joinT nl (coreL c) ++ [nlT])%list.
Lemma el_str n o : core_el n o = map tstr (elT n o).
Proof. destruct o as [s|]; [|reflexivity]. cbn [core_el elT map]. f_equal. rewrite chained_escape_eq. tstr_eq. Qed.
Lemma rev_str o : core_rev o = map tstr (revT o).
Proof. destruct o as [s|]; [|reflexivity]. cbn [core_rev revT map]. f_equal. tstr_eq. Qed.
Lemma st_str n o : core_stamp n o = map tstr (stT n o).
Proof. destruct o as [s|]; [|reflexivity]. cbn [core_stamp stT map]. f_equal. tstr_eq. Qed.
Lemma core_tpl c : core_xml c = decl ++ nl ++ tstr (coreR c).
Proof.
  unfold core_xml. assert (E : core_elements c = map tstr (coreL c)).
  { unfold core_elements, coreL. rewrite !map_app, <- !el_str, <- rev_str, <- !st_str. reflexivity. }
  rewrite E, <- join_str. unfold coreR. generalize (joinT nl (coreL c)) as B. intros B. unfold core_attrs, nlT.
  rewrite tstr_TE. rewrite !tstrs_app. set (X := tstrs B). clearbody X. tstr_eq.
Qed.

Lemma el_toks n o : is_name n = true -> opt_ok text_ok o = true -> toks (elT n o).
Proof. intros N H. destruct o as [s|]; [|exact I]. split; [|exact I]. apply tok_TE; [exact N|reflexivity|]. split; [|exact I]. cbn. cbn in H. now rewrite H. Qed.
Lemma rev_toks o : toks (revT o).
Proof. destruct o as [r|]; [|exact I]. cbn [revT]. toks_solve. Qed.
Lemma st_toks n o : is_name n = true -> opt_ok as_text o = true -> toks (stT n o).
Proof. intros N H. destruct o as [s|]; [|exact I]. split; [|exact I]. apply tok_TE; [exact N|reflexivity|]. split; [|exact I]. cbn. cbn in H. now rewrite (as_text_ok s H). Qed.
Ltac ands H := repeat (let K := fresh "K" in apply andb_true_iff in H as [H K]).
Lemma core_toks c : core_fields_ok c = true -> toks (coreL c).
Proof.
  intros H. unfold core_fields_ok in H. ands H. unfold coreL. repeat (apply toks_app; split); first [apply el_toks|apply st_toks|apply rev_toks]; try reflexivity; assumption.
Qed.
(** What the reader makes of each field *)
Definition leaf_el (e : xel) : bool := match kids e with [] => true | _ => false end.
Lemma fd_leaves n t l a ks x : forallb leaf_el ks = true -> find_descendant n (XE t l a ks x) = find (fun e => String.eqb (local_name e) n) ks.
Proof.
  intros H. cbn [find_descendant]. induction ks as [|e ks IH]; [reflexivity|]. cbn [forallb] in H. apply andb_true_iff in H as [H1 H2]. cbn [find]. destruct e as [t1 l1 a1 k1 x1]. cbn [local_name].
  destruct (String.eqb l1 n); [reflexivity|]. unfold leaf_el in H1. cbn [kids] in H1. destruct k1; [|discriminate]. cbn [find_descendant]. now apply IH.
Qed.
Lemma find_skip {A} (f : A -> bool) l1 l2 : forallb (fun x => negb (f x)) l1 = true -> find f (l1 ++ l2) = find f l2.
Proof. induction l1 as [|x l1 IH]; [reflexivity|]. cbn [forallb find app]. intros H. apply andb_true_iff in H as [H1 H2]. apply negb_true_iff in H1. rewrite H1. now apply IH. Qed.
Definition leafX (n : string) (a : list (string * string)) (s : string) : xel := XE n (local n) a [] (if blank s then "" else s).
Lemma el_xts n o : xts (elT n o) = match o with Some s => [leafX n [] s] | None => [] end.
Proof. destruct o as [s|]; [|reflexivity]. cbn [elT xts flat_map xt app]. unfold leafX. rewrite leaf_text. unfold vals. cbn [map pval sconcat fold_right]. now rewrite sapp_nil_r. Qed.
Lemma rev_xts o : xts (revT o) = match o with Some r => [leafX "cp:revision" [] (dec r)] | None => [] end.
Proof. destruct o as [s|]; [|reflexivity]. cbn [revT xts flat_map xt app]. unfold leafX. rewrite leaf_text. unfold vals. cbn [map pval sconcat fold_right]. now rewrite sapp_nil_r. Qed.
Lemma st_xts n o : xts (stT n o) = match o with Some s => [leafX n [("xsi:type", "dcterms:W3CDTF")] s] | None => [] end.
Proof. destruct o as [s|]; [|reflexivity]. cbn [stT xts flat_map xt app]. unfold leafX. rewrite leaf_text. unfold vals. cbn [map pval sconcat fold_right]. now rewrite sapp_nil_r. Qed.
Definition seg (n : string) (a : list (string * string)) (o : option string) : list xel := match o with Some s => [leafX n a s] | None => [] end.
Lemma core_xts c : xts (coreL c) =
  (seg "dc:title" [] (k_title c) ++ seg "dc:subject" [] (k_subject c) ++ seg "dc:creator" [] (k_creator c) ++ seg "cp:keywords" [] (k_keywords c)
   ++ seg "dc:description" [] (k_description c) ++ seg "cp:lastModifiedBy" [] (k_by c) ++ seg "cp:revision" [] (option_map dec (k_revision c))
   ++ seg "dcterms:created" [("xsi:type", "dcterms:W3CDTF")] (k_created c) ++ seg "dcterms:modified" [("xsi:type", "dcterms:W3CDTF")] (k_modified c) ++ [])%list.
Proof.
  unfold coreL. rewrite !xts_app, !el_xts, !st_xts, rev_xts, app_nil_r. unfold seg. destruct (k_revision c); reflexivity.
Qed.
Lemma seg_leaf n a o : forallb leaf_el (seg n a o) = true.
Proof. now destruct o. Qed.
Lemma seg_other m n a o : String.eqb (local n) m = false -> forallb (fun e => negb (String.eqb (local_name e) m)) (seg n a o) = true.
Proof. intros H. destruct o; [|reflexivity]. cbn [seg forallb leafX local_name]. now rewrite H. Qed.
Lemma seg_find m n a o rest : String.eqb (local n) m = true -> forallb (fun e => negb (String.eqb (local_name e) m)) rest = true ->
  find (fun e => String.eqb (local_name e) m) (seg n a o ++ rest) = match o with Some s => Some (leafX n a s) | None => None end.
Proof.
  intros H R. destruct o as [s|]; cbn [seg app find leafX local_name]; [now rewrite H|]. rewrite <- (app_nil_r rest). rewrite find_skip by exact R. reflexivity.
Qed.
Lemma leaf_content n a s : text_content (leafX n a s) = if blank s then "" else s.
Proof. reflexivity. Qed.
Lemma kept_leaf o : match o with Some s => if String.eqb (if blank s then "" else s) "" then None else Some (if blank s then "" else s) | None => None end = kept o.
Proof. destruct o as [s|]; [|reflexivity]. cbn [kept]. destruct (blank s) eqn:B; [reflexivity|]. destruct (String.eqb_spec s "") as [->|N]; [discriminate|reflexivity]. Qed.
Lemma core_back c : core_fields_ok c = true ->
  core_from (core_xml c) = Some (Core (kept (k_title c)) (kept (k_subject c)) (kept (k_creator c)) (kept (k_keywords c)) (kept (k_description c)) (kept (k_by c)) (k_revision c) (kept (k_created c)) (kept (k_modified c))).
Proof.
  intros OK. unfold core_from.
  assert (R : xml_read (core_xml c) = Some (tnode (coreR c))).
  { rewrite core_tpl. unfold coreR. apply (tpl_read nl); [reflexivity|reflexivity|]. apply tok_TE; [reflexivity|vm_compute; reflexivity|]. apply toks_app. split; [now split|]. apply toks_app. split; [|now split]. apply join_toks; [reflexivity|reflexivity|now apply core_toks]. }
  unfold coreR in R. cbn [tnode] in R. rewrite (parse_tree _ _ _ _ R). match type of R with _ = Some (Elem ?n ?a ?ks) => change (tree (Elem n a ks)) with (tree (tnode (coreR c))) end. clear R. unfold coreR. rewrite tree_tnode.
  rewrite !xts_app, join_xts, core_xts. change (xts [nlT]) with (@nil xel). rewrite app_nil_r. cbn [app]. set (KS := (seg "dc:title" [] (k_title c) ++ _)%list).
  assert (LV : forallb leaf_el KS = true) by (unfold KS; rewrite !forallb_app, !seg_leaf; reflexivity).
  assert (FD : forall n a x m, find_descendant n (XE "cp:coreProperties" (local "cp:coreProperties") a KS x) = m <-> find (fun e => String.eqb (local_name e) n) KS = m) by (intros; now rewrite fd_leaves by exact LV).
  assert (CF : forall m n a b x o, find (fun e => String.eqb (local_name e) m) KS = match o with Some s => Some (leafX n b s) | None => None end -> core_field m (XE "cp:coreProperties" (local "cp:coreProperties") a KS x) = kept o).
  { intros m n a b x o H. unfold core_field. rewrite (proj2 (FD m a x _) H). destruct o as [s|]; [|reflexivity]. rewrite leaf_content. exact (kept_leaf (Some s)). }
  assert (RV : forall a x, match find_descendant "revision" (XE "cp:coreProperties" (local "cp:coreProperties") a KS x) with Some e => parse_uint u32_max (text_content e) | None => None end = k_revision c).
  { intros a x. rewrite (proj2 (FD "revision" a x (match option_map dec (k_revision c) with Some s => Some (leafX "cp:revision" [] s) | None => None end))).
    - destruct (k_revision c) as [r|] eqn:E; [|reflexivity]. cbn [option_map]. rewrite leaf_content. assert (B : blank (dec r) = false).
      { destruct (blank (dec r)) eqn:B; [|reflexivity]. exfalso. pose proof (dec_digits r) as D. destruct (dec r) as [|d s] eqn:F; [now apply (dec_nonempty r)|]. cbn [sforall] in D. apply andb_true_iff in D as [D _]. cbn [blank] in B. apply andb_true_iff in B as [B _]. revert D B. clear. destruct d as [[] [] [] [] [] [] [] []]; vm_compute; congruence. }
      rewrite B. unfold core_fields_ok in OK. apply andb_true_iff in OK as [_ OK]. rewrite E in OK. apply N.leb_le in OK. now apply parse_uint_dec.
    - unfold KS. rewrite !find_skip by (apply seg_other; reflexivity). apply seg_find; [reflexivity|]. rewrite !forallb_app, !seg_other by reflexivity. reflexivity. }
  rewrite RV. f_equal. f_equal;
    (eapply CF; unfold KS; rewrite ?find_skip by (apply seg_other; reflexivity); apply seg_find; [reflexivity|]; rewrite ?forallb_app, ?seg_other by reflexivity; reflexivity).
Qed.
(** Any history of calls *)
Lemma digit_not_blank d : is_digit d = true -> xml_space d = false.
Proof. destruct d as [[] [] [] [] [] [] [] []]; vm_compute; congruence. Qed.
Lemma blank_app a b : blank (a ++ b) = blank a && blank b.
Proof. induction a as [|c a IH]; [reflexivity|]. cbn [append blank]. now rewrite IH, andb_assoc. Qed.
Lemma dec_not_blank n : blank (dec n) = false.
Proof.
  pose proof (dec_digits n) as D. destruct (dec n) as [|d s] eqn:F; [now destruct (dec_nonempty n)|]. cbn [sforall] in D. apply andb_true_iff in D as [D _].
  cbn [blank]. now rewrite (digit_not_blank d D).
Qed.
Lemma stamp_not_blank t : blank (timestamp t) = false.
Proof. unfold timestamp. cbv zeta. rewrite blank_app. unfold pad at 1. rewrite blank_app, dec_not_blank, andb_false_r. reflexivity. Qed.
Lemma stamp_as_text t : as_text (timestamp t) = true.
Proof.
  pose proof (timestamp_plain t) as P. unfold plain_title in P. apply andb_true_iff in P as [P1 P2]. revert P1 P2. generalize (timestamp t). intros s. unfold as_text. induction s as [|c s IH]; [reflexivity|]. cbn [sforall]. intros A B.
  apply andb_true_iff in A as [A1 A2], B as [B1 B2]. rewrite (IH A2 B2). unfold plain_text, not_cr in *. rewrite A1, B1. reflexivity.
Qed.
Record core_state (t0 : N) (calls : list core_call) (c : core) : Prop := {
  cs_title : k_title c = last_of title_in None calls; cs_subject : k_subject c = last_of subject_in None calls; cs_creator : k_creator c = last_of creator_in (Some "pptx-rs") calls;
  cs_keywords : k_keywords c = last_of keywords_in None calls; cs_description : k_description c = last_of description_in None calls; cs_by : k_by c = Some "pptx-rs";
  cs_revision : (N.of_nat (touches calls) < u32_max)%N -> k_revision c = Some (1 + N.of_nat (touches calls))%N; cs_created : k_created c = Some (timestamp t0);
  cs_modified : k_modified c = option_map timestamp (last_of touch_in (Some t0) calls) }.
Lemma last_snoc {A} (f : core_call -> option A) k l : forall d, last_of f d (l ++ [k]) = match f k with Some x => Some x | None => last_of f d l end.
Proof. induction l as [|j l IH]; intros d; [reflexivity|]. cbn [app last_of]. apply IH. Qed.
Lemma touches_snoc k l : touches (l ++ [k]) = touches l + match k with Touch _ => 1 | _ => 0 end.
Proof. unfold touches. rewrite filter_app, app_length. cbn. now destruct k. Qed.
Lemma core_run t0 calls : core_state t0 calls (fold_left core_do calls (core_new t0)).
Proof.
  induction calls as [|k calls IH] using rev_ind; [now constructor|]. rewrite fold_left_app. cbn [fold_left]. destruct IH as [I1 I2 I3 I4 I5 I6 I7 I8 I9]. set (c := fold_left core_do calls (core_new t0)) in *. clearbody c.
  constructor; rewrite ?last_snoc, ?touches_snoc; destruct k; cbn [core_do set_title set_subject set_creator set_keywords set_description touch k_title k_subject k_creator k_keywords k_description k_by k_revision k_created k_modified
    title_in subject_in creator_in keywords_in description_in touch_in option_map]; rewrite ?Nat.add_0_r; try assumption; try reflexivity.
  intros B. assert (B' : (N.of_nat (touches calls) < u32_max)%N) by lia. rewrite (I7 B'). rewrite wadd_exact by lia. f_equal. lia.
Qed.
Lemma last_ok (f : core_call -> option string) ok calls : (forall k s, f k = Some s -> core_call_ok ok k = true -> ok s = true) -> forallb (core_call_ok ok) calls = true -> forall d, opt_ok ok d = true -> opt_ok ok (last_of f d calls) = true.
Proof.
  intros F. induction calls as [|k calls IH]; intros H d D; [exact D|]. cbn [forallb] in H. apply andb_true_iff in H as [H1 H2]. cbn [last_of]. apply (IH H2). destruct (f k) as [s|] eqn:E; [|exact D]. cbn. now apply (F k).
Qed.
Lemma last_touch calls : forall d, exists t, last_of touch_in (Some d) calls = Some t.
Proof. induction calls as [|k calls IH]; intros d; [now exists d|]. cbn [last_of]. destruct k; cbn [touch_in]; apply IH. Qed.
Lemma core_history t0 calls : forallb (core_call_ok text_ok) calls = true -> (N.of_nat (touches calls) < u32_max)%N ->
  exists c t, core_from (core_xml (fold_left core_do calls (core_new t0))) = Some c /\ last_of touch_in (Some t0) calls = Some t
    /\ k_title c = kept (last_of title_in None calls) /\ k_subject c = kept (last_of subject_in None calls) /\ k_creator c = kept (last_of creator_in (Some "pptx-rs") calls)
    /\ k_keywords c = kept (last_of keywords_in None calls) /\ k_description c = kept (last_of description_in None calls) /\ k_by c = Some "pptx-rs"
    /\ k_revision c = Some (1 + N.of_nat (touches calls))%N /\ k_created c = Some (timestamp t0) /\ k_modified c = Some (timestamp t).
Proof.
  intros OK B. destruct (core_run t0 calls) as [I1 I2 I3 I4 I5 I6 I7 I8 I9]. specialize (I7 B). destruct (last_touch calls t0) as (t & T). rewrite T in I9. cbn [option_map] in I9.
  set (c := fold_left core_do calls (core_new t0)) in *. clearbody c. eexists. exists t. split; [|split; [exact T|]].
  - apply core_back. unfold core_fields_ok. rewrite I1, I2, I3, I4, I5, I6, I7, I8, I9. cbn [opt_ok]. rewrite !stamp_as_text.
    assert (R : (1 + N.of_nat (touches calls) <=? u32_max)%N = true) by (apply N.leb_le; lia). rewrite R.
    rewrite (last_ok title_in), (last_ok subject_in), (last_ok creator_in), (last_ok keywords_in), (last_ok description_in); try exact OK; try reflexivity; intros k s E; destruct k; try discriminate; injection E as ->; auto.
  - cbn [k_title k_subject k_creator k_keywords k_description k_by k_revision k_created k_modified]. rewrite I1, I2, I3, I4, I5, I6, I7, I8, I9. cbn [kept]. rewrite !stamp_not_blank. repeat split.
Qed.
Definition some_core : list core_call := [SetTitle "Draft"; Touch 100; SetKeywords "a <b> & 'c'"; SetTitle "Plan"; SetSubject "  "; Touch 200].
Lemma some_core_ok : forallb (core_call_ok text_ok) some_core = true /\ touches some_core = 2 /\ last_of title_in None some_core = Some "Plan" /\ kept (last_of subject_in None some_core) = None.
Proof. repeat split. Qed.
(** Dates are not escaped. *)
Lemma core_date_raw : exists c, k_created c = Some "2024 & later" /\ core_from (core_xml c) = None.
Proof. exists (Core None None None None None None None (Some "2024 & later") None). split; [reflexivity|]. vm_compute. reflexivity. Qed.
(** The number of revisions starts again after the last one. *)
Lemma revision_wraps t c : k_revision c = Some u32_max -> k_revision (touch t c) = Some 0%N.
Proof. intros H. cbn [touch k_revision]. rewrite H. reflexivity. Qed.

(** ** Application properties *)
Definition companyT (o : option string) : list tpl := match o with Some c => [TE "Company" [] [TT [Lit c]]] | None => [] end.
Definition appR (a : aprops) : tpl :=
  (TE "Properties" [("xmlns", [Lit "http://schemas.openxmlformats.org/officeDocument/2006/extended-properties"]); ("xmlns:vt", [Lit "http://schemas.openxmlformats.org/officeDocument/2006/docPropsVTypes"])] ([TT [Lit "
  "]; TE "Application" [] [TT [Lit (a_application a)]]; TT [Lit "
  "]; TE "AppVersion" [] [TT [Lit (a_version a)]]; TT [Lit "
  "]] ++ (companyT (a_company a)) ++ [TT [Lit "
  "]; TE "PresentationFormat" [] [TT [Lit (a_format a)]]; TT [Lit "
  "]; TE "Slides" [] [TT [Lit (dec (a_slides a))]]; TT [Lit "
  "]; TE "Paragraphs" [] [TT [Lit (dec (a_paragraphs a))]]; TT [Lit "
  "]; TE "Words" [] [TT [Lit (dec (a_words a))]]; TT [Lit "
  "]; TE "Notes" [] [TT [Lit (dec (a_notes a))]]; TT [Lit "
  "]; TE "HiddenSlides" [] [TT [Lit (dec (a_hidden a))]]; TT [Lit "
  "]; TE "MMClips" [] [TT [Lit (dec (a_clips a))]]; TT [Lit "
  "]; TE "ScaleCrop" [] [TT [Lit (show_bool (a_scale a))]]; TT [Lit "
  "]; TE "LinksUpToDate" [] [TT [Lit (show_bool (a_links a))]]; TT [Lit "
  "]; TE "SharedDoc" [] [TT [Lit (show_bool (a_shared a))]]; TT [Lit "
  "]; TE "HyperlinksChanged" [] [TT [Lit (show_bool (a_changed a))]]; TT [Lit "
"]])%list).

Lemma bool_txt b : sforall plain_text (show_bool b) && sforall not_cr (show_bool b) = true.
Proof. now destruct b. Qed.
Lemma app_tpl a : app_generate a = decl ++ nl ++ tstr (appR a).
Proof.
  unfold app_generate, appR, companyT. destruct (a_company a); cbn [app]; tstr_eq.
Qed.
Lemma app_read a : app_ok a = true -> exists x, xml_read (app_generate a) = Some x
  /\ texts_at ["Application"] x = [a_application a] /\ texts_at ["AppVersion"] x = [a_version a] /\ texts_at ["Company"] x = (match a_company a with Some c => [c] | None => [] end)
  /\ texts_at ["PresentationFormat"] x = [a_format a] /\ texts_at ["Slides"] x = [dec (a_slides a)] /\ texts_at ["Paragraphs"] x = [dec (a_paragraphs a)] /\ texts_at ["Words"] x = [dec (a_words a)]
  /\ texts_at ["Notes"] x = [dec (a_notes a)] /\ texts_at ["HiddenSlides"] x = [dec (a_hidden a)] /\ texts_at ["MMClips"] x = [dec (a_clips a)]
  /\ texts_at ["ScaleCrop"] x = [show_bool (a_scale a)] /\ texts_at ["LinksUpToDate"] x = [show_bool (a_links a)] /\ texts_at ["SharedDoc"] x = [show_bool (a_shared a)] /\ texts_at ["HyperlinksChanged"] x = [show_bool (a_changed a)].
Proof.
  intros OK. unfold app_ok in OK. apply andb_true_iff in OK as [OK O4]. apply andb_true_iff in OK as [OK O3]. apply andb_true_iff in OK as [O1 O2].
  exists (tnode (appR a)). split.
  - rewrite app_tpl. unfold appR. apply (tpl_read nl); [reflexivity|reflexivity|].
    apply as_text_ok, andb_true_iff in O1, O2, O4. destruct O1, O2, O4. pose proof bool_txt as BT. assert (BT1 : forall b, sforall plain_text (show_bool b) = true) by now intros []. assert (BT2 : forall b, sforall not_cr (show_bool b) = true) by now intros [].
    assert (CT : toks (companyT (a_company a))). { destruct (a_company a) as [c|]; [|exact I]. cbn [opt_ok] in O3. apply as_text_ok in O3. cbn [companyT]. split; [|exact I]. apply tok_TE; [reflexivity|reflexivity|]. split; [|exact I]. cbn. now rewrite O3. }
    apply tok_TE; [reflexivity|vm_compute; reflexivity|]. repeat (apply toks_app; split); try exact CT; toks_solve; auto.
  - assert (V : forall s, vals [Lit s] = s) by (intros s; unfold vals; cbn [map pval sconcat fold_right]; apply sapp_nil_r).
    unfold appR, companyT, texts_at. destruct (a_company a); cbn [app]; repeat (apply conj); pread; rewrite ?text_leaf, ?V; reflexivity.
Qed.
Lemma app_runs calls : forall a, forallb app_call_ok calls = true -> app_ok a = true -> a_xml a = None ->
  let b := fold_left app_do calls a in
  app_ok b = true /\ a_xml b = None /\ Some (a_application b) = last_of application_in (Some (a_application a)) calls /\ a_company b = last_of company_in (a_company a) calls
  /\ Some (dec (a_slides b)) = last_of slides_in (Some (dec (a_slides a))) calls /\ Some (a_format b) = last_of format_in (Some (a_format a)) calls
  /\ a_version b = a_version a /\ a_paragraphs b = a_paragraphs a /\ a_words b = a_words a /\ a_notes b = a_notes a /\ a_hidden b = a_hidden a /\ a_clips b = a_clips a
  /\ a_scale b = a_scale a /\ a_links b = a_links a /\ a_shared b = a_shared a /\ a_changed b = a_changed a.
Proof.
  induction calls as [|k calls IH]; intros a C OK X; [now repeat split|]. cbn [forallb] in C. apply andb_true_iff in C as [C1 C2]. cbv zeta. cbn [fold_left last_of].
  assert (P : app_ok (app_do a k) = true /\ a_xml (app_do a k) = None).
  { unfold app_ok in *. apply andb_true_iff in OK as [OK O4]. apply andb_true_iff in OK as [OK O3]. apply andb_true_iff in OK as [O1 O2].
    destruct k; cbn [app_call_ok app_do] in *; cbn [app_set_application app_set_company app_set_slides app_set_format a_application a_version a_company a_format a_xml opt_ok]; now rewrite ?O1, ?O2, ?O3, ?O4, ?C1. }
  destruct P as [P1 P2]. destruct (IH _ C2 P1 P2) as (A1 & A2 & A3 & A4 & A5 & A6 & A7). split; [exact A1|]. split; [exact A2|]. rewrite A3, A4, A5, A6. destruct k; (split; [reflexivity|]; split; [reflexivity|]; split; [reflexivity|]; split; [reflexivity|]; exact A7).
Qed.
Lemma app_history calls : forallb app_call_ok calls = true -> exists x, xml_read (app_xml (fold_left app_do calls app_new)) = Some x
  /\ texts_at ["Application"] x = one (last_of application_in (Some "Microsoft Office PowerPoint") calls) /\ texts_at ["Company"] x = one (last_of company_in None calls)
  /\ texts_at ["Slides"] x = one (last_of slides_in (Some "0") calls) /\ texts_at ["PresentationFormat"] x = one (last_of format_in (Some "On-screen Show (4:3)") calls)
  /\ texts_at ["AppVersion"] x = ["16.0000"]
  /\ (forall n, In n ["Paragraphs"; "Words"; "Notes"; "HiddenSlides"; "MMClips"] -> texts_at [n] x = ["0"])
  /\ (forall n, In n ["ScaleCrop"; "LinksUpToDate"; "SharedDoc"; "HyperlinksChanged"] -> texts_at [n] x = ["false"]).
Proof.
  intros C. destruct (app_runs calls app_new C eq_refl eq_refl) as (A1 & A2 & A3 & A4 & A5 & A6 & A7 & B1 & B2 & B3 & B4 & B5 & B6 & B7 & B8 & B9). unfold app_xml. rewrite A2. clear A2. destruct (app_read _ A1) as (x & R & H). exists x. split; [exact R|]. clear R A1.
  cbn [app_new a_application a_company a_slides a_format] in *. rewrite <- A3, <- A4, <- A6. change (Some "0") with (Some (dec 0)). rewrite <- A5. rewrite A7, B1, B2, B3, B4, B5, B6, B7, B8, B9 in H. clear A3 A4 A5 A6 A7 B1 B2 B3 B4 B5 B6 B7 B8 B9.
  destruct H as (H1 & H2 & H3 & H4 & H5 & H6 & H7 & H8 & H9 & H10 & H11 & H12 & H13 & H14). rewrite H1, H2, H3, H4, H5. split; [reflexivity|]. split; [destruct (a_company _); reflexivity|]. split; [reflexivity|]. split; [reflexivity|]. split; [reflexivity|].
  split; intros n IN; cbn [In] in IN; repeat (destruct IN as [<-|IN]; [assumption|]); contradiction.
Qed.
Definition some_app : list app_call := [Company "Old & Co"; Company "Acme Inc"; SlideCount 12; Application "ppt-rs"].
Lemma some_app_ok : forallb app_call_ok (tl some_app) = true /\ last_of company_in None some_app = Some "Acme Inc" /\ last_of format_in (Some "x") some_app = Some "x".
Proof. repeat split. Qed.
(** A company with an ampersand makes a file that cannot be read. *)
Lemma app_raw : exists s, text_ok s = true /\ xml_read (app_xml (app_set_company s app_new)) = None.
Proof. exists "A & B". split; [reflexivity|]. vm_compute. reflexivity. Qed.
(** What is set after reading is not written. *)
Lemma app_stuck x calls : app_xml (fold_left app_do calls (app_from x)) = x.
Proof.
  assert (E : forall a, a_xml a = Some x -> a_xml (fold_left app_do calls a) = Some x).
  { induction calls as [|k l IH]; intros a H; [exact H|]. cbn [fold_left]. apply IH. destruct k; exact H. }
  unfold app_xml. now rewrite (E (app_from x)).
Qed.
