(** Lemmas: what presentation.xml and its relationship part read as. *)
From Coq Require Import String Ascii List Bool Arith NArith Lia FinFun Permutation.
From Verif Require Import Str StrRefl EscapeModel EscapeProofs XmlSpec XmlProofs XmlTpl OpcSpec GenModel FontsModel FontsSpec GenProofs.
Import ListNotations.
Open Scope string_scope.

(** ** Insertion before a final pattern *)

Lemma split_once_app p s : split_once p (p ++ s) = Some ("", s).
Proof.
  destruct (p ++ s) eqn:E; cbn [split_once]; rewrite <- E, strip_prefix_app; reflexivity.
Qed.

Lemma rsplit_once_end x p : rsplit_once p (x ++ p) = Some (x, "").
Proof. unfold rsplit_once. rewrite srev_sapp, split_once_app, srev_involutive. reflexivity. Qed.

Lemma insert_before_last_end x p ins : insert_before_last p ins (x ++ p) = x ++ ins ++ p.
Proof. unfold insert_before_last. now rewrite rsplit_once_end, sapp_nil_r. Qed.

(** Text of an element split before its end tag. *)
Definition telem_open (n : string) (a : list (string * list piece)) (body : list tpl) : string :=
  "<" ++ n ++ attrs_raw a ++ ">" ++ tstrs body.
Lemma tstr_TE n a body : tstr (TE n a body) = telem_open n a body ++ ("</" ++ n ++ ">").
Proof. cbn [tstr]. unfold telem_open, tstrs. now rewrite !sapp_assoc. Qed.
Lemma telem_open_app n a b1 b2 : telem_open n a (b1 ++ b2) = telem_open n a b1 ++ tstrs b2.
Proof. unfold telem_open. rewrite tstrs_app. now rewrite !sapp_assoc. Qed.

Lemma insert_tpl d ws n a body ins tail :
  ins = tstrs tail ->
  insert_before_last ("</" ++ n ++ ">") ins (d ++ ws ++ tstr (TE n a body)) =
  d ++ ws ++ tstr (TE n a (body ++ tail)).
Proof.
  intros ->. rewrite !tstr_TE, telem_open_app. generalize ("</" ++ n ++ ">") as p. intros p.
  rewrite <- (sapp_assoc ws), <- (sapp_assoc d), insert_before_last_end. now rewrite !sapp_assoc.
Qed.

(** ** Presentation relationships with fonts *)

Definition fontRel (p : string * string) : tpl :=
  TS "Relationship" [("Id", [Lit (fst p)]);
    ("Type", [Lit "http://schemas.openxmlformats.org/officeDocument/2006/relationships/font"]);
    ("Target", [Esc (snd p)])].

Lemma pres_rels_fonts_tpl n notes handout fonts :
  create_presentation_rels_xml_full_with_fonts n notes handout fonts =
  decl ++ nl ++ tstr (TE "Relationships" xmlns_rels (pres_body n notes handout ++ map fontRel fonts)).
Proof.
  unfold create_presentation_rels_xml_full_with_fonts. rewrite pres_rels_tpl.
  generalize (pres_body n notes handout). induction fonts as [|[rid target] fonts IH]; intros body.
  - cbn [fold_left map]. now rewrite app_nil_r.
  - cbn [fold_left map].
    pose proof (insert_tpl decl nl "Relationships" xmlns_rels body
      ("<Relationship Id=""" ++ rid ++
                 """ Type=""http://schemas.openxmlformats.org/officeDocument/2006/relationships/font"" Target=""" ++
                 escape_xml target ++ """/>") [fontRel (rid, target)]) as H.
    unfold insert_before_last in H.
    assert (E : rsplit_once "</Relationships>" (decl ++ nl ++ tstr (TE "Relationships" xmlns_rels body)) =
                Some (decl ++ nl ++ telem_open "Relationships" xmlns_rels body, "")).
    { rewrite tstr_TE. change ("</" ++ "Relationships" ++ ">") with "</Relationships>".
      rewrite <- !(sapp_assoc decl), <- (sapp_assoc (decl ++ nl)). apply rsplit_once_end. }
    change ("</" ++ "Relationships" ++ ">") with "</Relationships>" in H.
    rewrite E in H |- *. cbv beta iota.
    rewrite H; [|unfold fontRel; tstr_eq].
    replace (body ++ fontRel (rid, target) :: map fontRel fonts)%list
      with ((body ++ [fontRel (rid, target)]) ++ map fontRel fonts)%list by now rewrite <- app_assoc.
    apply IH.
Qed.

Lemma toks_pres_body n notes handout : toks (pres_body n notes handout).
Proof.
  unfold pres_body. toks_apps.
  all: try (destruct notes); try (destruct handout); try (apply toks_flat_map; intros i _); unfold relT; try toks_solve.
Qed.

Definition pres_rel_list (n : nat) (notes handout : bool) : list rel :=
  Rel "rId1" (doc_rel "slideMaster") "slideMasters/slideMaster1.xml" ""
  :: map (fun i => Rel ("rId" ++ decn (i + 1)) (doc_rel "slide") ("slides/slide" ++ decn i ++ ".xml") "") (seq 1 n)
  ++ (if notes then [Rel ("rId" ++ decn (notes_master_rel_id n)) (doc_rel "notesMaster") "notesMasters/notesMaster1.xml" ""] else [])
  ++ (if handout then [Rel ("rId" ++ decn (handout_master_rel_id n notes)) (doc_rel "handoutMaster") "handoutMasters/handoutMaster1.xml" ""] else [])
  ++ [Rel ("rId" ++ decn (pres_props_rel_id n notes handout)) (doc_rel "presProps") "presProps.xml" "";
      Rel ("rId" ++ decn (view_props_rel_id n notes handout)) (doc_rel "viewProps") "viewProps.xml" "";
      Rel ("rId" ++ decn (theme_rel_id n notes handout)) (doc_rel "theme") "theme/theme1.xml" "";
      Rel ("rId" ++ decn (table_styles_rel_id n notes handout)) (doc_rel "tableStyles") "tableStyles.xml" ""].

Lemma relT_rel id kind target :
  map rel_of (named "Relationship" (tsnodes (relT id kind target))) =
  [Rel (vals id) (doc_rel (vals kind)) (vals target) ""].
Proof. reflexivity. Qed.

Lemma rels_flat_map {A} (f : A -> list tpl) (g : A -> rel) l :
  (forall x, map rel_of (named "Relationship" (tsnodes (f x))) = [g x]) ->
  map rel_of (named "Relationship" (tsnodes (flat_map f l))) = map g l.
Proof.
  intros H. induction l as [|x l IH]; [reflexivity|]. cbn [flat_map map].
  rewrite tsnodes_app, named_app, map_app, H, IH. reflexivity.
Qed.

Lemma pres_body_rels n notes handout :
  map rel_of (named "Relationship" (tsnodes (pres_body n notes handout))) = pres_rel_list n notes handout.
Proof.
  unfold pres_body, pres_rel_list.
  rewrite !tsnodes_app, !named_app, !map_app.
  erewrite rels_flat_map; [|intros i; rewrite relT_rel; reflexivity].
  rewrite !relT_rel. cbn [app vals map sconcat fold_right pval].
  f_equal. f_equal.
  - apply map_ext. intros i. unfold slide_rel_id. now rewrite !sapp_nil_r.
  - destruct notes, handout; rewrite ?relT_rel; cbn [app vals map sconcat fold_right pval tsnodes]; now rewrite ?sapp_nil_r.
Qed.

Definition font_rel (f : font) : rel := Rel (f_rid f) (doc_rel "font") (rel_target_of f) "".

Lemma attr_ok_app s t : attr_ok (s ++ t) = attr_ok s && attr_ok t.
Proof. induction s as [|c s IH]; [reflexivity|]. cbn [append attr_ok]. now rewrite IH, andb_assoc. Qed.

Lemma attr_ok_nospace s : attr_ok s = true -> attr_ok (replace_char " " "" s) = true.
Proof.
  unfold replace_char. induction s as [|c s IH]; [reflexivity|]. cbn [attr_ok smap].
  rewrite andb_true_iff. intros [H1 H2]. destruct (Ascii.eqb c " "); rewrite ?attr_ok_app; cbn [append attr_ok]; [now apply IH|].
  cbn [s1 append attr_ok]. rewrite H1. now apply IH.
Qed.

Lemma rel_target_ok f : attr_ok (f_typeface f) = true -> attr_ok (rel_target_of f) = true.
Proof.
  intros H. unfold rel_target_of. rewrite !attr_ok_app, attr_ok_nospace by assumption.
  destruct (f_style f); reflexivity.
Qed.

Lemma prepare_fonts_ok n notes handout fonts :
  forallb font_ok fonts = true -> forallb font_ok (prepare_fonts n notes handout fonts) = true.
Proof.
  unfold prepare_fonts, assign_relationship_ids, enumerate. generalize (table_styles_rel_id n notes handout + 1) as st. generalize 0 as i. intros i st. revert st i.
  induction fonts as [|f fonts IH]; intros st i H; [reflexivity|].
  cbn [forallb length seq combine map] in *. apply andb_true_iff in H. destruct H as [H1 H2].
  rewrite (IH st (S i) H2), andb_true_r. unfold assign_one.
  destruct (String.eqb (f_rid f) ""); [|exact H1].
  unfold font_ok in *. cbn [f_typeface f_rid f_panose].
  apply andb_true_iff in H1. destruct H1 as [H1 H3]. apply andb_true_iff in H1. destruct H1 as [H1 H4].
  rewrite H1, H3, sforall_app, decn_val. reflexivity.
Qed.

Lemma toks_fontRels fonts : forallb font_ok fonts = true ->
  toks (map fontRel (map (fun f => (f_rid f, rel_target_of f)) fonts)).
Proof.
  intros H. apply toks_map. intros x Hx. apply in_map_iff in Hx. destruct Hx as [f [<- Hf]].
  rewrite forallb_forall in H. specialize (H _ Hf). unfold font_ok in H.
  apply andb_true_iff in H. destruct H as [H H3]. apply andb_true_iff in H. destruct H as [H H4].
  unfold fontRel. cbn [tok fst snd]. split; [reflexivity|]. unfold tattrs_ok. apply andb_true_iff. split; [reflexivity|].
  cbn [forallb pv_ok fst snd]. rewrite H4, rel_target_ok by assumption. reflexivity.
Qed.

Lemma fontRels_rels fonts :
  map rel_of (named "Relationship" (tsnodes (map fontRel (map (fun f => (f_rid f, rel_target_of f)) fonts)))) =
  map font_rel fonts.
Proof.
  induction fonts as [|f fonts IH]; [reflexivity|]. cbn [map]. unfold tsnodes in *. cbn [map concat].
  rewrite named_app, map_app, IH.
  unfold fontRel, font_rel. cbn. now rewrite !sapp_nil_r.
Qed.

Lemma presentation_rels_read n notes handout fonts : forallb font_ok fonts = true ->
  rels_of (presentation_rels n notes handout fonts) =
  Some (pres_rel_list n notes handout ++ map font_rel (prepare_fonts n notes handout fonts))%list.
Proof.
  intros H. unfold presentation_rels. rewrite pres_rels_fonts_tpl, rels_of_tpl.
  - rewrite tsnodes_app, named_app, map_app, pres_body_rels, fontRels_rels. reflexivity.
  - apply toks_app. split; [apply toks_pres_body|]. apply toks_fontRels. now apply prepare_fonts_ok.
Qed.

(** Ids: rId1, then rId2.. without gaps. *)
Definition rid (k : nat) : string := "rId" ++ decn k.
Lemma rid_inj k j : rid k = rid j -> k = j.
Proof. intros H. apply decn_inj. apply (sapp_inj_l "rId"). exact H. Qed.
Lemma NoDup_rids l : NoDup l -> NoDup (map rid l).
Proof. intros H. apply Injective_map_NoDup; [intros a b; apply rid_inj|exact H]. Qed.

Lemma pres_rel_ids n notes handout :
  map rel_id (pres_rel_list n notes handout) = map rid (seq 1 (table_styles_rel_id n notes handout)).
Proof.
  unfold pres_rel_list. cbn [map]. rewrite !map_app, map_map.
  assert (T : table_styles_rel_id n notes handout = S (n + (Nat.b2n notes + (Nat.b2n handout + 4)))).
  { unfold table_styles_rel_id, pres_props_rel_id. destruct notes, handout; simpl; lia. }
  rewrite T. cbn [seq map]. f_equal.
  replace (map rid (seq 2 (n + (Nat.b2n notes + (Nat.b2n handout + 4)))))
    with (map rid (seq 2 n) ++ map rid (seq (2 + n) (Nat.b2n notes + (Nat.b2n handout + 4))))%list
    by now rewrite <- map_app, <- seq_app.
  f_equal.
  - rewrite <- (seq_shift n 1), map_map. apply map_ext. intros i. unfold rid. cbn [rel_id]. now rewrite Nat.add_1_r.
  - destruct notes, handout; unfold rid, notes_master_rel_id, handout_master_rel_id, table_styles_rel_id, theme_rel_id, view_props_rel_id, pres_props_rel_id;
      cbn [Nat.b2n Nat.add seq map app rel_id]; repeat (f_equal; try lia).
Qed.

Lemma combine_seq_snd {A} (l : list A) i : map snd (combine (seq i (length l)) l) = l.
Proof. revert i. induction l; intros i; simpl; congruence. Qed.

Lemma prepare_rids n notes handout fonts : (forall f, In f fonts -> f_rid f = "") ->
  map f_rid (prepare_fonts n notes handout fonts) =
  map rid (seq (table_styles_rel_id n notes handout + 1) (length fonts)).
Proof.
  unfold prepare_fonts, assign_relationship_ids, enumerate.
  generalize (table_styles_rel_id n notes handout + 1) as st. intros st.
  rewrite <- (Nat.add_0_r st) at 2. generalize 0 as i.
  induction fonts as [|f fonts IH]; intros i H; [reflexivity|].
  cbn [length seq combine map]. rewrite IH by (intros g Hg; apply H; now right).
  f_equal.
  - unfold assign_one. rewrite (H f) by now left. reflexivity.
  - now rewrite Nat.add_succ_r.
Qed.

Lemma presentation_rel_ids n notes handout fonts : (forall f, In f fonts -> f_rid f = "") ->
  map rel_id (pres_rel_list n notes handout ++ map font_rel (prepare_fonts n notes handout fonts)) =
  map rid (seq 1 (table_styles_rel_id n notes handout + length fonts)).
Proof.
  intros H. rewrite map_app, pres_rel_ids, map_map.
  change (map (fun x => rel_id (font_rel x)) (prepare_fonts n notes handout fonts)) with (map f_rid (prepare_fonts n notes handout fonts)).
  rewrite prepare_rids by assumption. rewrite seq_app, map_app. do 2 f_equal. f_equal. lia.
Qed.

(** ** presentation.xml *)

Definition pres_attrs : list (string * list piece) :=
  [("xmlns:a", [Lit "http://schemas.openxmlformats.org/drawingml/2006/main"]);
   ("xmlns:r", [Lit "http://schemas.openxmlformats.org/officeDocument/2006/relationships"]);
   ("xmlns:p", [Lit "http://schemas.openxmlformats.org/presentationml/2006/main"]);
   ("saveSubsetFonts", [Lit "1"]); ("autoCompressPictures", [Lit "0"])].
Definition pres_ext : string := "<p:extLst><p:ext uri=""{EFAFB233-063F-42B5-8137-9DF3F51BA10A}""><p15:sldGuideLst xmlns:p15=""http://schemas.microsoft.com/office/powerpoint/2012/main""/></p:ext></p:extLst>".
Definition sldIdT (notes handout : bool) (i : nat) : list tpl :=
  [TT [Lit nl]; TS "p:sldId" [("id", [Lit (decn (slide_id_value i))]); ("r:id", [Lit "rId"; Lit (decn (slide_rel_id i notes handout))])]].
Definition pres_xml_body (n : nat) (notes handout : bool) : list tpl :=
  [TT [Lit nl]; TE "p:sldMasterIdLst" [] [TT [Lit nl]; TS "p:sldMasterId" [("id", [Lit (dec slide_master_id)]); ("r:id", [Lit "rId1"])]; TT [Lit nl]]]
  ++ (if notes then [TT [Lit nl]; TE "p:notesMasterIdLst" [] [TT [Lit nl]; TS "p:notesMasterId" [("r:id", [Lit "rId"; Lit (decn (notes_master_rel_id n))])]; TT [Lit nl]]] else [])
  ++ (if handout then [TT [Lit nl]; TE "p:handoutMasterIdLst" [] [TT [Lit nl]; TS "p:handoutMasterId" [("r:id", [Lit "rId"; Lit (decn (handout_master_rel_id n notes))])]; TT [Lit nl]]] else [])
  ++ [TT [Lit nl]; TE "p:sldIdLst" [] (flat_map (sldIdT notes handout) (seq 1 n) ++ [TT [Lit nl]])]
  ++ [TT [Lit nl]; TS "p:sldSz" [("cx", [Lit "9144000"]); ("cy", [Lit "6858000"]); ("type", [Lit "screen4x3"])];
      TT [Lit nl]; TS "p:notesSz" [("cx", [Lit "6858000"]); ("cy", [Lit "9144000"])]; TT [Lit nl];
      TC default_text_style (lit_nodes default_text_style); TC pres_ext (lit_nodes pres_ext)].

Ltac lit_const t ::=
  lazymatch t with
  | nl => constr:(true)
  | dq => constr:(true)
  | decl => constr:(true)
  | pres_ext => constr:(true)
  | default_text_style => constr:(true)
  | dec slide_master_id => constr:(true)
  | _ => constr:(false)
  end.

Lemma pres_xml_tpl n notes handout :
  create_presentation_xml n notes handout =
  decl ++ nl ++ tstr (TE "p:presentation" pres_attrs (pres_xml_body n notes handout)).
Proof.
  cbn [tstr]. change (sconcat (map tstr (pres_xml_body n notes handout))) with (tstrs (pres_xml_body n notes handout)).
  unfold pres_xml_body. rewrite !tstrs_app.
  rewrite (tstrs_cons (TT [Lit nl]) [TE "p:sldIdLst" _ _]), (tstrs_cons (TE "p:sldIdLst" _ _) []), (tstr_TE "p:sldIdLst").
  unfold telem_open. rewrite tstrs_app, tstrs_flat_map.
  unfold create_presentation_xml.
  rewrite (sconcat_ext (pres_sld_id notes handout) (fun i => tstrs (sldIdT notes handout i))).
  2:{ intros i _. unfold pres_sld_id, sldIdT. tstr_eq. }
  set (X := sconcat _).
  generalize (decn (notes_master_rel_id n)) (decn (handout_master_rel_id n notes)).
  intros d1 d2. clearbody X. unfold pres_attrs.
  destruct notes, handout; tstr_eq.
Qed.

Lemma toks_pres_xml_body n notes handout : toks (pres_xml_body n notes handout).
Proof.
  assert (H : toks (flat_map (sldIdT notes handout) (seq 1 n) ++ [TT [Lit nl]])).
  { apply toks_app. split; [apply toks_flat_map; intros i _; unfold sldIdT|]; toks_solve. }
  unfold pres_xml_body. apply toks_app_i; [toks_solve|]. apply toks_app_i; [destruct notes; toks_solve|].
  apply toks_app_i; [destruct handout; toks_solve|]. apply toks_app_i.
  - cbn [toks]. split; [toks_solve|]. split; [|exact I]. apply tok_TE; [reflexivity|reflexivity|exact H].
  - toks_solve.
Qed.

(** ** The font list *)

Definition fontT (typeface : string) (fonts : list font) : list tpl :=
  match find_by_typeface typeface fonts with
  | first :: _ =>
      [TS "p:font" ([("typeface", [Esc typeface]); ("charset", [Lit (dec (f_charset first))]); ("pitchFamily", [Lit (dec (f_pitch first))])]
         ++ match f_panose first with Some p => [("panose", [Lit p])] | None => [] end)]
  | [] => []
  end.
Definition fontRefT (f : font) : tpl := TS ("p:" ++ xml_element (f_style f)) [("r:id", [Lit (f_rid f)])].
Definition fontGroupT (fonts : list font) (typeface : string) : tpl :=
  TE "p:embeddedFont" [] (fontT typeface fonts ++ map fontRefT (find_by_typeface typeface fonts)).
Definition fontListT (fonts : list font) : tpl :=
  TE "p:embeddedFontLst" [] (map (fontGroupT fonts) (seen_typefaces fonts)).
Definition fontsT (fonts : list font) : list tpl := match fonts with [] => [] | _ => [fontListT fonts] end.

Lemma tstrs_map {A} (f : A -> tpl) l : tstrs (map f l) = sconcat (map (fun x => tstr (f x)) l).
Proof. unfold tstrs. now rewrite map_map. Qed.

Lemma font_group_tpl fonts typeface : font_group fonts typeface = tstr (fontGroupT fonts typeface).
Proof.
  unfold font_group, fontGroupT. rewrite tstr_TE. unfold telem_open. rewrite tstrs_app, tstrs_map.
  rewrite (sconcat_ext font_ref (fun x => tstr (fontRefT x))).
  2:{ intros f _. unfold font_ref, fontRefT. tstr_eq. }
  set (X := sconcat _). clearbody X. unfold font_descriptor, fontT. rewrite chained_escape_eq.
  destruct (find_by_typeface typeface fonts) as [|f l]; [tstr_eq|].
  destruct (f_panose f); tstr_eq.
Qed.

Lemma fonts_tpl fonts : fonts_to_xml fonts = tstrs (fontsT fonts).
Proof.
  unfold fonts_to_xml, fontsT. destruct fonts as [|f fonts]; [reflexivity|].
  set (l := f :: fonts). clearbody l. rewrite tstrs_cons. unfold fontListT. rewrite tstr_TE. unfold telem_open.
  rewrite tstrs_map. rewrite (sconcat_ext (font_group l) (fun x => tstr (fontGroupT l x))) by (intros; apply font_group_tpl).
  set (X := sconcat _). clearbody X. tstr_eq.
Qed.

Lemma find_by_typeface_In t fonts f : In f (find_by_typeface t fonts) <-> In f fonts /\ f_typeface f = t.
Proof. unfold find_by_typeface. rewrite filter_In, String.eqb_eq. tauto. Qed.

Lemma seen_In fonts t : In t (seen_typefaces fonts) <-> exists f, In f fonts /\ f_typeface f = t.
Proof.
  unfold seen_typefaces.
  enough (H : forall seen, In t (fold_left (fun seen f => if existsb (String.eqb (f_typeface f)) seen then seen else (seen ++ [f_typeface f])%list) fonts seen)
     <-> In t seen \/ exists f, In f fonts /\ f_typeface f = t).
  { rewrite H. simpl. tauto. }
  induction fonts as [|f fonts IH]; intros seen; cbn [fold_left].
  - split; [now left|intros [H|[f [[] _]]]; exact H].
  - rewrite IH. destruct (existsb (String.eqb (f_typeface f)) seen) eqn:E.
    + apply existsb_exists in E. destruct E as [x [E1 E2]]. apply String.eqb_eq in E2.
      split; intros [H|[g [H1 H2]]]; [now left|right; exists g; split; [now right|exact H2]|now left|].
      destruct H1 as [H1|H1]; [left; congruence|right; exists g; now split].
    + rewrite in_app_iff. cbn [In]. split.
      * intros [[H|[H|[]]]|[g [H1 H2]]]; [now left|right; exists f; split; [now left|exact H]|right; exists g; split; [now right|exact H2]].
      * intros [H|[g [[H1|H1] H2]]]; [left; now left|left; right; left; congruence|right; exists g; now split].
Qed.

Lemma toks_fontsT fonts : forallb font_ok fonts = true -> toks (fontsT fonts).
Proof.
  intros H. unfold fontsT. destruct fonts as [|f0 fonts0]; [exact I|].
  set (fonts := f0 :: fonts0) in *. clearbody fonts. cbn [toks]. split; [|exact I].
  rewrite forallb_forall in H.
  assert (P : forall f, In f fonts -> attr_ok (f_typeface f) = true /\ sforall plain_val (f_rid f) = true /\
            match f_panose f with Some p => sforall plain_val p | None => true end = true).
  { intros f Hf. specialize (H f Hf). unfold font_ok in H. apply andb_true_iff in H. destruct H as [H H3].
    apply andb_true_iff in H. tauto. }
  unfold fontListT. apply tok_TE; [reflexivity|reflexivity|]. apply toks_map. intros t Ht.
  unfold fontGroupT. apply tok_TE; [reflexivity|reflexivity|]. apply toks_app. split.
  - unfold fontT. destruct (find_by_typeface t fonts) as [|f l] eqn:E; [exact I|].
    assert (In f (find_by_typeface t fonts)) as Hf by (rewrite E; now left).
    apply find_by_typeface_In in Hf. destruct Hf as [Hf <-]. destruct (P f Hf) as (A & B & C).
    cbn [toks tok]. split; [|exact I]. split; [reflexivity|].
    unfold tattrs_ok. destruct (f_panose f); cbn [app nodup_keys existsb forallb fst snd pv_ok]; rewrite A, !dec_val, ?C; reflexivity.
  - apply toks_map. intros f Hf. apply find_by_typeface_In in Hf. destruct Hf as [Hf _]. destruct (P f Hf) as (A & B & C).
    unfold fontRefT. cbn [tok]. split; [destruct (f_style f); reflexivity|]. unfold tattrs_ok.
    cbn [nodup_keys existsb forallb fst snd pv_ok]. rewrite B. reflexivity.
Qed.

Lemma presentation_xml_tpl n notes handout fonts :
  presentation_xml n notes handout fonts =
  decl ++ nl ++ tstr (TE "p:presentation" pres_attrs
    (pres_xml_body n notes handout ++ fontsT (prepare_fonts n notes handout fonts))).
Proof.
  unfold presentation_xml, create_presentation_xml_with_fonts. rewrite pres_xml_tpl.
  generalize (prepare_fonts n notes handout fonts) as fs. intros fs.
  destruct (String.eqb_spec (fonts_to_xml fs) "") as [E|E].
  - destruct fs; [|discriminate E]. cbn [fontsT]. now rewrite app_nil_r.
  - apply (insert_tpl decl nl "p:presentation"). apply fonts_tpl.
Qed.

Lemma presentation_xml_read n notes handout fonts : forallb font_ok fonts = true ->
  xml_read (presentation_xml n notes handout fonts) =
  Some (Elem "p:presentation" (attrs_val pres_attrs)
    (merge_text (tsnodes (pres_xml_body n notes handout) ++ tsnodes (fontsT (prepare_fonts n notes handout fonts))))).
Proof.
  intros H. rewrite presentation_xml_tpl, tpl_read; [now rewrite tsnodes_app|reflexivity|reflexivity|].
  apply tok_TE; [reflexivity|vm_compute; reflexivity|]. apply toks_app. split; [apply toks_pres_xml_body|].
  apply toks_fontsT. now apply prepare_fonts_ok.
Qed.

Lemma id_list_read lst item n notes handout fonts : forallb font_ok fonts = true ->
  id_list (presentation_xml n notes handout fonts) lst item =
  Some (map (fun x => (attr "id" x, attr "r:id" x)) (named item (flat_map children
     (named lst (tsnodes (pres_xml_body n notes handout)) ++ named lst (tsnodes (fontsT (prepare_fonts n notes handout fonts))))))).
Proof. intros H. unfold id_list. rewrite presentation_xml_read by assumption. now rewrite named_merge, named_app. Qed.

Lemma fonts_named lst fonts : String.eqb "p:embeddedFontLst" lst = false -> named lst (tsnodes (fontsT fonts)) = [].
Proof. intros H. destruct fonts; [reflexivity|]. cbn [fontsT]. unfold fontListT. cbn [tsnodes tnodes map concat app]. unfold named. cbn [filter is_named]. now rewrite H. Qed.

Lemma rest_named lst : lst = "p:sldMasterIdLst" \/ lst = "p:notesMasterIdLst" \/ lst = "p:handoutMasterIdLst" \/ lst = "p:sldIdLst" ->
  named lst (tsnodes [TT [Lit nl]; TS "p:sldSz" [("cx", [Lit "9144000"]); ("cy", [Lit "6858000"]); ("type", [Lit "screen4x3"])];
      TT [Lit nl]; TS "p:notesSz" [("cx", [Lit "6858000"]); ("cy", [Lit "9144000"])]; TT [Lit nl];
      TC default_text_style (lit_nodes default_text_style); TC pres_ext (lit_nodes pres_ext)]) = [].
Proof. intros [->|[->|[->| ->]]]; vm_compute; reflexivity. Qed.

Definition sld_ids (n : nat) : list (string * string) := map (fun i => (decn (255 + i), rid (i + 1))) (seq 1 n).

Lemma sldIdT_named notes handout l :
  map (fun x => (attr "id" x, attr "r:id" x)) (named "p:sldId" (tsnodes (flat_map (sldIdT notes handout) l))) =
  map (fun i => (decn (255 + i), rid (i + 1))) l.
Proof.
  induction l as [|i l IH]; [reflexivity|]. cbn [flat_map map]. rewrite tsnodes_app, named_app, map_app, IH.
  unfold sldIdT, slide_id_value, slide_rel_id, rid. cbn. now rewrite !sapp_nil_r.
Qed.

Lemma id_lists_read n notes handout fonts : forallb font_ok fonts = true ->
  let x := presentation_xml n notes handout fonts in
  id_list x "p:sldIdLst" "p:sldId" = Some (sld_ids n) /\
  id_list x "p:sldMasterIdLst" "p:sldMasterId" = Some [("2147483648", "rId1")] /\
  id_list x "p:notesMasterIdLst" "p:notesMasterId" = Some (if notes then [("", rid (n + 2))] else []) /\
  id_list x "p:handoutMasterIdLst" "p:handoutMasterId" = Some (if handout then [("", rid (n + 2 + Nat.b2n notes))] else []).
Proof.
  intros H. cbv zeta. rewrite !id_list_read, !fonts_named, !app_nil_r by (assumption || reflexivity).
  unfold pres_xml_body. rewrite !tsnodes_app, !named_app, !rest_named by auto.
  assert (Q1 : forall Q, named "p:sldIdLst" (tsnodes [TT [Lit nl]; TE "p:sldIdLst" [] Q]) =
                [Elem "p:sldIdLst" [] (merge_text (tsnodes Q))]) by reflexivity.
  assert (Q2 : forall lst Q, String.eqb "p:sldIdLst" lst = false ->
                named lst (tsnodes [TT [Lit nl]; TE "p:sldIdLst" [] Q]) = []).
  { intros lst Q E. unfold named. cbn [tsnodes tnodes map concat app filter is_named]. now rewrite E. }
  rewrite Q1, !Q2 by reflexivity.
  repeat split; f_equal.
  - match goal with |- context [(?A ++ ?B ++ ?C ++ [?X] ++ [])%list] =>
      replace A with (@nil node) by reflexivity;
      replace B with (@nil node) by (destruct notes; reflexivity);
      replace C with (@nil node) by (destruct handout; reflexivity) end.
    cbn [app flat_map children]. rewrite app_nil_r, named_merge, tsnodes_app, named_app, map_app, sldIdT_named.
    change (named "p:sldId" (tsnodes [TT [Lit nl]])) with (@nil node). apply app_nil_r.
  - destruct notes, handout; reflexivity.
  - destruct notes, handout; unfold rid; cbn; now rewrite ?sapp_nil_r.
  - destruct notes, handout; unfold rid; cbn; now rewrite ?sapp_nil_r.
Qed.

(** ** Looking up by id *)

Lemma lookup_rel_NoDup l r : NoDup (map rel_id l) -> In r l -> lookup_rel (rel_id r) l = Some r.
Proof.
  unfold lookup_rel. induction l as [|x l IH]; [intros _ []|]. cbn [map filter]. intros N [->|I]; inversion N as [|? ? N1 N2]; subst.
  - rewrite String.eqb_refl. replace (filter _ l) with (@nil rel); [reflexivity|].
    symmetry. clear IH N N2. induction l as [|y l IH]; [reflexivity|]. cbn [filter map] in *.
    destruct (String.eqb_spec (rel_id y) (rel_id r)) as [E|E]; [exfalso; apply N1; left; exact E|].
    apply IH. intros H. apply N1. now right.
  - destruct (String.eqb_spec (rel_id x) (rel_id r)) as [E|E]; [|now apply IH].
    exfalso. apply N1. rewrite E. now apply in_map.
Qed.

Lemma font_ready_ok fonts : (forall f, In f fonts -> font_ok f = true /\ f_rid f = "") -> forallb font_ok fonts = true.
Proof. intros H. apply forallb_forall. intros f Hf. now apply H. Qed.

Lemma presentation_rels_nodup n notes handout fonts :
  (forall f, In f fonts -> font_ok f = true /\ f_rid f = "") ->
  exists l, rels_of (presentation_rels n notes handout fonts) = Some l /\ NoDup (map rel_id l) /\
    l = (pres_rel_list n notes handout ++ map font_rel (prepare_fonts n notes handout fonts))%list.
Proof.
  intros H. eexists. split; [apply presentation_rels_read, font_ready_ok, H|]. split; [|reflexivity].
  rewrite presentation_rel_ids by (intros f Hf; now apply H). apply NoDup_rids, seq_NoDup.
Qed.

Lemma presentation_refs n notes handout fonts :
  (forall f, In f fonts -> font_ok f = true /\ f_rid f = "") ->
  let x := presentation_xml n notes handout fonts in
  exists rels slides masters notes_masters handout_masters,
    rels_of (presentation_rels n notes handout fonts) = Some rels /\
    id_list x "p:sldIdLst" "p:sldId" = Some slides /\
    id_list x "p:sldMasterIdLst" "p:sldMasterId" = Some masters /\
    id_list x "p:notesMasterIdLst" "p:notesMasterId" = Some notes_masters /\
    id_list x "p:handoutMasterIdLst" "p:handoutMasterId" = Some handout_masters /\
    length slides = n /\ NoDup (map fst slides) /\
    (forall i id r, nth_error slides i = Some (id, r) ->
       (exists k, 256 <= k /\ id = decn k) /\
       lookup_rel r rels = Some (Rel r (doc_rel "slide") ("slides/slide" ++ decn (i + 1) ++ ".xml") "")) /\
    (exists id r, masters = [(id, r)] /\
       lookup_rel r rels = Some (Rel r (doc_rel "slideMaster") "slideMasters/slideMaster1.xml" "")) /\
    (if notes then exists r, notes_masters = [("", r)] /\
       lookup_rel r rels = Some (Rel r (doc_rel "notesMaster") "notesMasters/notesMaster1.xml" "")
     else notes_masters = []) /\
    (if handout then exists r, handout_masters = [("", r)] /\
       lookup_rel r rels = Some (Rel r (doc_rel "handoutMaster") "handoutMasters/handoutMaster1.xml" "")
     else handout_masters = []).
Proof.
  intros H x. pose proof (id_lists_read n notes handout fonts (font_ready_ok _ H)) as (A & B & C & D).
  destruct (presentation_rels_nodup n notes handout fonts H) as (l & L1 & L2 & L3).
  exists l, (sld_ids n), [("2147483648", "rId1")], (if notes then [("", rid (n + 2))] else []),
    (if handout then [("", rid (n + 2 + Nat.b2n notes))] else []).
  split; [exact L1|]. split; [exact A|]. split; [exact B|]. split; [exact C|]. split; [exact D|].
  assert (P : forall r, In r (pres_rel_list n notes handout) -> lookup_rel (rel_id r) l = Some r).
  { intros r Hr. apply lookup_rel_NoDup; [exact L2|]. rewrite L3. apply in_or_app. now left. }
  split; [unfold sld_ids; now rewrite map_length, seq_length|].
  split. { unfold sld_ids. rewrite map_map. cbn [fst]. apply Injective_map_NoDup; [|apply seq_NoDup]. intros a b E. apply decn_inj in E. lia. }
  split.
  { intros i id r E. unfold sld_ids in E. rewrite nth_error_map in E.
    assert (L : i < n). { assert (K : nth_error (seq 1 n) i <> None) by (intros K; rewrite K in E; discriminate). apply nth_error_Some in K. now rewrite seq_length in K. }
    rewrite (nth_error_nth' (seq 1 n) 0) in E by now rewrite seq_length. rewrite seq_nth in E by assumption.
    cbn [option_map] in E. injection E as <- <-. split; [exists (255 + (1 + i)); split; [lia|reflexivity]|].
    refine (P (Rel _ _ _ _) _). unfold pres_rel_list. right.
    apply in_or_app. left. apply in_map_iff. exists (1 + i). split; [|apply in_seq; lia].
    rewrite (Nat.add_comm i 1). f_equal. cbn [append]. do 4 f_equal. lia. }
  split. { exists "2147483648", "rId1". split; [reflexivity|]. refine (P (Rel _ _ _ _) _). now left. }
  split.
  - destruct notes; [|reflexivity]. eexists. split; [reflexivity|]. refine (P (Rel _ _ _ _) _).
    right. apply in_or_app. right. apply in_or_app. left. now left.
  - destruct handout; [|reflexivity]. eexists. split; [reflexivity|]. refine (P (Rel _ _ _ _) _).
    right. apply in_or_app. right. apply in_or_app. right. apply in_or_app. left. now left.
Qed.

(** ** The embedded font list *)

Lemma first_uses_In l x : In x (first_uses l) <-> In x l.
Proof.
  induction l as [|y l IH]; [reflexivity|]. cbn [first_uses In]. rewrite filter_In, IH, negb_true_iff, String.eqb_neq.
  destruct (String.eqb_spec y x); [tauto|]. split; [tauto|]. intros [E|E]; [now left|right; split; [exact E|congruence]].
Qed.

Lemma first_uses_snoc l x : first_uses (l ++ [x]) = if existsb (String.eqb x) l then first_uses l else (first_uses l ++ [x])%list.
Proof.
  induction l as [|y l IH]; [reflexivity|]. cbn [app first_uses existsb]. rewrite IH.
  destruct (String.eqb_spec x y) as [->|E]; cbn [orb].
  - destruct (existsb _ l); [reflexivity|]. rewrite filter_app. cbn [filter]. rewrite String.eqb_refl. cbn [negb]. now rewrite app_nil_r.
  - destruct (existsb _ l); [reflexivity|]. rewrite filter_app. cbn [filter app].
    destruct (String.eqb_spec y x); [congruence|]. reflexivity.
Qed.

Lemma seen_first fonts : seen_typefaces fonts = first_uses (map f_typeface fonts).
Proof.
  unfold seen_typefaces.
  enough (H : forall pre, fold_left (fun seen f => if existsb (String.eqb (f_typeface f)) seen then seen else (seen ++ [f_typeface f])%list) fonts (first_uses pre)
     = first_uses (pre ++ map f_typeface fonts)).
  { apply (H []). }
  induction fonts as [|f fonts IH]; intros pre; cbn [fold_left map]; [now rewrite app_nil_r|].
  replace (pre ++ f_typeface f :: map f_typeface fonts)%list with ((pre ++ [f_typeface f]) ++ map f_typeface fonts)%list by now rewrite <- app_assoc.
  rewrite <- IH, first_uses_snoc.
  replace (existsb (String.eqb (f_typeface f)) (first_uses pre)) with (existsb (String.eqb (f_typeface f)) pre); [reflexivity|].
  apply eq_true_iff_eq. rewrite !existsb_exists. setoid_rewrite first_uses_In. reflexivity.
Qed.

Lemma first_uses_NoDup l : NoDup (first_uses l).
Proof.
  induction l as [|x l IH]; [constructor|]. cbn [first_uses]. constructor.
  - rewrite filter_In, String.eqb_refl. intros [_ H]. discriminate.
  - now apply NoDup_filter.
Qed.

Lemma partition_perm {A} (key : A -> string) l : forall ks, NoDup ks -> (forall x, In x l -> In (key x) ks) ->
  Permutation (flat_map (fun k => filter (fun x => String.eqb (key x) k) l) ks) l.
Proof.
  intros ks. revert l. induction ks as [|k ks IH]; intros l N H.
  - destruct l as [|x l]; [constructor|]. destruct (H x (or_introl eq_refl)).
  - cbn [flat_map]. inversion N as [|? ? N1 N2]; subst.
    assert (E : flat_map (fun k0 => filter (fun x => String.eqb (key x) k0) l) ks =
                flat_map (fun k0 => filter (fun x => String.eqb (key x) k0) (filter (fun x => negb (String.eqb (key x) k)) l)) ks).
    { clear IH H N N2. induction ks as [|j ks IHk]; [reflexivity|]. cbn [flat_map]. rewrite IHk by (intros H; apply N1; now right). f_equal.
      clear IHk. induction l as [|x l IHl]; [reflexivity|]. cbn [filter].
      destruct (String.eqb_spec (key x) j) as [E|E]; destruct (String.eqb_spec (key x) k) as [E2|E2]; cbn [negb filter]; rewrite ?IHl.
      - exfalso. apply N1. left. congruence.
      - rewrite <- E, String.eqb_refl. reflexivity.
      - reflexivity.
      - destruct (String.eqb_spec (key x) j); [congruence|reflexivity]. }
    rewrite E, IH; [|exact N2|].
    + clear. induction l as [|x l IHl]; [constructor|]. cbn [filter]. destruct (String.eqb (key x) k); cbn [negb app].
      * now constructor.
      * apply Permutation_sym, Permutation_cons_app, Permutation_sym, IHl.
    + intros x Hx. apply filter_In in Hx. destruct Hx as [Hx Hk]. apply negb_true_iff, String.eqb_neq in Hk.
      destruct (H x Hx); [congruence|assumption].
Qed.

Lemma fonts_read fonts : fonts <> [] -> forallb font_ok fonts = true ->
  font_entries (fonts_to_xml fonts) =
  Some (map (fun t => (t, map font_ref_entry (filter (fun f => String.eqb (f_typeface f) t) fonts))) (first_uses (map f_typeface fonts))).
Proof.
  intros Ne H. unfold font_entries. rewrite fonts_tpl. unfold fontsT. destruct fonts as [|f0 l]; [congruence|].
  pose proof (toks_fontsT (f0 :: l) H) as T. cbn [fontsT] in T. set (fonts := f0 :: l) in *. clearbody fonts. clear Ne.
  destruct T as [T _]. rewrite tstrs_cons. change (tstrs []) with "". rewrite sapp_nil_r.
  unfold fontListT in *. rewrite tpl_read0 by exact T. rewrite named_merge. f_equal.
  rewrite <- seen_first.
  assert (S : forall t, In t (seen_typefaces fonts) -> exists f r, find_by_typeface t fonts = f :: r).
  { intros t Ht. apply seen_In in Ht. destruct Ht as [f [Hf Ht]].
    assert (In f (find_by_typeface t fonts)) as K by (apply find_by_typeface_In; now split).
    destruct (find_by_typeface t fonts) as [|g r]; [destruct K|]. now exists g, r. }
  revert S. generalize (seen_typefaces fonts) as ts. clear T.
  induction ts as [|t ts IH]; intros S; [reflexivity|]. cbn [map].
  unfold tsnodes in *. cbn [map concat]. rewrite named_app, map_app, IH by (intros u Hu; apply S; now right).
  change (fun f => String.eqb (f_typeface f) t) with (fun f => String.eqb (f_typeface f) t).
  destruct (S t (or_introl eq_refl)) as (f & r & E).
  unfold fontGroupT. cbn [tnodes]. unfold named at 1. cbn [filter is_named String.eqb Ascii.eqb Bool.eqb]. cbn [map].
  cbn [app]. f_equal. unfold font_entry. cbn [children].
  rewrite named_merge. fold (tsnodes (fontT t fonts ++ map fontRefT (find_by_typeface t fonts))).
  assert (R : forall l, named "p:font" (tsnodes (map fontRefT l)) = []).
  { induction l0 as [|g l0 IHl]; [reflexivity|]. unfold tsnodes in *. cbn [map concat]. rewrite named_app, IHl. unfold fontRefT. destruct (f_style g); reflexivity. }
  assert (R2 : forall l, map (fun x => (name_of x, attr "r:id" x)) (filter is_font_ref (tsnodes (map fontRefT l))) = map font_ref_entry l).
  { induction l0 as [|g l0 IHl]; [reflexivity|]. unfold tsnodes in *. cbn [map concat]. rewrite filter_app, map_app, IHl. unfold fontRefT, font_ref_entry.
    destruct (f_style g); cbn; now rewrite sapp_nil_r. }
  assert (M : forall l, filter is_font_ref (merge_text l) = filter is_font_ref l).
  { clear. induction l as [|[m a k|s] l IH]; [reflexivity| |].
    - cbn [merge_text filter]. now rewrite IH.
    - cbn [filter is_font_ref]. rewrite <- IH. cbn [merge_text].
      destruct (merge_text l) as [|[m a k|t] r]; [| |reflexivity]; destruct (String.eqb s ""); reflexivity. }
  rewrite M, tsnodes_app, named_app, filter_app, R, map_app, R2, app_nil_r.
  unfold fontT. rewrite E. destruct (f_panose f); cbn; unfold find_by_typeface in E; rewrite sapp_nil_r, E; reflexivity.
Qed.

Lemma prepare_typefaces st fonts : map f_typeface (assign_relationship_ids st fonts) = map f_typeface fonts.
Proof.
  unfold assign_relationship_ids, enumerate. generalize 0 as i. induction fonts as [|f fonts IH]; intros i; [reflexivity|].
  cbn [length seq combine map]. rewrite IH. f_equal. unfold assign_one. now destruct (String.eqb _ _).
Qed.

Lemma assign_ok st fonts : forallb font_ok fonts = true -> forallb font_ok (assign_relationship_ids st fonts) = true.
Proof.
  unfold assign_relationship_ids, enumerate. generalize 0 as i. intros i. revert i.
  induction fonts as [|f fonts IH]; intros i H; [reflexivity|].
  cbn [forallb length seq combine map] in *. apply andb_true_iff in H. destruct H as [H1 H2].
  rewrite (IH (S i) H2), andb_true_r. unfold assign_one.
  destruct (String.eqb (f_rid f) ""); [|exact H1].
  unfold font_ok in *. cbn [f_typeface f_rid f_panose].
  apply andb_true_iff in H1. destruct H1 as [H1 H3]. apply andb_true_iff in H1. destruct H1 as [H1 H4].
  rewrite H1, H3, sforall_app, decn_val. reflexivity.
Qed.

Lemma assign_rids st fonts : (forall f, In f fonts -> f_rid f = "") ->
  map f_rid (assign_relationship_ids st fonts) = map rid (seq st (length fonts)).
Proof.
  unfold assign_relationship_ids, enumerate.
  rewrite <- (Nat.add_0_r st) at 2. generalize 0 as i.
  induction fonts as [|f fonts IH]; intros i H; [reflexivity|].
  cbn [length seq combine map]. rewrite IH by (intros g Hg; apply H; now right).
  f_equal.
  - unfold assign_one. rewrite (H f) by now left. reflexivity.
  - now rewrite Nat.add_succ_r.
Qed.

Lemma concat_map_map {A B} (f : A -> B) (g : string -> list A) l :
  concat (map (fun t => map f (g t)) l) = map f (flat_map g l).
Proof. induction l as [|x l IH]; [reflexivity|]. cbn [map concat flat_map]. now rewrite map_app, IH. Qed.

Lemma font_list_correct st fonts : fonts <> [] -> (forall f, In f fonts -> font_ok f = true /\ f_rid f = "") ->
  let fs := assign_relationship_ids st fonts in
  exists entries, font_entries (fonts_to_xml fs) = Some entries /\
    map fst entries = first_uses (map f_typeface fonts) /\
    (forall t refs, In (t, refs) entries -> refs = map font_ref_entry (filter (fun f => String.eqb (f_typeface f) t) fs)) /\
    Permutation (concat (map snd entries)) (map font_ref_entry fs) /\
    NoDup (map snd (concat (map snd entries))).
Proof.
  intros Ne H fs.
  assert (Nf : fs <> []).
  { unfold fs. destruct fonts; [congruence|]. discriminate. }
  eexists. split; [apply fonts_read; [exact Nf|apply assign_ok, font_ready_ok, H]|].
  assert (T : map f_typeface fs = map f_typeface fonts) by apply prepare_typefaces.
  assert (P : Permutation (flat_map (fun t => filter (fun f => String.eqb (f_typeface f) t) fs) (first_uses (map f_typeface fs))) fs).
  { apply (partition_perm f_typeface); [apply first_uses_NoDup|]. intros f Hf. apply first_uses_In. now apply in_map. }
  split; [rewrite map_map; cbn [fst]; rewrite map_id; now rewrite T|].
  split. { intros t refs Hi. apply in_map_iff in Hi. destruct Hi as [u [E _]]. now injection E as <- <-. }
  rewrite map_map. cbn [snd]. rewrite (concat_map_map font_ref_entry (fun t => filter (fun f => String.eqb (f_typeface f) t) fs)).
  split; [now apply Permutation_map|].
  rewrite map_map.
  apply (Permutation_NoDup (l := map f_rid fs)).
  - apply Permutation_sym. exact (Permutation_map f_rid P).
  - unfold fs. rewrite assign_rids by (intros f Hf; now apply H). apply NoDup_rids, seq_NoDup.
Qed.

Lemma assign_keeps start fonts :
  map (fun f => (f_typeface f, f_style f, f_charset f, f_panose f, f_pitch f, f_data f)) (assign_relationship_ids start fonts) =
  map (fun f => (f_typeface f, f_style f, f_charset f, f_panose f, f_pitch f, f_data f)) fonts.
Proof.
  unfold assign_relationship_ids, enumerate. generalize 0 as i. induction fonts as [|f fonts IH]; intros i; [reflexivity|].
  cbn [length seq combine map]. rewrite IH. f_equal. unfold assign_one. now destruct (String.eqb _ _).
Qed.

Lemma presentation_rels_distinct n notes handout fonts :
  (forall f, In f fonts -> font_ok f = true /\ f_rid f = "") ->
  exists rels, rels_of (presentation_rels n notes handout fonts) = Some rels /\
    NoDup (map rel_id rels) /\
    length rels = n + length fonts + 5 + (if notes then 1 else 0) + (if handout then 1 else 0).
Proof.
  intros H. destruct (presentation_rels_nodup n notes handout fonts H) as (l & A & B & C).
  exists l. split; [exact A|]. split; [exact B|].
  rewrite <- (map_length rel_id), C, presentation_rel_ids by (intros f Hf; now apply H).
  rewrite map_length, seq_length. unfold table_styles_rel_id, pres_props_rel_id. destruct notes, handout; simpl; lia.
Qed.

Lemma preassigned_font_id :
  exists fonts rels, (forall f, In f fonts -> font_ok f = true) /\
    rels_of (presentation_rels 1 false false fonts) = Some rels /\ ~ NoDup (map rel_id rels).
Proof.
  exists [Font "A" Regular 0 None 34 "" "rId1"]. eexists. split; [|split].
  - intros f [<-|[]]. reflexivity.
  - apply presentation_rels_read. reflexivity.
  - cbn. intros N. inversion N as [|? ? N1 _]. apply N1. cbn. tauto.
Qed.
