(** Lemmas: reading a generated deck lists its slides in order. *)
From Coq Require Import String Ascii List Bool Arith NArith Sorted Permutation Lia.
From Verif Require Import Str Num XmlSpec XmlTpl OpcSpec GenModel GenProofs FontsModel FontsSpec PresProofs ShapeModel SlideModel DeckModel DeckSpec DeckInput DeckParts DeckWhole PackageModel PackageSpec PackageProofs ReaderModel ReaderSpec ReaderProofs.
Import ListNotations.
Open Scope nat_scope.
Open Scope string_scope.
Local Open Scope list_scope.
Local Arguments String.append _ _ : simpl nomatch.

Lemma rels_skip id kind target : for_slide (doc_rel (vals kind)) = false -> slide_rels (tsnodes (relT id kind target)) [].
Proof. intros H. unfold relT, tsnodes. cbn [map concat tnodes app]. apply text. apply unrelated; [now left|exact H|constructor]. Qed.
Lemma rels_take id target k : vals id = ("rId" ++ dec k)%string -> slide_rels (tsnodes (relT id [Lit "slide"] target)) [(k, vals target)].
Proof.
  intros H. unfold relT, tsnodes. cbn [map concat tnodes app]. apply text. apply (related _ _ _ _ _ k (vals target)); [now left|reflexivity| | |constructor].
  - transitivity (Some (vals id)); [reflexivity|now rewrite H].
  - reflexivity.
Qed.
Definition own_rels (n : nat) : list (N * string) := map (fun i => (N.of_nat (i + 1), ("slides/slide" ++ decn i ++ ".xml")%string)) (seq 1 n).
Lemma pres_slide_rels n notes handout fonts : slide_rels (tsnodes (pres_body n notes handout ++ map fontRel fonts)) (own_rels n).
Proof.
  rewrite tsnodes_app, <- (app_nil_r (own_rels n)). apply slide_rels_app.
  - unfold pres_body. rewrite !tsnodes_app. apply (slide_rels_app _ [] _ (own_rels n)); [now apply rels_skip|]. rewrite <- (app_nil_r (own_rels n)). apply slide_rels_app.
    + unfold own_rels. generalize (seq 1 n). induction l as [|i l IH]; [constructor|]. cbn [flat_map map]. rewrite tsnodes_app. apply (slide_rels_app _ [_]); [|exact IH].
      replace ("slides/slide" ++ decn i ++ ".xml")%string with (vals [Lit "slides/slide"; Lit (decn i); Lit ".xml"]) by (unfold vals; cbn [map pval sconcat fold_right]; now rewrite sapp_nil_r). apply rels_take. unfold vals, slide_rel_id, decn. cbn [map pval sconcat fold_right]. now rewrite sapp_nil_r.
    + apply (slide_rels_app _ []); [destruct notes; [now apply rels_skip|constructor]|]. apply (slide_rels_app _ []); [destruct handout; [now apply rels_skip|constructor]|].
      do 4 (apply (slide_rels_app _ []); [now apply rels_skip|]). apply text. constructor.
  - induction fonts as [|f l IH]; [constructor|]. cbn [map]. apply unrelated; [now left|reflexivity|exact IH].
Qed.
Lemma own_sorted n : StronglySorted (fun x y => by_number x y = true) (own_rels n).
Proof.
  unfold own_rels. generalize 1 at 2. induction n as [|n IH]; intros a; cbn [seq map]; constructor; [apply IH|]. apply Forall_forall. intros y Y.
  apply in_map_iff in Y. destruct Y as (i & <- & I). apply in_seq in I. unfold by_number. cbn [fst]. apply N.leb_le. lia.
Qed.

Section R.
  Context (X : statics) (title : string) (slides : list slide) (st : settings) (is_dir : string -> bool).
  Notation deck := (create_pptx_with_settings X title slides st).
  Notation pkg := (open_entries is_dir deck).
  Context (FN : NoDup (map part_name (st_fonts st))) (FO : forallb font_ok (st_fonts st) = true) (D : forall n c, In (n, c) deck -> is_dir n = false).
  Lemma deck_get n c : In (n, c) deck -> get_part pkg n = Some c.
  Proof.
    intros I. rewrite open_get, (D n c I). apply newest_entry_In; [|now rewrite <- in_rev]. rewrite map_rev. apply NoDup_rev.
    exact (deck_NoDup X title (length slides) (Some slides) st FN).
  Qed.
  Lemma deck_absent n : ~ In n (map fst deck) -> get_part pkg n = None.
  Proof. intros H. rewrite open_get. destruct (is_dir n); [reflexivity|]. apply newest_entry_None. now rewrite map_rev, <- in_rev. Qed.
  Lemma deck_paths keys : keys_order pkg keys -> (N.of_nat (length slides) < u32_max)%N ->
    rd_slides (reader_open pkg keys) = map (fun k => ("ppt/slides/slide" ++ decn k ++ ".xml")%string) (seq 1 (length slides)).
  Proof.
    intros KO L.
    assert (G : exists c notes, In ("ppt/_rels/presentation.xml.rels", presentation_rels c notes (st_handout st) (st_fonts st)) deck /\ c = length slides).
    { eexists _, _. split; [|reflexivity]. eapply (in_block X title (length slides) (Some slides) st 0); [reflexivity|]. cbn. right. right. left. reflexivity. }
    destruct G as (c & notes & G & ->). apply deck_get in G.
    assert (T := pres_slide_rels (length slides) notes (st_handout st) (map (fun f => (f_rid f, rel_target_of f)) (prepare_fonts (length slides) notes (st_handout st) (st_fonts st)))).
    assert (XR : exists a, xml_read (presentation_rels (length slides) notes (st_handout st) (st_fonts st)) = Some (Elem "Relationships" a (merge_text (tsnodes (pres_body (length slides) notes (st_handout st) ++ map fontRel (map (fun f => (f_rid f, rel_target_of f)) (prepare_fonts (length slides) notes (st_handout st) (st_fonts st)))))))).
    { eexists. unfold presentation_rels. rewrite pres_rels_fonts_tpl. apply tpl_read; [reflexivity|reflexivity|]. apply tok_TE; [reflexivity|reflexivity|].
      apply toks_app. split; [apply toks_pres_body|]. apply toks_fontRels. now apply prepare_fonts_ok. }
    destruct XR as (a & XR). pose proof (rels_paths_eq pkg _ _ a _ _ G XR (slide_rels_merge _ _ T)) as RP.
    assert (B : Forall (fun e : N * string => (fst e <= u32_max)%N) (own_rels (length slides))).
    { apply Forall_forall. intros e E. unfold own_rels in E. apply in_map_iff in E. destruct E as (i & <- & I). apply in_seq in I. cbn [fst]. lia. }
    specialize (RP B). rewrite (sort_id by_number) in RP by apply own_sorted. unfold own_rels in RP. rewrite !map_map in RP. cbn [snd] in RP.
    unfold reader_open. destruct (core_info pkg). cbn [rd_slides]. unfold slide_paths. rewrite RP. destruct (Nat.eq_dec (length slides) 0) as [Z0|Z0]; [|now destruct (length slides)].
    rewrite Z0. cbn [seq map]. clear RP. apply length_zero_iff_nil in Z0. unfold scanned. replace (filter _ keys) with (@nil string); [reflexivity|].
    destruct (keys_spec pkg keys KO) as (_ & KI & _). symmetry. assert (Z : forall n, In n keys -> starts_with "ppt/slides/slide" n = false).
    { intros n I. apply KI in I. destruct (starts_with "ppt/slides/slide" n) eqn:S; [|reflexivity]. exfalso.
      destruct (in_dec string_dec n (map fst deck)) as [J|J]; [|now apply I, deck_absent].
      apply in_map_iff in J. destruct J as ([m c] & E & J). cbn [fst] in E. subst m. assert (F : In (n, c) (family "ppt/slides/slide" deck)) by (apply filter_In; split; [exact J|exact S]).
      change (family "ppt/slides/slide" deck) with (family P_slide (write_package_files X title (length slides) (Some slides) st)) in F.
      rewrite (deck_slide_parts X title (length slides) (Some slides) st), Z0 in F. exact F. }
    clear -Z. induction keys as [|n keys IH]; [reflexivity|]. cbn [filter]. rewrite Z by now left. cbn [andb]. apply IH. intros m I. apply Z. now right.
  Qed.
End R.
