(** Proofs: a deck of which only the number of slides is given, read back. *)
From Coq Require Import String Ascii List Bool Arith NArith Lia.
From Verif Require Import Str StrRefl Num XmlSpec XmlProofs XmlTpl TplRead XmlTreeModel XmlTreeSpec XmlTreeProofs TplTree GenProofs FontsModel FontsSpec PresProofs DocPropsProofs ShapeModel SlideModel SlideBack DeckModel DeckSpec DeckInput DeckParts DeckWhole
  PackageModel PackageSpec PackageProofs ReaderModel ReaderSpec ReaderProofs DeckReader SlideBackSpec McpSpec WebSpec QuickModel QuickSpec.
Import ListNotations.
Open Scope nat_scope.
Open Scope string_scope.
Local Arguments String.append _ _ : simpl nomatch.

Definition plainR (t : string) : tpl := (TE "p:sld" [("xmlns:a", [Lit "http://schemas.openxmlformats.org/drawingml/2006/main"]); ("xmlns:r", [Lit "http://schemas.openxmlformats.org/officeDocument/2006/relationships"]); ("xmlns:p", [Lit "http://schemas.openxmlformats.org/presentationml/2006/main"])] [TT [Lit "
"]; TE "p:cSld" [] [TT [Lit "
"]; TE "p:spTree" [] [TT [Lit "
"]; TE "p:nvGrpSpPr" [] [TT [Lit "
"]; TS "p:cNvPr" [("id", [Lit "1"]); ("name", [])]; TT [Lit "
"]; TS "p:cNvGrpSpPr" []; TT [Lit "
"]; TS "p:nvPr" []; TT [Lit "
"]]; TT [Lit "
"]; TE "p:grpSpPr" [] [TT [Lit "
"]; TE "a:xfrm" [] [TT [Lit "
"]; TS "a:off" [("x", [Lit "0"]); ("y", [Lit "0"])]; TT [Lit "
"]; TS "a:ext" [("cx", [Lit "0"]); ("cy", [Lit "0"])]; TT [Lit "
"]; TS "a:chOff" [("x", [Lit "0"]); ("y", [Lit "0"])]; TT [Lit "
"]; TS "a:chExt" [("cx", [Lit "0"]); ("cy", [Lit "0"])]; TT [Lit "
"]]; TT [Lit "
"]]; TT [Lit "
"]; TE "p:sp" [] [TT [Lit "
"]; TE "p:nvSpPr" [] [TT [Lit "
"]; TS "p:cNvPr" [("id", [Lit "2"]); ("name", [Lit "Title 1"])]; TT [Lit "
"]; TE "p:cNvSpPr" [] [TT [Lit "
"]; TS "a:spLocks" [("noGrp", [Lit "1"])]; TT [Lit "
"]]; TT [Lit "
"]; TE "p:nvPr" [] [TT [Lit "
"]; TS "p:ph" [("type", [Lit "ctrTitle"])]; TT [Lit "
"]]; TT [Lit "
"]]; TT [Lit "
"]; TS "p:spPr" []; TT [Lit "
"]; TE "p:txBody" [] [TT [Lit "
"]; TS "a:bodyPr" []; TT [Lit "
"]; TS "a:lstStyle" []; TT [Lit "
"]; TE "a:p" [] [TT [Lit "
"]; TE "a:r" [] [TT [Lit "
"]; TS "a:rPr" [("lang", [Lit "en-US"])]; TT [Lit "
"]; TE "a:t" [] [TT [Lit t]]; TT [Lit "
"]]; TT [Lit "
"]; TS "a:endParaRPr" [("lang", [Lit "en-US"])]; TT [Lit "
"]]; TT [Lit "
"]]; TT [Lit "
"]]; TT [Lit "
"]]; TT [Lit "
"]]; TT [Lit "
"]; TE "p:clrMapOvr" [] [TT [Lit "
"]; TS "a:masterClrMapping" []; TT [Lit "
"]]; TT [Lit "
"]]).
Definition title_at (k : N) : string := if (k =? 1)%N then "Presentation" else "Slide " ++ dec k.
Lemma plain_str k : simple_slide_xml k "Presentation" = decl ++ nl ++ tstr (plainR (title_at k)).
Proof. unfold simple_slide_xml, plainR. fold (title_at k). generalize (title_at k). intros t. tstr_eq. Qed.
Lemma title_plain k : sforall plain_text (title_at k) && sforall not_cr (title_at k) = true /\ blank (title_at k) = false.
Proof.
  unfold title_at. destruct (k =? 1)%N; [split; reflexivity|]. split; [|reflexivity]. rewrite !sforall_app. pose proof (dec_txt k) as H. apply andb_true_iff in H as [-> ->]. reflexivity.
Qed.
Lemma plain_slide k : exists r, parse_slide (simple_slide_xml k "Presentation") = Some r /\ page_read r (title_at k, []).
Proof.
  destruct (title_plain k) as [P B]. rewrite plain_str. revert P B. generalize (title_at k). intros t P B.
  assert (E : xml_read (decl ++ nl ++ tstr (plainR t)) = Some (tnode (plainR t))).
  { unfold plainR. rewrite tpl_read; [reflexivity|reflexivity|reflexivity|]. apply andb_true_iff in P as [P1 P2]. toks_solve; rewrite ?P1, ?P2; auto. }
  unfold parse_slide. unfold plainR in *. cbn [tnode] in E. rewrite (parse_tree _ _ _ _ E).
  match type of E with _ = Some (Elem ?n ?a ?ks) => change (tree (Elem n a ks)) with (tree (tnode (plainR t))) end.
  clear E. unfold plainR. rewrite tree_tnode. unfold xts. cbn -[own_text merge_text tsnodes blank].
  rewrite !leaf_text. unfold vals. cbn [map pval sconcat fold_right]. rewrite !sapp_nil_r, B. cbn -[blank].
  eexists. split; [reflexivity|]. unfold page_read. cbn. unfold visible. rewrite B. repeat split; [|repeat constructor].
  rewrite ?sapp_nil_r. destruct (String.eqb_spec t "") as [->|N]; [discriminate|]. apply String.eqb_neq in N. unfold parse_para, parse_run. cbn. rewrite ?sapp_nil_r, ?N. cbn. rewrite ?sapp_nil_r, ?N. cbn. rewrite ?sapp_nil_r. reflexivity.
Qed.

Section N.
  Context (X : statics) (title : string) (count : nat) (is_dir : string -> bool).
  Notation deck := (create_pptx X title count).
  Notation pkg := (open_entries is_dir deck).
  Context (D : forall n c, In (n, c) deck -> is_dir n = false).
  Lemma num_get n c : In (n, c) deck -> get_part pkg n = Some c.
  Proof.
    intros I. rewrite open_get, (D n c I). apply newest_entry_In; [|now rewrite <- in_rev]. rewrite map_rev. apply NoDup_rev.
    exact (deck_NoDup X title count None no_settings (NoDup_nil _)).
  Qed.
  Lemma num_absent n : ~ In n (map fst deck) -> get_part pkg n = None.
  Proof. intros H. rewrite open_get. destruct (is_dir n); [reflexivity|]. apply newest_entry_None. now rewrite map_rev, <- in_rev. Qed.
  Lemma num_paths keys : keys_order pkg keys -> (N.of_nat count < u32_max)%N ->
    rd_slides (reader_open pkg keys) = map (fun k => ("ppt/slides/slide" ++ decn k ++ ".xml")%string) (seq 1 count).
  Proof.
    intros KO L.
    assert (G : exists c notes, In ("ppt/_rels/presentation.xml.rels", presentation_rels c notes false []) deck /\ c = count).
    { exists count, false. split; [|reflexivity]. unfold create_pptx, write_package_files. cbv zeta. apply in_app_iff. left. right. right. left. reflexivity. }
    destruct G as (c & notes & G & ->). apply num_get in G.
    assert (T := pres_slide_rels count notes false (map (fun f => (f_rid f, rel_target_of f)) (prepare_fonts count notes false []))).
    assert (XR : exists a, xml_read (presentation_rels count notes false []) = Some (Elem "Relationships" a (merge_text (tsnodes (pres_body count notes false ++ map fontRel (map (fun f => (f_rid f, rel_target_of f)) (prepare_fonts count notes false [])))%list)))).
    { eexists. unfold presentation_rels. rewrite pres_rels_fonts_tpl. apply tpl_read; [reflexivity|reflexivity|]. apply tok_TE; [reflexivity|reflexivity|].
      apply toks_app. split; [apply toks_pres_body|]. apply toks_fontRels. now apply prepare_fonts_ok. }
    destruct XR as (a & XR). pose proof (rels_paths_eq pkg _ _ a _ _ G XR (slide_rels_merge _ _ T)) as RP.
    assert (B : Forall (fun e : N * string => (fst e <= u32_max)%N) (DeckReader.own_rels count)).
    { apply Forall_forall. intros e E. unfold DeckReader.own_rels in E. apply in_map_iff in E. destruct E as (i & <- & I). apply in_seq in I. cbn [fst]. lia. }
    specialize (RP B). rewrite (sort_id by_number) in RP by apply own_sorted. unfold DeckReader.own_rels in RP. rewrite !map_map in RP. cbn [snd] in RP.
    unfold reader_open. destruct (core_info pkg). cbn [rd_slides]. unfold slide_paths. rewrite RP. destruct (Nat.eq_dec count 0) as [Z0|Z0]; [|now destruct count].
    rewrite Z0. cbn [seq map]. clear RP. unfold scanned. replace (filter _ keys) with (@nil string); [reflexivity|].
    destruct (keys_spec pkg keys KO) as (_ & KI & _). symmetry. assert (Z : forall n, In n keys -> starts_with "ppt/slides/slide" n = false).
    { intros n I. apply KI in I. destruct (starts_with "ppt/slides/slide" n) eqn:S; [|reflexivity]. exfalso.
      destruct (in_dec string_dec n (map fst deck)) as [J|J]; [|now apply I, num_absent].
      apply in_map_iff in J. destruct J as ([m c] & E & J). cbn [fst] in E. subst m. assert (F : In (n, c) (family "ppt/slides/slide" deck)) by (apply filter_In; split; [exact J|exact S]).
      change (family "ppt/slides/slide" deck) with (family P_slide (write_package_files X title count None no_settings)) in F.
      rewrite (deck_slide_parts X title count None no_settings), Z0 in F. exact F. }
    clear -Z. induction keys as [|n keys IH]; [reflexivity|]. cbn [filter]. rewrite Z by now left. cbn [andb]. apply IH. intros m I. apply Z. now right.
  Qed.
  Lemma num_slide i : i < count -> In ("ppt/slides/slide" ++ decn (S i) ++ ".xml", simple_slide_xml (N.of_nat (S i)) "Presentation") deck.
  Proof.
    intros I. assert (F : In ("ppt/slides/slide" ++ decn (S i) ++ ".xml", simple_slide_xml (N.of_nat (S i)) "Presentation") (write_plain_slides count)).
    { unfold write_plain_slides. apply in_map_iff. exists (S i). split; [reflexivity|]. apply in_seq. lia. }
    unfold create_pptx, write_package_files. cbv zeta. rewrite !in_app_iff. do 3 right. left. exact F.
  Qed.
  Lemma num_back keys : keys_order pkg keys -> (N.of_nat count < u32_max)%N ->
    exists l, get_all_slides (reader_open pkg keys) = Some l /\ Forall2 page_read l (map (fun k => (numbered_title k, [])) (seq 1 count)).
  Proof.
    intros K L. unfold get_all_slides, rd_count. rewrite (num_paths keys K L), map_length, seq_length.
    assert (ONE : forall i, i < count -> exists r, get_slide (reader_open pkg keys) i = Some r /\ page_read r (numbered_title (S i), [])).
    { intros i I. unfold get_slide. rewrite (num_paths keys K L). assert (RD : rd_package (reader_open pkg keys) = pkg) by (unfold reader_open; destruct (core_info pkg); reflexivity). rewrite RD.
      erewrite map_nth_error by (apply (nth_error_nth' _ 0); now rewrite seq_length). rewrite seq_nth by exact I. cbn [bind]. change (1 + i) with (S i). rewrite (num_get _ _ (num_slide i I)). cbn [bind].
      destruct (plain_slide (N.of_nat (S i))) as (r & P & R). exists r. split; [exact P|]. replace (numbered_title (S i)) with (title_at (N.of_nat (S i))); [exact R|].
      unfold title_at, numbered_title. destruct (N.eqb_spec (N.of_nat (S i)) 1) as [E|E], (Nat.eqb_spec (S i) 1) as [E'|E']; try reflexivity; lia. }
    assert (Z : forall n k, k + n = count -> exists l, opt_all (map (get_slide (reader_open pkg keys)) (seq k n)) = Some l /\ Forall2 page_read l (map (fun k => (numbered_title k, [])) (seq (S k) n))).
    { induction n as [|n IH]; intros k E; [exists []; split; [reflexivity|constructor]|]. destruct (IH (S k) ltac:(lia)) as (l & Q & R). destruct (ONE k ltac:(lia)) as (r & G & B).
      exists (r :: l). cbn [seq map opt_all]. rewrite G, Q. split; [reflexivity|]. now constructor. }
    exact (Z count 0 eq_refl).
  Qed.
End N.
Lemma numbered_back X title count : (N.of_nat count < u32_max)%N ->
  reads_as (create_pptx X title count) (fun l => Forall2 page_read l (map (fun k => (numbered_title k, [])) (seq 1 count))).
Proof. intros L is_dir keys D K. now apply num_back. Qed.
