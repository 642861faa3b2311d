From Coq Require Import String Ascii List Bool Arith NArith ZArith Lia.
From Verif Require Import Str StrRefl Num EscapeModel EscapeProofs XmlSpec XmlProofs XmlTpl OpcSpec GenProofs TplRead XmlPath PathRead ColorModel LookSpec ShapeModel ShapeProofs TableModel TableSpec TableProofs TableLook PartsProofs TpartModel TpartSpec TpartProofs.
Import ListNotations.
Open Scope nat_scope.
Open Scope string_scope.
Local Arguments String.append _ _ : simpl nomatch.

(** ** Well-formedness *)
Lemma unhashed_bare s : unhashed s = bare s.
Proof. unfold unhashed. induction s as [|c s IH]; [reflexivity|]. cbn [trim_start_by bare]. change (is_hash c) with (Ascii.eqb c "#"). now destruct (Ascii.eqb c "#"). Qed.
Lemma unhashed_plain s : color_ok s = true -> sforall plain_val (unhashed s) = true.
Proof.
  unfold color_ok, unhashed. intros H.
  assert (T : sforall (fun c => match hex_val c with Some _ => true | None => Ascii.eqb c "#"%char end) (trim_start_by is_hash s) = true).
  { induction s as [|c s IH]; [reflexivity|]. cbn [sforall] in H. apply andb_true_iff in H. destruct H as [A B]. cbn [trim_start_by].
    destruct (is_hash c); [now apply IH|]. cbn [sforall]. now rewrite A, B. }
  induction (trim_start_by is_hash s) as [|c t IH]; [reflexivity|]. cbn [sforall] in T. apply andb_true_iff in T. destruct T as [A B].
  cbn [sforall]. rewrite (IH B), andb_true_r. clear -A. destruct c as [[] [] [] [] [] [] [] []]; vm_compute in *; congruence.
Qed.
Lemma line_tok tag b : In tag ["a:lnL"; "a:lnR"; "a:lnT"; "a:lnB"] -> color_ok (bo_color b) = true -> toks (lineT tag b).
Proof.
  intros N C. pose proof (unhashed_plain _ C) as P. pose proof (zdec_plain (bo_width b)) as Z. unfold lineT, nl12, nl14.
  repeat (destruct N as [<-|N]; [destruct (bo_style b); cbn [bstyle_value]; twf|]). destruct N.
Qed.
Lemma opt_tok {A} (f : A -> list tpl) (ok : A -> bool) o : (forall x, ok x = true -> toks (f x)) -> match o with Some x => ok x | None => true end = true -> toks (optT f o).
Proof. intros H K. destruct o as [x|]; [now apply H|exact I]. Qed.
Lemma lines_tok b : borders_ok (Some b) = true -> toks (linesT b).
Proof.
  cbn [borders_ok]. rewrite !andb_true_iff. intros [[[A B] C] D]. unfold linesT.
  repeat apply toks_app_i; (apply (opt_tok _ (fun b => color_ok (bo_color b))); [intros x X; apply line_tok; [cbn; tauto|exact X]|assumption]).
Qed.
Lemma fill_tok s : color_ok s = true -> toks (fillT s).
Proof. intros H. apply unhashed_plain in H. unfold fillT. twf. Qed.
Lemma face_tok s : sforall plain_val s = true -> toks (faceT s).
Proof. intros H. unfold faceT. twf. Qed.
Lemma tcA_ok c : tattrs_ok (tcA c) = true.
Proof. unfold tcA, spanA2. destruct (1 <? pc_rows c)%N, (1 <? pc_cols c)%N; cbn [app]; aok. Qed.
Lemma rA_ok c : tattrs_ok (rA c) = true.
Proof. unfold rA, flag. destruct (pc_bold c), (pc_italic c), (pc_underline c), (pc_strike c), (pc_size c); cbn [app optAt]; aok. Qed.
Lemma pA_ok c : tattrs_ok (pA c) = true.
Proof.
  unfold pA. destruct (pc_margins c) as [m|]; cbn [optAt].
  - pose proof (zdec_plain (m_left m)). pose proof (zdec_plain (m_right m)). pose proof (zdec_plain (m_top m)). pose proof (zdec_plain (m_bottom m)). destruct (pc_valign c); cbn [valign_value]; aok.
  - destruct (pc_valign c); reflexivity.
Qed.
Lemma pcell_tok c : pcell_ok c = true -> tok (pcellT c).
Proof.
  unfold pcell_ok. rewrite !andb_true_iff. intros [[[[T C] G] F] B]. unfold pcellT. destruct (pc_merged c); [twf|].
  pose proof (tcA_ok c). pose proof (rA_ok c). pose proof (pA_ok c).
  assert (toks (optT fillT (pc_color c))) by (apply (opt_tok _ color_ok); [apply fill_tok|exact C]).
  assert (toks (optT fillT (pc_background c))) by (apply (opt_tok _ color_ok); [apply fill_tok|exact G]).
  assert (toks (optT faceT (pc_font c))) by (apply (opt_tok _ (sforall plain_val)); [apply face_tok|exact F]).
  assert (toks (optT linesT (pc_borders c))) by (apply (opt_tok _ (fun b => borders_ok (Some b))); [apply lines_tok|exact B]).
  assert (toks (algnT c)) by (unfold algnT; destruct (pc_halign c); twf).
  assert (tok (rprT c)) by (unfold rprT; twf). assert (tok (runT2 c)) by (unfold runT2, nl14, nl16; twf). assert (tok (parT c)) by (unfold parT, nl12, nl14; twf).
  assert (tok (bodyT c)) by (unfold bodyT, nl10, nl12; twf). assert (tok (propT c)) by (unfold propT; twf). unfold nl10, nl8. twf.
Qed.
Lemma prow_tok r : forallb pcell_ok (pr_cells r) = true -> tok (prowT r).
Proof.
  intros H. assert (toks (joinT nl8 (map pcellT (pr_cells r)))).
  { apply join_toks; [reflexivity..|]. apply toks_map. intros c Hc. apply pcell_tok. rewrite forallb_forall in H. now apply H. }
  assert (tattrs_ok (optAt (fun h => [("h", [Lit (zdec h)])]) (pr_height r)) = true).
  { destruct (pr_height r) as [h|]; [|reflexivity]. cbn [optAt]. pose proof (zdec_plain h). aok. }
  unfold prowT. generalize dependent (joinT nl8 (map pcellT (pr_cells r))). intros l L. unfold nl8. twf.
Qed.
Lemma tpart_tok t id : tpart_ok t = true -> tok (tpartT t id).
Proof.
  intros H. assert (R : toks (joinT "
      " (map prowT (tp_rows t)))).
  { apply join_toks; [reflexivity..|]. apply toks_map. intros r Hr. apply prow_tok. unfold tpart_ok in H. rewrite forallb_forall in H. now apply H. }
  assert (C : toks (joinT nl8 (map pcolT (tp_widths t)))).
  { apply join_toks; [reflexivity..|]. apply toks_map. intros w _. pose proof (zdec_plain w). unfold pcolT. twf. }
  unfold tpartT, frameT. pose proof (zdec_plain (tp_x t)). pose proof (zdec_plain (tp_y t)). pose proof (zdec_plain (tp_width t)). pose proof (zdec_plain (tp_height t)).
  revert R C. generalize (joinT nl8 (map pcolT (tp_widths t))) (joinT "
      " (map prowT (tp_rows t))). intros cols rws R C. unfold nl8, nl10. twf.
Qed.
(** ** Reading *)
Lemma pcellT_name c : exists a b, pcellT c = TE "a:tc" a b.
Proof. unfold pcellT. destruct (pc_merged c); eauto. Qed.
Lemma tbl_of t id : exists a b, table_of (tnode (tpartT t id)) = [tnode (TE "a:tbl" [] ([a; TE "a:tblPr" [("firstRow", [Lit "1"]); ("bandRow", [Lit "1"])] b; a;
        TE "a:tblGrid" [] ([a] ++ joinT nl8 (map pcolT (tp_widths t)) ++ [a]); TT [Lit "
      "]] ++ joinT "
      " (map prowT (tp_rows t)) ++ [TT [Lit "
      "]])%list)] /\ a = TT [Lit nl8].
Proof. eexists. eexists. split; [|reflexivity]. unfold table_of, tpartT, frameT. pread. reflexivity. Qed.
Lemma map_named {A} m n (f : A -> tpl) l : (forall x, tname (f x) = Some n) -> (forall x, elemT (f x) = true) -> String.eqb n m = false -> named m (tsnodes (map f l)) = [].
Proof.
  intros H E N. induction l as [|x l IH]; [reflexivity|]. cbn [map]. rewrite named_consE by apply E. unfold called. rewrite H, N. exact IH.
Qed.
Lemma prows_read t id : rows_of (tnode (tpartT t id)) = map (fun r => tnode (prowT r)) (tp_rows t).
Proof.
  unfold rows_of. destruct (tbl_of t id) as (a & b & -> & ->). cbn [flat_map]. rewrite app_nil_r, path_one, named_children. cbn [tbody].
  rewrite !tsnodes_named_app. rewrite join_named, (named_all "a:tr" prowT) by reflexivity. rewrite (named_list _ [_]) by reflexivity.
  rewrite named_list by reflexivity. cbn [filter called tname String.eqb Ascii.eqb Bool.eqb map app]. apply app_nil_r.
Qed.
Lemma prow_cells r : cells_of (tnode (prowT r)) = map (fun c => tnode (pcellT c)) (pr_cells r).
Proof.
  unfold cells_of, prowT. rewrite path_one, named_children. cbn [tbody]. rewrite !tsnodes_named_app, join_named, (named_all "a:tc" pcellT).
  2:{ intros c. destruct (pcellT_name c) as (a & b & ->). reflexivity. }
  rewrite !(named_list _ [_]) by reflexivity. cbn [filter called tname map app]. apply app_nil_r.
Qed.
Lemma widths_read t id : grid_widths (tnode (tpartT t id)) = map zdec (tp_widths t).
Proof.
  unfold grid_widths. destruct (tbl_of t id) as (a & b & -> & ->). cbn [flat_map]. rewrite app_nil_r.
  rewrite (path_named _ _ _ [tnode (TE "a:tblGrid" [] ([TT [Lit nl8]] ++ joinT nl8 (map pcolT (tp_widths t)) ++ [TT [Lit nl8]])%list)]).
  2:{ cbn [tbody]. rewrite !tsnodes_named_app, join_named. rewrite (map_named "a:tblGrid" "a:tr" prowT) by reflexivity. rewrite !named_list by reflexivity. reflexivity. }
  cbn [flat_map]. rewrite app_nil_r, path_one, named_children. cbn [tbody]. rewrite !tsnodes_named_app, join_named, (named_all "a:gridCol" pcolT) by reflexivity.
  rewrite !(named_list _ [_]) by reflexivity. cbn [filter called tname map app]. rewrite app_nil_r, map_map. apply map_ext. intros w.
  unfold attr, attr_opt, tnode, pcolT, attrs_val. cbn [map fst snd find String.eqb Ascii.eqb Bool.eqb option_map]. apply vals_lit.
Qed.
Lemma heights_read t id : heights (tnode (tpartT t id)) = map (fun r => option_map zdec (pr_height r)) (tp_rows t).
Proof.
  unfold heights. rewrite prows_read, map_map. apply map_ext. intros r. unfold prowT, attr_opt, tnode, attrs_val. destruct (pr_height r) as [h|]; [|reflexivity].
  cbn [optAt map fst snd find String.eqb Ascii.eqb Bool.eqb option_map]. now rewrite vals_lit.
Qed.
Ltac sub t := rewrite (path_named _ _ _ [tnode t]); [cbn [flat_map]; apply app_nil_r|cbn [tbody]; rewrite named_list by reflexivity; reflexivity].
Lemma body_of c : pc_merged c = false -> forall p, at_path ("a:txBody" :: p) (tnode (pcellT c)) = at_path p (tnode (bodyT c)).
Proof. intros M p. unfold pcellT. rewrite M. sub (bodyT c). Qed.
Lemma par_of c p : at_path ("a:p" :: p) (tnode (bodyT c)) = at_path p (tnode (parT c)).
Proof. unfold bodyT. sub (parT c). Qed.
Lemma algn_named m c : String.eqb "a:pPr" m = false -> named m (tsnodes (algnT c)) = [].
Proof. intros H. unfold algnT. destruct (pc_halign c); [|reflexivity|..]; (rewrite named_list by reflexivity; cbn [filter]; unfold called; cbn [tname]; now rewrite H). Qed.
Lemma run_of c p : at_path ("a:r" :: p) (tnode (parT c)) = at_path p (tnode (runT2 c)).
Proof.
  rewrite (path_named _ _ _ [tnode (runT2 c)]); [cbn [flat_map]; apply app_nil_r|]. unfold parT. cbn [tbody]. rewrite !tsnodes_named_app, algn_named by reflexivity.
  rewrite !named_list by reflexivity. reflexivity.
Qed.
Lemma rpr_of c p : at_path ("a:rPr" :: p) (tnode (runT2 c)) = at_path p (tnode (rprT c)).
Proof. unfold runT2. sub (rprT c). Qed.
Lemma prop_of c : pc_merged c = false -> forall p, at_path ("a:tcPr" :: p) (tnode (pcellT c)) = at_path p (tnode (propT c)).
Proof. intros M p. unfold pcellT. rewrite M. sub (propT c). Qed.
Lemma ptext_read c : sconcat (texts_in (tnode (pcellT c))) = ptext c.
Proof.
  unfold texts_in, ptext. destruct (pc_merged c) eqn:M; [unfold pcellT; rewrite M; reflexivity|].
  rewrite (body_of c M), par_of, run_of. replace (at_path ["a:t"] (tnode (runT2 c))) with [tnode (TE "a:t" [] [TT [Esc (pc_text c)]])].
  2:{ unfold runT2. rewrite path_one, named_children. cbn [tbody]. rewrite named_list by reflexivity. reflexivity. }
  cbn [map sconcat fold_right]. rewrite text_leaf, vals_esc. apply sapp_nil_r.
Qed.
Lemma pspans_read c : spans (tnode (pcellT c)) = pspans c.
Proof.
  unfold spans, pspans, pcellT. destruct (pc_merged c); [reflexivity|]. unfold attr_opt, tnode, tcA, spanA2, over_one, attrs_val.
  destruct (1 <? pc_rows c)%N, (1 <? pc_cols c)%N; cbn [app map fst snd find String.eqb Ascii.eqb Bool.eqb option_map]; rewrite ?vals_lit; reflexivity.
Qed.
Theorem part_shown t id : tpart_ok t = true -> exists x, xml_read (tpart_xml t id) = Some x
  /\ named_as x = [(dec id, "Table " ++ dec id)]
  /\ grid x = map (fun r => map ptext (pr_cells r)) (tp_rows t)
  /\ grid_spans x = map (fun r => map pspans (pr_cells r)) (tp_rows t)
  /\ grid_widths x = map zdec (tp_widths t) /\ heights x = map (fun r => option_map zdec (pr_height r)) (tp_rows t)
  /\ frame x = [(zdec (tp_x t), zdec (tp_y t)); (zdec (tp_width t), zdec (tp_height t))].
Proof.
  intros H. exists (tnode (tpartT t id)). split. { rewrite tpart_str. apply tpl_read_node. now apply tpart_tok. }
  split. { unfold named_as, tpartT, frameT. pread. cbn [map]. unfold attr, attr_opt, tnode, attrs_val. cbn [map fst snd find String.eqb Ascii.eqb Bool.eqb option_map].
           rewrite vals_lit. unfold vals. cbn [map pval sconcat fold_right]. now rewrite !sapp_nil_r. }
  split. { unfold grid. rewrite prows_read, map_map. apply map_ext. intros r. rewrite prow_cells, map_map. apply map_ext. apply ptext_read. }
  split. { unfold grid_spans. rewrite prows_read, map_map. apply map_ext. intros r. rewrite prow_cells, map_map. apply map_ext. apply pspans_read. }
  split; [apply widths_read|]. split; [apply heights_read|].
  unfold frame, tpartT, frameT. pread. cbn [map app]. unfold attr, attr_opt, tnode, attrs_val. cbn [map fst snd find String.eqb Ascii.eqb Bool.eqb option_map]. now rewrite !vals_lit.
Qed.
(** ** Looks *)
Lemma fillT_read s : map (attr "val") (flat_map (at_path ["a:srgbClr"]) (named "a:solidFill" (tsnodes (fillT s)))) = [bare s].
Proof.
  unfold fillT. rewrite named_list by reflexivity. cbn [filter called tname String.eqb Ascii.eqb Bool.eqb map flat_map]. rewrite app_nil_r. pread.
  unfold attr, attr_opt, tnode, attrs_val. cbn [map fst snd find String.eqb Ascii.eqb Bool.eqb option_map]. now rewrite vals_lit, unhashed_bare.
Qed.
Lemma opt_fill o : map (attr "val") (flat_map (at_path ["a:srgbClr"]) (named "a:solidFill" (tsnodes (optT fillT o)))) = opt_list (option_map bare o).
Proof. destruct o as [s|]; [apply fillT_read|reflexivity]. Qed.
Lemma fills_read n a l : fills (tnode (TE n a l)) = map (attr "val") (flat_map (at_path ["a:srgbClr"]) (named "a:solidFill" (tsnodes l))).
Proof. unfold fills. rewrite path_step, named_children. reflexivity. Qed.
Lemma opt_face o : map (attr "typeface") (named "a:latin" (tsnodes (optT faceT o))) = opt_list o.
Proof.
  destruct o as [s|]; [|reflexivity]. cbn [optT opt_list]. unfold faceT. rewrite named_list by reflexivity. cbn [filter called tname String.eqb Ascii.eqb Bool.eqb map].
  unfold attr, attr_opt, tnode, attrs_val. cbn [map fst snd find String.eqb Ascii.eqb Bool.eqb option_map]. now rewrite vals_lit.
Qed.
Lemma face_no m o : String.eqb "a:latin" m = false -> named m (tsnodes (optT faceT o)) = [].
Proof. intros H. destruct o as [s|]; [|reflexivity]. cbn [optT]. unfold faceT. rewrite named_list by reflexivity. cbn [filter]. unfold called. cbn [tname]. now rewrite H. Qed.
Lemma fill_no m o : String.eqb "a:solidFill" m = false -> named m (tsnodes (optT fillT o)) = [].
Proof. intros H. destruct o as [s|]; [|reflexivity]. cbn [optT]. unfold fillT. rewrite named_list by reflexivity. cbn [filter]. unfold called. cbn [tname]. now rewrite H. Qed.
Lemma line_no m tag o : String.eqb tag m = false -> named m (tsnodes (optT (lineT tag) o)) = [].
Proof.
  intros H. destruct o as [b|]; [|reflexivity]. cbn [optT]. unfold lineT. destruct (bo_style b); rewrite named_list by reflexivity; cbn [filter]; unfold called; cbn [tname]; now rewrite H.
Qed.
Lemma line_read tag o : map line_look (named tag (tsnodes (optT (lineT tag) o))) = want_line o.
Proof.
  destruct o as [b|]; [|reflexivity]. cbn [optT want_line]. unfold lineT.
  assert (N : forall st, map line_look (named tag (tsnodes [TE tag [("w", [Lit (zdec (bo_width b))]); ("cap", [Lit "flat"]); ("cmpd", [Lit "sng"]); ("algn", [Lit "ctr"])]
      [TT [Lit nl14]; TE "a:solidFill" [] [TS "a:srgbClr" [("val", [Lit (unhashed (bo_color b))])]]; TT [Lit nl14]; TS "a:prstDash" [("val", [Lit (bstyle_value st)])]; TT [Lit nl12]]]))
      = [(Some (zdec (bo_width b)), [bare (bo_color b)], [bstyle_value st])]).
  { intros st. rewrite named_list by reflexivity. cbn [filter]. unfold called. cbn [tname]. rewrite String.eqb_refl. cbn [map]. unfold line_look. f_equal. f_equal; [f_equal|].
    - unfold attr_opt, tnode, attrs_val. cbn [map fst snd find String.eqb Ascii.eqb Bool.eqb option_map]. now rewrite vals_lit.
    - unfold fills. pread. unfold attr, attr_opt, tnode, attrs_val. cbn [map fst snd find String.eqb Ascii.eqb Bool.eqb option_map]. now rewrite vals_lit, unhashed_bare.
    - pread. cbn [map]. unfold attr, attr_opt, tnode, attrs_val. cbn [map fst snd find String.eqb Ascii.eqb Bool.eqb option_map]. now rewrite vals_lit. }
  destruct (bo_style b); try apply N. rewrite named_list by reflexivity. cbn [filter]. unfold called. cbn [tname]. rewrite String.eqb_refl. reflexivity.
Qed.
Lemma lines_no m o : (String.eqb "a:lnL" m || String.eqb "a:lnR" m || String.eqb "a:lnT" m || String.eqb "a:lnB" m)%bool = false -> named m (tsnodes (optT linesT o)) = [].
Proof.
  rewrite !orb_false_iff. intros [[[A B] C] D]. destruct o as [b|]; [|reflexivity]. cbn [optT]. unfold linesT. rewrite !tsnodes_named_app. now rewrite !line_no by assumption.
Qed.
Lemma prop_read c : sides (tnode (propT c)) = want_sides (pc_borders c).
Proof.
  unfold sides, propT. cbn [map]. rewrite !path_one, !named_children. cbn [tbody]. rewrite !tsnodes_named_app. rewrite !fill_no by reflexivity. rewrite !app_nil_r.
  destruct (pc_borders c) as [b|]; [|reflexivity]. cbn [optT want_sides]. unfold linesT. rewrite !tsnodes_named_app.
  rewrite (line_no "a:lnL" "a:lnR"), (line_no "a:lnL" "a:lnT"), (line_no "a:lnL" "a:lnB"), (line_no "a:lnR" "a:lnL"), (line_no "a:lnR" "a:lnT"), (line_no "a:lnR" "a:lnB"),
    (line_no "a:lnT" "a:lnL"), (line_no "a:lnT" "a:lnR"), (line_no "a:lnT" "a:lnB"), (line_no "a:lnB" "a:lnL"), (line_no "a:lnB" "a:lnR"), (line_no "a:lnB" "a:lnT") by reflexivity.
  cbn [app]. rewrite !app_nil_r. now rewrite !line_read.
Qed.
Lemma insets_read c : insets (tnode (propT c)) = want_insets (pc_margins c).
Proof.
  unfold insets, propT, pA, attr_opt, tnode, attrs_val. destruct (pc_margins c) as [m|]; [|reflexivity].
  cbn [optAt map fst snd find String.eqb Ascii.eqb Bool.eqb option_map want_insets]. now rewrite !vals_lit.
Qed.
Lemma run_read c : match pc_size c with Some n => (n * 100 <=? u32_max)%N | None => true end = true ->
  (run_look (tnode (rprT c)), attr_opt "strike" (tnode (rprT c))) =
  ((on "1" (pc_bold c), on "1" (pc_italic c), on "sng" (pc_underline c), option_map (fun n => dec (n * 100)) (pc_size c), opt_list (option_map bare (pc_color c)), opt_list (pc_font c)), on "sngStrike" (pc_strike c)).
Proof.
  intros Z. unfold run_look.
  assert (A : attr_opt "b" (tnode (rprT c)) = on "1" (pc_bold c) /\ attr_opt "i" (tnode (rprT c)) = on "1" (pc_italic c) /\ attr_opt "u" (tnode (rprT c)) = on "sng" (pc_underline c)
    /\ attr_opt "sz" (tnode (rprT c)) = option_map (fun n => dec (n * 100)) (pc_size c) /\ attr_opt "strike" (tnode (rprT c)) = on "sngStrike" (pc_strike c)).
  { unfold attr_opt, tnode, rprT, rA, flag, attrs_val, on. destruct (pc_bold c), (pc_italic c), (pc_underline c), (pc_strike c), (pc_size c) as [n|];
    cbn [optAt app map fst snd find String.eqb Ascii.eqb Bool.eqb option_map]; rewrite ?vals_lit; try (apply N.leb_le in Z; rewrite wmul_exact by exact Z); repeat split; reflexivity. }
  destruct A as (-> & -> & -> & -> & ->). f_equal. f_equal; [f_equal|].
  - unfold rprT. rewrite fills_read, tsnodes_named_app, face_no by reflexivity. rewrite app_nil_r. apply opt_fill.
  - unfold faces, rprT. rewrite path_one, named_children. cbn [tbody]. rewrite tsnodes_named_app, fill_no by reflexivity. apply opt_face.
Qed.
Lemma part_cell c : match pc_size c with Some n => (n * 100 <=? u32_max)%N | None => true end = true -> part_looks (tnode (pcellT c)) = want_part c.
Proof.
  intros Z. unfold part_looks, want_part. destruct (pc_merged c) eqn:M; [unfold pcellT; rewrite M; reflexivity|].
  unfold struck_runs, cell_anchor, cell_fill. rewrite (body_of c M), par_of, run_of, rpr_of, (prop_of c M). cbn [at_path map flat_map]. rewrite app_nil_r.
  rewrite (run_read c Z), prop_read, insets_read. f_equal. f_equal; [f_equal|].
  - f_equal. unfold propT, pA, attr_opt, tnode, attrs_val. cbn [map fst snd find String.eqb Ascii.eqb Bool.eqb option_map]. rewrite vals_lit. now destruct (pc_valign c).
  - unfold propT. rewrite fills_read, tsnodes_named_app, lines_no by reflexivity. apply opt_fill.
Qed.
Theorem part_looked t id : tpart_ok t = true -> psizes_ok t = true ->
  exists x, xml_read (tpart_xml t id) = Some x /\ grid_part_looks x = map (fun r => map want_part (pr_cells r)) (tp_rows t).
Proof.
  intros H Z. exists (tnode (tpartT t id)). split. { rewrite tpart_str. apply tpl_read_node. now apply tpart_tok. }
  unfold grid_part_looks. rewrite prows_read, map_map. apply map_ext_in. intros r Hr. rewrite prow_cells, map_map. apply map_ext_in. intros c Hc. apply part_cell.
  unfold psizes_ok in Z. rewrite forallb_forall in Z. specialize (Z r Hr). rewrite forallb_forall in Z. now apply Z.
Qed.
Lemma aligned_cell c : pc_merged c = false -> pc_halign c <> HCenter -> shown_align (tnode (pcellT c)) = [asked_side (pc_halign c)].
Proof.
  intros M H. unfold shown_align. rewrite (body_of c M), par_of. cbn [at_path map]. f_equal. unfold para_align. rewrite path_one, named_children. unfold parT. cbn [tbody].
  rewrite !tsnodes_named_app. rewrite !(named_list "a:pPr" [_]), (named_list "a:pPr" [_; _; _]) by reflexivity. unfold algnT.
  destruct (pc_halign c); [|now elim H|..]; rewrite named_list by reflexivity; reflexivity.
Qed.
Theorem part_aligned t id : tpart_ok t = true -> exists x, xml_read (tpart_xml t id) = Some x
  /\ forall i j r c, nth_error (tp_rows t) i = Some r -> nth_error (pr_cells r) j = Some c -> pc_merged c = false -> pc_halign c <> HCenter ->
     nth j (nth i (grid_aligned x) []) [] = [asked_side (pc_halign c)].
Proof.
  intros H. exists (tnode (tpartT t id)). split. { rewrite tpart_str. apply tpl_read_node. now apply tpart_tok. }
  intros i j r c Hr Hc M A. unfold grid_aligned. rewrite prows_read, map_map.
  rewrite (nth_error_nth _ i [] (map_nth_error _ i _ Hr)). rewrite prow_cells, map_map. rewrite (nth_error_nth _ j [] (map_nth_error _ j _ Hc)). now apply aligned_cell.
Qed.
(** ** Columns *)
Lemma add_fold l : forall t, let u := fold_left tpart_add l t in
  tp_rows u = (tp_rows t ++ l)%list /\ tp_x u = tp_x t /\ tp_y u = tp_y t /\ tp_width u = tp_width t /\ tp_height u = tp_height t
  /\ tp_widths u = match tp_widths t with [] => repeat (Z.quot (tp_width t) (Z.of_nat (first_cells l))) (first_cells l) | w => w end.
Proof.
  induction l as [|r l IH]; intros t u; subst u; cbn [fold_left].
  - rewrite app_nil_r. repeat split; try reflexivity. now destruct (tp_widths t).
  - destruct (IH (tpart_add t r)) as (A & B & C & D & E & F). rewrite A, B, C, D, E, F. unfold tpart_add. cbn [tp_rows tp_x tp_y tp_width tp_height tp_widths].
    rewrite <- app_assoc. repeat split; try reflexivity. cbn [first_cells]. destruct (tp_widths t) as [|w ws]; [|reflexivity]. destruct (pr_cells r) as [|c cs]; reflexivity.
Qed.
Lemma sum_same w n : sumZ (repeat w n) = (w * Z.of_nat n)%Z.
Proof. unfold sumZ. induction n as [|n IH]; [cbn; lia|]. cbn [repeat fold_right]. rewrite IH. lia. Qed.
Theorem part_columns t l : (0 <= tp_width t)%Z ->
  let u := fold_left tpart_add l t in
  tp_rows u = (tp_rows t ++ l)%list /\ tp_x u = tp_x t /\ tp_y u = tp_y t /\ tp_width u = tp_width t /\ tp_height u = tp_height t
  /\ (tp_widths t <> [] -> tp_widths u = tp_widths t)
  /\ (tp_widths t = [] -> length (tp_widths u) = first_cells l /\ (forall v w, In v (tp_widths u) -> In w (tp_widths u) -> v = w)
      /\ (0 < first_cells l -> (tp_width t - Z.of_nat (first_cells l) < sumZ (tp_widths u) <= tp_width t)%Z)).
Proof.
  intros P u. destruct (add_fold l t) as (A & B & C & D & E & F). fold u in A, B, C, D, E, F. repeat (split; [assumption|]). split.
  - rewrite F. now destruct (tp_widths t).
  - intros N. rewrite N in F. rewrite F. split; [apply repeat_length|]. split.
    + intros v w V W. apply repeat_spec in V, W. congruence.
    + intros Q. rewrite sum_same, Z.quot_div_nonneg by lia. set (n := Z.of_nat (first_cells l)). assert (0 < n)%Z by (subst n; lia).
      pose proof (Z.div_mod (tp_width t) n). pose proof (Z.mod_pos_bound (tp_width t) n). nia.
Qed.
