From Coq Require Import String Ascii List Bool Arith NArith Lia.
From Verif Require Import Str StrRefl Num EscapeModel EscapeProofs XmlSpec XmlProofs XmlTpl OpcSpec GenProofs TplRead XmlPath PathRead ColorModel LookSpec TableModel TableSpec TableProofs.
Import ListNotations.
Open Scope nat_scope.
Open Scope string_scope.

Lemma clean_value s : color_ok s = true -> clean s = color_value s.
Proof.
  unfold color_ok, clean. induction s as [|c s IH]; [reflexivity|]. intros K. pose proof K as K'. cbn [sforall] in K. apply andb_true_iff in K. destruct K as [A B].
  cbn [trim_start_by color_value]. change (is_hash c) with (Ascii.eqb c "#"). destruct (Ascii.eqb_spec c "#") as [_|N]; [now apply IH|].
  assert (G : forall t, sforall (fun c => match hex_val c with Some _ => true | None => Ascii.eqb c "#"%char end) t = true ->
              smap (fun c => s1 (upper c)) t = smap upper_digit t).
  { clear. induction t as [|c t IH]; [reflexivity|]. cbn [sforall]. rewrite andb_true_iff. intros [A B]. cbn [smap]. rewrite (IH B). f_equal.
    clear -A. destruct c as [[] [] [] [] [] [] [] []]; vm_compute in *; congruence. }
  now apply G.
Qed.
Lemma vals_lit s : vals [Lit s] = s.
Proof. unfold vals. cbn [map pval sconcat fold_right]. now rewrite sapp_nil_r. Qed.
Lemma vals_esc s : vals [Esc s] = s.
Proof. unfold vals. cbn [map pval sconcat fold_right]. now rewrite sapp_nil_r. Qed.
Lemma fills_colorT s : color_ok s = true -> map (attr "val") (at_path ["a:srgbClr"] (tnode (colorT s))) = [color_value s].
Proof.
  intros H. unfold colorT. pread. unfold attr, attr_opt, tnode, attrs_val. cbn [map fst snd find String.eqb Ascii.eqb Bool.eqb option_map].
  now rewrite vals_lit, clean_value.
Qed.
Lemma body_path c : covered c = false ->
  at_path ["a:txBody"; "a:p"] (tnode (cellT c)) = [tnode (cellP c)].
Proof.
  intros C. unfold cellT. rewrite C. rewrite (path_named _ _ _ [tnode (TE "a:txBody" [] [TS "a:bodyPr" []; TS "a:lstStyle" []; cellP c])]).
  2:{ cbn [tbody]. destruct (tcP_name c) as [N E]. rewrite !named_consE by first [reflexivity|exact E]. unfold called. rewrite N. reflexivity. }
  cbn [flat_map]. rewrite app_nil_r. rewrite (path_named _ _ _ [tnode (cellP c)]); [reflexivity|].
  cbn [tbody]. destruct (cellP_name c) as (a & b & ->). rewrite named_list by reflexivity. reflexivity.
Qed.
Lemma path_app p q x : at_path (p ++ q) x = flat_map (at_path q) (at_path p x).
Proof.
  revert x. induction p as [|n p IH]; intros x; cbn [app at_path flat_map]; [now rewrite app_nil_r|].
  induction (named n (children x)) as [|y l IHl]; [reflexivity|]. cbn [flat_map]. now rewrite flat_map_app, IH, IHl.
Qed.
Lemma run_path c : ctext c <> "" -> at_path ["a:r"; "a:rPr"] (tnode (cellP c)) = [tnode (runP c)].
Proof.
  intros H. unfold cellP. apply String.eqb_neq in H. rewrite H.
  rewrite (path_named _ _ _ [tnode (TE "a:r" [] [runP c; TE "a:t" [] [TT [Esc (ctext c)]]])]).
  2:{ cbn [tbody]. rewrite tsnodes_named_app, par_runs. rewrite named_list by reflexivity. reflexivity. }
  cbn [flat_map]. rewrite app_nil_r, path_one, named_children. cbn [tbody]. destruct (runP_name c) as [N E].
  rewrite !named_consE by first [reflexivity|exact E]. unfold called. rewrite N. reflexivity.
Qed.
Lemma run_looks c : cell_ok c = true -> size_ok c = true -> run_look (tnode (runP c)) = want_run c.
Proof.
  unfold cell_ok, size_ok. rewrite !andb_true_iff. intros [[[_ T] _] F] Z.
  assert (A : forall b, (attr_opt "b" (tnode (TE "a:rPr" (rprA c) b)), attr_opt "i" (tnode (TE "a:rPr" (rprA c) b)), attr_opt "u" (tnode (TE "a:rPr" (rprA c) b)), attr_opt "sz" (tnode (TE "a:rPr" (rprA c) b)))
    = (on "1" (cbold c), on "1" (citalic c), on "sng" (cunderline c), option_map (fun n => dec (n * 100)) (font_size c))).
  { intros b. unfold attr_opt, tnode, rprA, formatA, optA, attrs_val, on.
    destruct (cbold c), (citalic c), (cunderline c), (font_size c) as [n|]; cbn [app map fst snd find String.eqb Ascii.eqb Bool.eqb option_map];
    rewrite ?vals_lit; try (apply N.leb_le in Z; rewrite wmul_exact by exact Z); reflexivity. }
  assert (A' : (attr_opt "b" (tnode (runP c)), attr_opt "i" (tnode (runP c)), attr_opt "u" (tnode (runP c)), attr_opt "sz" (tnode (runP c)))
    = (on "1" (cbold c), on "1" (citalic c), on "sng" (cunderline c), option_map (fun n => dec (n * 100)) (font_size c))).
  { unfold runP. destruct (runC c) as [|t l]; [exact (A [])|exact (A (t :: l))]. }
  unfold run_look, want_run. injection A' as -> -> -> ->. f_equal; [f_equal|].
  - unfold fills, runP, runC. destruct (text_color c) as [s|]; cbn [opt_ok option_map opt_list] in *.
    + destruct (font_family c) as [f|]; cbn [app]; (rewrite (path_named _ _ _ [tnode (colorT s)]); [|reflexivity]); cbn [flat_map]; rewrite app_nil_r; now apply fills_colorT.
    + destruct (font_family c); cbn [app]; reflexivity.
  - unfold faces, runP, runC. assert (L : forall f, attr "typeface" (tnode (TS "a:latin" [("typeface", [Esc f])])) = f).
    { intros f. unfold attr, attr_opt, tnode, attrs_val. cbn [map fst snd find String.eqb Ascii.eqb Bool.eqb option_map]. apply vals_esc. }
    destruct (text_color c) as [s|], (font_family c) as [f|]; cbn [app opt_list]; rewrite ?path_one, ?named_children; cbn [tbody]; try reflexivity.
    + rewrite named_list by reflexivity. cbn [filter called tname colorT String.eqb Ascii.eqb Bool.eqb map]. now rewrite L.
    + rewrite named_list by reflexivity. cbn [filter called tname String.eqb Ascii.eqb Bool.eqb map]. now rewrite L.
Qed.
Lemma tc_path c : covered c = false -> at_path ["a:tcPr"] (tnode (cellT c)) = [tnode (tcP c)].
Proof.
  intros C. unfold cellT. rewrite C, path_one, named_children. cbn [tbody]. destruct (tcP_name c) as [N E].
  rewrite !named_consE by first [reflexivity|exact E]. unfold called. rewrite N. reflexivity.
Qed.
Lemma cell_looks c : cell_ok c = true -> size_ok c = true -> looks (tnode (cellT c)) = want_looks c.
Proof.
  intros K Z. unfold looks, want_looks, cell_runs, cell_algn, cell_anchor, cell_fill.
  destruct (covered c) eqn:C.
  { unfold cellT. rewrite C. reflexivity. }
  rewrite (tc_path c C). cbn [negb andb map flat_map]. rewrite app_nil_r.
  change ["a:txBody"; "a:p"; "a:r"; "a:rPr"] with (["a:txBody"; "a:p"] ++ ["a:r"; "a:rPr"])%list.
  change ["a:txBody"; "a:p"; "a:pPr"] with (["a:txBody"; "a:p"] ++ ["a:pPr"])%list.
  rewrite !path_app, (body_path c C). cbn [flat_map]. rewrite !app_nil_r.
  assert (W : attr_opt "anchor" (tnode (tcP c)) = want_anchor (cvalign c)).
  { unfold tcP, anchorA. destruct (background c), (cvalign c); reflexivity. }
  assert (F : fills (tnode (tcP c)) = opt_list (option_map color_value (background c))).
  { unfold cell_ok in K. rewrite !andb_true_iff in K. destruct K as [[_ B] _]. unfold fills, tcP. destruct (background c) as [b|]; cbn [opt_ok option_map opt_list] in *; [|reflexivity].
    rewrite (path_named _ _ _ [tnode (colorT b)]); [|reflexivity]. cbn [flat_map]. rewrite app_nil_r. now apply fills_colorT. }
  rewrite W, F. destruct (String.eqb_spec (ctext c) "") as [E|E].
  - unfold cellP. rewrite E. reflexivity.
  - rewrite (run_path c E). cbn [map]. rewrite (run_looks c K Z). cbn [negb]. do 3 f_equal.
    unfold cellP. apply String.eqb_neq in E. rewrite E. rewrite path_one, named_children. cbn [tbody]. rewrite tsnodes_named_app.
    unfold parP, want_algn. destruct (calign c); reflexivity.
Qed.
Theorem table_looks t id : table_ok t = true -> cell_sizes_ok t = true ->
  exists x, xml_read (table_xml t id) = Some x /\ grid_looks x = map (fun r => map want_looks (cells r)) (rows t).
Proof.
  intros H Z. exists (tnode (tableT t id)). split. { rewrite table_str. apply tpl_read_node. apply (tableT_tok t id H). }
  unfold grid_looks. rewrite rows_read. unfold table_ok, cell_sizes_ok in *. revert H Z. generalize 0. induction (rows t) as [|r l IH]; intros k H Z; [reflexivity|].
  cbn [forallb] in *. apply andb_true_iff in H, Z. destruct H as [H1 H2], Z as [Z1 Z2]. cbn [eachT map]. f_equal; [|now apply IH].
  rewrite row_cells, !map_map. apply map_ext_in. intros c Hc. rewrite forallb_forall in H1, Z1. apply cell_looks; [now apply H1|now apply Z1].
Qed.
