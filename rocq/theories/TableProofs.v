From Coq Require Import String Ascii List Bool Arith NArith Lia.
From Verif Require Import Str StrRefl Num EscapeModel EscapeProofs XmlSpec XmlProofs XmlTpl XmlWriterModel OpcSpec GenProofs TplRead XmlPath PathRead ColorModel MergeModel DocPropsProofs TableModel TableSpec.
Import ListNotations.
Open Scope nat_scope.
Open Scope string_scope.

(** ** Templates *)
Definition optA (b : bool) (k v : string) : list (string * list piece) := if b then [(k, [Lit v])] else [].
Definition formatA (c : cell) : list (string * list piece) :=
  (optA (cbold c) "b" "1" ++ optA (citalic c) "i" "1" ++ optA (cunderline c) "u" "sng"
   ++ match font_size c with Some n => [("sz", [Lit (dec (wmul u32_max n 100))])] | None => [] end)%list.
Lemma attrs_app a b : attrs_raw (a ++ b) = attrs_raw a ++ attrs_raw b.
Proof. unfold attrs_raw. now rewrite map_app, sconcat_app. Qed.
Lemma format_str c : format_attrs c = attrs_raw (formatA c).
Proof.
  unfold format_attrs, formatA, optA. rewrite !attrs_app.
  destruct (cbold c), (citalic c), (cunderline c), (font_size c); unfold attrs_raw, araw, raws; cbn [map sconcat fold_right fst snd praw]; str_refl.
Qed.
Definition spanA (k : string) (o : option N) : list (string * list piece) :=
  match o with Some n => if (1 <? n)%N then [(k, [Lit (dec n)])] else [] | None => [] end.
Definition mergeA (c : cell) : list (string * list piece) :=
  if h_merge c then [("hMerge", [Lit "1"])] else if v_merge c then [("vMerge", [Lit "1"])] else (spanA "gridSpan" (grid_span c) ++ spanA "rowSpan" (row_span_of c))%list.
Lemma merge_str c : merge_attrs c = attrs_raw (mergeA c).
Proof.
  unfold merge_attrs, mergeA, to_xml_attrs, spanA. destruct (h_merge c); [reflexivity|]. destruct (v_merge c); [reflexivity|].
  rewrite attrs_app. destruct (grid_span c) as [g|], (row_span_of c) as [r|]; cbn [N.ltb N.compare Pos.compare Pos.compare_cont];
  try destruct (1 <? g)%N; try destruct (1 <? r)%N; unfold attrs_raw, araw, raws; cbn [map sconcat fold_right fst snd praw]; str_refl.
Qed.
Definition colorT (s : string) : tpl := TE "a:solidFill" [] [TS "a:srgbClr" [("val", [Lit (clean s)])]].
Lemma color_str s : color_to_xml s = tstr (colorT s).
Proof. unfold color_to_xml, colorT. tstr_eq. Qed.
Definition runC (c : cell) : list tpl :=
  (match text_color c with Some s => [colorT s] | None => [] end
   ++ match font_family c with Some f => [TS "a:latin" [("typeface", [Esc f])]] | None => [] end)%list.
Definition rprA (c : cell) : list (string * list piece) := (("lang", [Lit "en-US"]) :: ("dirty", [Lit "0"]) :: formatA c).
Definition runP (c : cell) : tpl := match runC c with [] => TS "a:rPr" (rprA c) | l => TE "a:rPr" (rprA c) l end.
Lemma rpr_raw c : attrs_raw (rprA c) = " lang=""en-US"" dirty=""0""" ++ attrs_raw (formatA c).
Proof. exact (attrs_app [("lang", [Lit "en-US"]); ("dirty", [Lit "0"])] (formatA c)). Qed.
Lemma run_str c : run_properties c = tstr (runP c).
Proof.
  unfold run_properties, runP, runC. rewrite format_str.
  destruct (text_color c) as [s|], (font_family c) as [f|]; cbv zeta.
  - replace (String.eqb (color_to_xml s) "") with false by reflexivity. cbn [andb app]. rewrite color_str. cbn [tstr map].
    rewrite rpr_raw. generalize (attrs_raw (formatA c)). intros x. unfold colorT. tstr_eq.
  - replace (String.eqb (color_to_xml s) "") with false by reflexivity. cbn [andb app]. rewrite color_str. cbn [tstr map].
    rewrite rpr_raw. generalize (attrs_raw (formatA c)). intros x. unfold colorT. tstr_eq.
  - match goal with |- (if _ && ?b then _ else _) = _ => replace b with false by reflexivity end. rewrite andb_false_r. cbn [app tstr map].
    rewrite rpr_raw. generalize (attrs_raw (formatA c)). intros x. tstr_eq.
  - cbn [String.eqb andb app tstr]. rewrite rpr_raw. generalize (attrs_raw (formatA c)). intros x. tstr_eq.
Qed.
Definition parP (c : cell) : list tpl := match calign c with ACenter => [] | a => [TS "a:pPr" [("algn", [Lit (align_str a)])]] end.
Lemma par_str c : paragraph_props c = tstrs (parP c).
Proof. unfold paragraph_props, parP. destruct (calign c); [|reflexivity| |]; tstr_eq. Qed.
Definition anchorA (c : cell) : list (string * list piece) := match cvalign c with VMiddle => [] | v => [("anchor", [Lit (valign_str v)])] end.
Definition tcP (c : cell) : tpl := match background c with Some b => TE "a:tcPr" (anchorA c) [colorT b] | None => TS "a:tcPr" (anchorA c) end.
Lemma tc_str c : tc_properties c = tstr (tcP c).
Proof.
  unfold tc_properties, tcP, anchorA. cbv zeta. destruct (background c) as [b|].
  - rewrite color_str. cbn [tstr map]. generalize (tstr (colorT b)). intros x. destruct (cvalign c); tstr_eq.
  - destruct (cvalign c); reflexivity.
Qed.
Definition cellP (c : cell) : tpl :=
  if String.eqb (ctext c) "" then TE "a:p" [] [TS "a:endParaRPr" [("lang", [Lit "en-US"])]]
  else TE "a:p" [] (parP c ++ [TE "a:r" [] [runP c; TE "a:t" [] [TT [Esc (ctext c)]]]])%list.
Definition cellT (c : cell) : tpl :=
  if covered c then TE "a:tc" (mergeA c) [TE "a:txBody" [] [TS "a:bodyPr" []; TS "a:lstStyle" []; TE "a:p" [] [TS "a:endParaRPr" []]]; TS "a:tcPr" []]
  else TE "a:tc" (mergeA c) [TE "a:txBody" [] [TS "a:bodyPr" []; TS "a:lstStyle" []; cellP c]; tcP c].
Lemma cell_str c : cell_xml c = tstr (cellT c).
Proof.
  unfold cell_xml, cellT, covered. rewrite merge_str, tc_str. destruct (h_merge c || v_merge c).
  - cbn [tstr]. generalize (attrs_raw (mergeA c)). intros x. tstr_eq.
  - unfold cellP. destruct (String.eqb (ctext c) "").
    + cbn [tstr map]. generalize (attrs_raw (mergeA c)) (tstr (tcP c)). intros x y. tstr_eq.
    + rewrite par_str, run_str. cbn [tstr map]. rewrite map_app, sconcat_app. fold (tstrs (parP c)). cbn [tstr map].
      generalize (attrs_raw (mergeA c)) (tstr (tcP c)) (tstrs (parP c)) (tstr (runP c)). intros x y z t. tstr_eq.
Qed.
Fixpoint eachT {A} (f : nat -> A -> tpl) (k : nat) (l : list A) : list tpl :=
  match l with [] => [] | x :: l => f k x :: eachT f (S k) l end.
Lemma each_str {A} (f : nat -> A -> string) (g : nat -> A -> tpl) : (forall k x, f k x = tstr (g k x)) ->
  forall l k, each_push f k l = tstrs (eachT g k l).
Proof. intros H. induction l as [|x l IH]; intros k; [reflexivity|]. cbn [each_push eachT]. now rewrite tstrs_cons, H, IH. Qed.
Definition colT (idx : nat) (w : N) : tpl :=
  (TE "a:gridCol" [("w", [Lit (dec w)])] [TE "a:extLst" [] [TE "a:ext" [("uri", [Lit "{9D8B030D-6E8A-4147-A177-3AD203B41FA5}"])] [TS "a16:colId" [("xmlns:a16", [Lit "http://schemas.microsoft.com/office/drawing/2014/main"]); ("val", [Lit (dec (20000 + N.of_nat idx))])]]]]).
Lemma col_str idx w : col_xml idx w = tstr (colT idx w).
Proof. unfold col_xml, colT. tstr_eq. Qed.
Definition rowE (r : row) (idx : nat) (cs : list tpl) : tpl :=
  (TE "a:tr" [("h", [Esc (dec (row_height r))])] ((cs) ++ [TE "a:extLst" [] [TE "a:ext" [("uri", [Lit "{0D108BD9-81ED-4DB2-BD59-A6C34878D82A}"])] [TS "a16:rowId" [("xmlns:a16", [Lit "http://schemas.microsoft.com/office/drawing/2014/main"]); ("val", [Lit (dec (10000 + N.of_nat idx))])]]]])%list).
Definition rowT (idx : nat) (r : row) : tpl := rowE r idx (map cellT (cells r)).
Ltac writer := unfold raw, end_element, empty_element, start_element, push_attrs, writer_new; cbn [fold_left]; rewrite !append_escape_eq.
Lemma cells_str l : sconcat (map cell_xml l) = tstrs (map cellT l).
Proof. unfold tstrs. rewrite map_map. f_equal. apply map_ext. apply cell_str. Qed.
Lemma row_str idx r : row_xml idx r = tstr (rowT idx r).
Proof.
  unfold row_xml, rowT, rowE. rewrite cells_str. writer. cbn [tstr]. rewrite ?map_app, ?sconcat_app. fold (tstrs (map cellT (cells r))).
  generalize (tstrs (map cellT (cells r))). intros x. tstr_eq.
Qed.
Definition tableE (t : table) (id : N) (cols rws : list tpl) : tpl :=
  (TE "p:graphicFrame" [] [TE "p:nvGraphicFramePr" [] [TS "p:cNvPr" [("id", [Esc (dec id)]); ("name", [Esc (("Table " ++ dec id))])]; TS "p:cNvGraphicFramePr" []; TS "p:nvPr" []]; TE "p:xfrm" [] [TS "a:off" [("x", [Esc (dec (tx t))]); ("y", [Esc (dec (ty t))])]; TS "a:ext" [("cx", [Esc (dec (table_width t))]); ("cy", [Esc (dec (table_height t))])]]; TE "a:graphic" [] [TE "a:graphicData" [("uri", [Lit "http://schemas.openxmlformats.org/drawingml/2006/table"])] [TE "a:tbl" [] ([TS "a:tblPr" [("firstRow", [Lit "1"]); ("bandRow", [Lit "1"])]; TE "a:tblGrid" [] (cols)] ++ (rws))%list]]]).
Definition tableT (t : table) (id : N) : tpl := tableE t id (eachT colT 0 (widths t)) (eachT rowT 0 (rows t)).
Lemma table_str t id : table_xml t id = tstr (tableT t id).
Proof.
  unfold table_xml, tableT, tableE. rewrite (each_str col_xml colT col_str), (each_str row_xml rowT row_str). cbv zeta. writer.
  tflat. repeat match goal with |- context [sconcat (map tstr ?A)] => progress fold (tstrs A) end.
  generalize (tstrs (eachT colT 0 (widths t))) (tstrs (eachT rowT 0 (rows t))). intros x y. tstr_eq.
Qed.

(** ** Well-formedness *)
Ltac aok := unfold tattrs_ok; apply andb_true_iff; split; [vm_compute; reflexivity|pieces_ok].
Ltac tstep :=
  lazymatch goal with
  | |- tok (TE _ _ _) => apply tok_TE; [vm_compute; reflexivity|first [assumption|aok]|]
  | |- tok (TS _ _) => split; [vm_compute; reflexivity|first [assumption|aok]]
  | |- tok (TT _) => cbn [tok]; pieces_ok
  | |- toks (_ ++ _)%list => apply toks_app_i
  | |- toks (_ :: _) => split
  | |- toks [] => exact I
  | |- tok ?x => assumption
  | |- toks ?x => assumption
  end.
Ltac twf := cbn [app]; repeat tstep.
Lemma clean_plain s : color_ok s = true -> sforall plain_val (clean s) = true.
Proof.
  unfold color_ok, clean. intros H.
  assert (T : sforall (fun c => match hex_val c with Some _ => true | None => Ascii.eqb c "#"%char end) (trim_start_by is_hash s) = true).
  { induction s as [|c s IH]; [reflexivity|]. cbn [sforall] in H. apply andb_true_iff in H. destruct H as [A B]. cbn [trim_start_by].
    destruct (is_hash c); [now apply IH|]. cbn [sforall]. now rewrite A, B. }
  induction (trim_start_by is_hash s) as [|c t IH]; [reflexivity|]. cbn [sforall] in T. apply andb_true_iff in T. destruct T as [A B].
  cbn [smap s1 append sforall]. rewrite (IH B), andb_true_r. clear -A. destruct c as [[] [] [] [] [] [] [] []]; vm_compute in *; congruence.
Qed.
Lemma colorT_tok s : color_ok s = true -> tok (colorT s).
Proof. intros H. apply clean_plain in H. unfold colorT. twf. Qed.
Lemma dec_attr n : attr_ok (dec n) = true.
Proof.
  assert (H := dec_digits n). induction (dec n) as [|c s IH]; [reflexivity|]. cbn [sforall] in H. apply andb_true_iff in H. destruct H as [A B].
  cbn [attr_ok]. rewrite (IH B), andb_true_r. clear -A. destruct c as [[] [] [] [] [] [] [] []]; vm_compute in *; congruence.
Qed.
Lemma formatA_ok c : tattrs_ok (rprA c) = true.
Proof.
  unfold rprA, formatA, optA. destruct (cbold c), (citalic c), (cunderline c), (font_size c); cbn [app]; aok.
Qed.
Lemma mergeA_ok c : tattrs_ok (mergeA c) = true.
Proof.
  unfold mergeA, spanA. destruct (h_merge c); [reflexivity|]. destruct (v_merge c); [reflexivity|].
  destruct (grid_span c) as [g|], (row_span_of c) as [r|]; try destruct (1 <? g)%N; try destruct (1 <? r)%N; cbn [app]; aok.
Qed.
Lemma cellT_tok c : cell_ok c = true -> tok (cellT c).
Proof.
  unfold cell_ok. rewrite !andb_true_iff. intros [[[T C] B] F]. pose proof (mergeA_ok c) as M. unfold cellT. destruct (covered c); [twf|].
  assert (R : tok (runP c)).
  { unfold runP, runC. pose proof (formatA_ok c) as A. destruct (text_color c) as [s|], (font_family c) as [f|]; cbn [app opt_ok] in *; try apply colorT_tok in C; twf. }
  assert (P : toks (parP c)) by (unfold parP; destruct (calign c); twf).
  assert (Q : tok (cellP c)) by (unfold cellP; destruct (String.eqb (ctext c) ""); twf).
  assert (S : tok (tcP c)).
  { unfold tcP, anchorA. destruct (background c) as [b|]; cbn [opt_ok] in B; [apply colorT_tok in B|]; destruct (cvalign c); twf. }
  twf.
Qed.
Lemma eachT_toks {A} (P : A -> Prop) (f : nat -> A -> tpl) : (forall k x, P x -> tok (f k x)) -> forall l k, Forall P l -> toks (eachT f k l).
Proof. intros H. induction l as [|x l IH]; intros k F; [exact I|]. inversion F; subst. split; [now apply H|now apply IH]. Qed.
Lemma rowT_tok k r : forallb cell_ok (cells r) = true -> tok (rowT k r).
Proof.
  intros H. assert (C : toks (map cellT (cells r))).
  { apply toks_map. intros c Hc. apply cellT_tok. rewrite forallb_forall in H. now apply H. }
  pose proof (dec_attr (row_height r)). unfold rowT, rowE. twf.
Qed.
Lemma tableT_tok t id : table_ok t = true -> tok (tableT t id).
Proof.
  intros H.
  assert (R : toks (eachT rowT 0 (rows t))).
  { apply (eachT_toks (fun r => forallb cell_ok (cells r) = true)); [exact rowT_tok|]. apply Forall_forall. unfold table_ok in H. now rewrite forallb_forall in H. }
  assert (C : toks (eachT colT 0 (widths t))).
  { apply (eachT_toks (fun _ => True)); [|now apply Forall_forall]. intros k w _. unfold colT. twf. }
  pose proof (dec_attr id). pose proof (dec_attr (tx t)). pose proof (dec_attr (ty t)). pose proof (dec_attr (table_width t)). pose proof (dec_attr (table_height t)).
  assert (N : attr_ok ("Table " ++ dec id) = true) by (cbn [append attr_ok]; now rewrite H0).
  unfold tableT, tableE. twf.
Qed.

(** ** Reading *)
Lemma map_each {A B} (h : node -> B) (f : nat -> A -> tpl) (e : A -> B) : (forall k x, h (tnode (f k x)) = e x) ->
  forall l k, map h (map tnode (eachT f k l)) = map e l.
Proof. intros H. induction l as [|x l IH]; intros k; [reflexivity|]. cbn [eachT map]. now rewrite H, IH. Qed.
Lemma each_filter {A} m (f : nat -> A -> tpl) l : (forall k x, called m (f k x) = true) -> forall k, filter (called m) (eachT f k l) = eachT f k l.
Proof. intros H. induction l as [|x l IH]; intros k; [reflexivity|]. cbn [eachT filter]. now rewrite H, IH. Qed.
Lemma each_elem {A} (f : nat -> A -> tpl) l : (forall k x, elemT (f k x) = true) -> forall k, forallb elemT (eachT f k l) = true.
Proof. intros H. induction l as [|x l IH]; intros k; [reflexivity|]. cbn [eachT forallb]. now rewrite H, IH. Qed.
Lemma cellT_name c : exists a b, cellT c = TE "a:tc" a b.
Proof. unfold cellT. destruct (covered c); eauto. Qed.
Lemma cellP_name c : exists a b, cellP c = TE "a:p" a b.
Proof. unfold cellP. destruct (String.eqb _ _); eauto. Qed.
Lemma tcP_name c : tname (tcP c) = Some "a:tcPr" /\ elemT (tcP c) = true.
Proof. unfold tcP. destruct (background c); split; reflexivity. Qed.
Lemma runP_name c : tname (runP c) = Some "a:rPr" /\ elemT (runP c) = true.
Proof. unfold runP. destruct (runC c); split; reflexivity. Qed.
Lemma path_named n p t l : named n (tsnodes (tbody t)) = l -> at_path (n :: p) (tnode t) = flat_map (at_path p) l.
Proof. intros <-. now rewrite path_step, named_children. Qed.
Lemma named_consE m t l : elemT t = true -> named m (tsnodes (t :: l)) = ((if called m t then [tnode t] else []) ++ named m (tsnodes l))%list.
Proof.
  intros H. change (t :: l) with ([t] ++ l)%list. rewrite tsnodes_named_app. rewrite named_list by (cbn; now rewrite H).
  cbn [filter]. now destruct (called m t).
Qed.
Lemma par_runs c : named "a:r" (tsnodes (parP c)) = [].
Proof. unfold parP. destruct (calign c); reflexivity. Qed.
Lemma cell_texts c : sconcat (texts_in (tnode (cellT c))) = cell_text c.
Proof.
  unfold texts_in, cell_text, cellT. destruct (covered c).
  - pread. reflexivity.
  - rewrite (path_named _ _ _ [tnode (TE "a:txBody" [] [TS "a:bodyPr" []; TS "a:lstStyle" []; cellP c])]).
    2:{ cbn [tbody]. destruct (tcP_name c) as [N E]. rewrite !named_consE by first [reflexivity|exact E]. unfold called. rewrite N. reflexivity. }
    cbn [flat_map]. rewrite app_nil_r. rewrite (path_named _ _ _ [tnode (cellP c)]).
    2:{ cbn [tbody]. destruct (cellP_name c) as (a & b & ->). rewrite named_list by reflexivity. reflexivity. }
    cbn [flat_map]. rewrite app_nil_r. unfold cellP. destruct (String.eqb_spec (ctext c) "") as [->|_].
    + pread. reflexivity.
    + rewrite (path_named _ _ _ [tnode (TE "a:r" [] [runP c; TE "a:t" [] [TT [Esc (ctext c)]]])]).
      2:{ cbn [tbody]. rewrite tsnodes_named_app, par_runs. rewrite named_list by reflexivity. reflexivity. }
      cbn [flat_map]. rewrite app_nil_r, path_one, named_children. cbn [tbody]. destruct (runP_name c) as [N E].
      rewrite !named_consE by first [reflexivity|exact E]. unfold called. rewrite N. cbn [tname String.eqb Ascii.eqb Bool.eqb app map].
      change (tsnodes []) with (@nil node). cbn [named filter map]. rewrite text_leaf. unfold vals. cbn [map pval sconcat fold_right]. now rewrite !sapp_nil_r.
Qed.
Lemma cell_span c : spans (tnode (cellT c)) = cell_spans c.
Proof.
  assert (S : forall b, spans (tnode (TE "a:tc" (mergeA c) b)) = cell_spans c).
  { intros b. unfold spans, cell_spans, attr_opt, tnode, mergeA, spanA, span_attr. destruct (h_merge c); [reflexivity|]. destruct (v_merge c); [reflexivity|].
    destruct (grid_span c) as [g|], (row_span_of c) as [r|]; try destruct (1 <? g)%N; try destruct (1 <? r)%N;
    unfold attrs_val; cbn [app map fst snd find String.eqb Ascii.eqb Bool.eqb option_map]; unfold vals; cbn [map pval sconcat fold_right]; rewrite ?sapp_nil_r; reflexivity. }
  destruct (cellT_name c) as (a & b & E). unfold cellT in *. destruct (covered c); apply S.
Qed.
Lemma cells_elem l : forallb elemT (map cellT l) = true.
Proof. induction l as [|c l IH]; [reflexivity|]. cbn [map forallb]. destruct (cellT_name c) as (a & b & ->). exact IH. Qed.
Lemma cells_called l : filter (called "a:tc") (map cellT l) = map cellT l.
Proof. induction l as [|c l IH]; [reflexivity|]. cbn [map filter]. destruct (cellT_name c) as (a & b & E). rewrite E. cbn [called tname String.eqb Ascii.eqb Bool.eqb]. now rewrite IH. Qed.
Lemma row_cells k r : cells_of (tnode (rowT k r)) = map tnode (map cellT (cells r)).
Proof.
  unfold cells_of. rewrite path_one, named_children. unfold rowT, rowE. cbn [tbody]. rewrite tsnodes_named_app, named_list by apply cells_elem.
  rewrite cells_called. rewrite named_list by reflexivity. cbn [filter called tname String.eqb Ascii.eqb Bool.eqb map]. apply app_nil_r.
Qed.
Lemma tbl_read t id : table_of (tnode (tableT t id)) =
  [tnode (TE "a:tbl" [] (TS "a:tblPr" [("firstRow", [Lit "1"]); ("bandRow", [Lit "1"])] :: TE "a:tblGrid" [] (eachT colT 0 (widths t)) :: eachT rowT 0 (rows t)))].
Proof. unfold table_of, tableT, tableE. pread. rewrite ?app_nil_r. reflexivity. Qed.
Lemma rows_read t id : rows_of (tnode (tableT t id)) = map tnode (eachT rowT 0 (rows t)).
Proof.
  unfold rows_of. rewrite tbl_read. cbn [flat_map]. rewrite app_nil_r, path_one, named_children. cbn [tbody].
  rewrite !named_consE by reflexivity. cbn [called tname String.eqb Ascii.eqb Bool.eqb app].
  rewrite named_list by (apply each_elem; reflexivity). now rewrite each_filter by reflexivity.
Qed.
Lemma wsum_mod l a : fold_left (wadd u32_max) l (a mod 4294967296)%N = ((a + sumN l) mod 4294967296)%N.
Proof.
  revert a. induction l as [|n l IH]; intros a; cbn [fold_left sumN fold_right]; [now rewrite N.add_0_r|].
  unfold wadd. change (u32_max + 1)%N with 4294967296%N. rewrite N.add_mod_idemp_l by discriminate. rewrite IH. unfold sumN. f_equal. apply eq_sym, N.add_assoc.
Qed.
Lemma frame_sums t : [(dec (tx t), dec (ty t)); (dec (table_width t), dec (table_height t))] = want_frame t.
Proof.
  unfold want_frame, table_width, table_height. assert (Z : forall l, fold_left (wadd u32_max) l 0%N = (sumN l mod 4294967296)%N) by (intros l; exact (wsum_mod l 0)).
  now rewrite !Z.
Qed.
Theorem table_shows t id : table_ok t = true -> exists x, xml_read (table_xml t id) = Some x
  /\ grid x = map (fun r => map cell_text (cells r)) (rows t)
  /\ grid_spans x = map (fun r => map cell_spans (cells r)) (rows t)
  /\ grid_widths x = map dec (widths t) /\ row_heights x = map (fun r => dec (want_height r)) (rows t)
  /\ frame x = want_frame t.
Proof.
  intros H. exists (tnode (tableT t id)). split.
  { rewrite table_str. apply tpl_read_node. apply (tableT_tok t id H). }
  split. { unfold grid. rewrite rows_read. apply map_each. intros k r. rewrite row_cells, !map_map. apply map_ext. apply cell_texts. }
  split. { unfold grid_spans. rewrite rows_read. apply map_each. intros k r. rewrite row_cells, !map_map. apply map_ext. apply cell_span. }
  split. { unfold grid_widths. rewrite tbl_read. cbn [flat_map]. rewrite app_nil_r.
           rewrite (path_named _ _ _ [tnode (TE "a:tblGrid" [] (eachT colT 0 (widths t)))]).
           2:{ cbn [tbody]. rewrite !named_consE by reflexivity. cbn [called tname String.eqb Ascii.eqb Bool.eqb app].
               rewrite named_list by (apply each_elem; reflexivity). f_equal.
               assert (forall l k, filter (called "a:tblGrid") (eachT rowT k l) = []) as -> by (induction l; intros; cbn; auto). reflexivity. }
           cbn [flat_map]. rewrite app_nil_r, path_one, named_children. cbn [tbody]. rewrite named_list by (apply each_elem; reflexivity). rewrite each_filter by reflexivity.
           apply map_each. intros k w. unfold attr, tnode, colT. cbn. apply sapp_nil_r. }
  split. { unfold row_heights. rewrite rows_read. apply map_each. intros k r. unfold attr, tnode, rowT, rowE. cbn. apply sapp_nil_r. }
  rewrite <- frame_sums. unfold frame, tableT, tableE. pread. unfold attr, tnode. cbn -[dec table_width table_height]. now rewrite !sapp_nil_r.
Qed.

(** ** Tables from rows of strings *)
Lemma longest_le rs r : In r rs -> length r <= longest rs.
Proof. induction rs as [|q rs IH]; [intros []|]. unfold longest. cbn [map fold_right]. fold (longest rs). intros [->|H]; [|specialize (IH H)]; lia. Qed.
Lemma string_rows_eq rs h : (0 < columns rs)%nat -> (N.of_nat (columns rs) <= u32_max)%N ->
  table_from_string_rows rs h = Ret (Table (enum_map (string_row h (columns rs)) 0 rs) (repeat (8000000 / N.of_nat (columns rs))%N (columns rs)) 500000 1800000).
Proof.
  intros P L. unfold table_from_string_rows.
  replace (match map (@length string) rs with [] => 1%nat | l => fold_right Nat.max 0%nat l end) with (columns rs) by (destruct rs; reflexivity).
  cbv zeta. rewrite N.mod_small by lia. destruct (N.eqb_spec (N.of_nat (columns rs)) 0) as [E|_]; [lia|]. reflexivity.
Qed.
Lemma row_texts h cols k r : map cell_text (cells (string_row h cols k r)) = (r ++ repeat "" (cols - length r))%list.
Proof.
  unfold string_row. cbn [cells]. rewrite map_app, map_map, map_length. f_equal.
  - rewrite <- (map_id r) at 2. apply map_ext. intros s. destruct (h && Nat.eqb k 0); reflexivity.
  - generalize (cols - length r). induction n as [|n IH]; [reflexivity|]. cbn [repeat map]. now rewrite IH.
Qed.
Lemma enum_texts h cols rs k : map (fun r => map cell_text (cells r)) (enum_map (string_row h cols) k rs) = map (fun r => (r ++ repeat "" (cols - length r))%list) rs.
Proof. revert k. induction rs as [|r rs IH]; intros k; [reflexivity|]. cbn [enum_map map]. now rewrite row_texts, IH. Qed.
Lemma padded_eq rs : map (fun r => (r ++ repeat "" (columns rs - length r))%list) rs = padded rs.
Proof. destruct rs; reflexivity. Qed.
Lemma string_rows_ok rs h cols k : Forall (Forall (fun s => text_ok s = true)) rs -> forallb (fun r => forallb cell_ok (cells r)) (enum_map (string_row h cols) k rs) = true.
Proof.
  intros F. revert k. induction F as [|r rs H _ IH]; intros k; [reflexivity|]. cbn [enum_map forallb]. rewrite IH, andb_true_r.
  unfold string_row. cbn [cells]. rewrite forallb_app. apply andb_true_iff. split.
  - apply forallb_forall. intros c Hc. apply in_map_iff in Hc. destruct Hc as (s & <- & Hs). rewrite Forall_forall in H.
    destruct (h && Nat.eqb k 0); unfold cell_ok; cbn; now rewrite (H s Hs).
  - apply forallb_forall. intros c Hc. apply repeat_spec in Hc. subst. reflexivity.
Qed.
Lemma padded_rect rs : Forall (fun r => length r = longest rs) (padded rs).
Proof.
  apply Forall_forall. intros r Hr. apply in_map_iff in Hr. destruct Hr as (q & <- & Hq). rewrite app_length, repeat_length.
  pose proof (longest_le rs q Hq). lia.
Qed.
Lemma sum_repeat w n s : (s + w * N.of_nat n <= u32_max)%N -> fold_left (wadd u32_max) (repeat w n) s = (s + w * N.of_nat n)%N.
Proof.
  revert s. induction n as [|n IH]; intros s H; cbn [repeat fold_left]; [lia|]. rewrite wadd_exact by lia. rewrite IH; lia.
Qed.
Theorem string_table rs h : (0 < columns rs)%nat -> (N.of_nat (columns rs) <= u32_max)%N ->
  exists t, table_from_string_rows rs h = Ret t
  /\ map (fun r => map ctext (cells r)) (rows t) = padded rs
  /\ Forall (fun r => length (cells r) = columns rs) (rows t) /\ length (widths t) = columns rs
  /\ (table_width t <= 8000000)%N
  /\ (forall i r, nth_error (rows t) i = Some r -> forall j c, nth_error (cells r) j = Some c ->
        cbold c = h && Nat.eqb i 0 && Nat.ltb j (length (nth i rs []))).
Proof.
  intros P L. eexists. split; [now apply string_rows_eq|]. cbn [rows widths]. repeat split.
  - etransitivity; [|apply padded_eq]. rewrite <- (enum_texts h (columns rs) rs 0). 
    assert (U : forall k q, map ctext (cells (string_row h (columns rs) k q)) = map cell_text (cells (string_row h (columns rs) k q))).
    { intros k q. unfold string_row. cbn [cells]. rewrite !map_app, !map_map. f_equal.
      - apply map_ext. intros s. now destruct (h && Nat.eqb k 0).
      - apply map_ext_in. intros c Hc. apply repeat_spec in Hc. now subst. }
    assert (V : forall l k, map (fun r => map ctext (cells r)) (enum_map (string_row h (columns rs)) k l) = map (fun r => map cell_text (cells r)) (enum_map (string_row h (columns rs)) k l)).
    { induction l as [|q l IH]; intros k; [reflexivity|]. cbn [enum_map map]. now rewrite U, IH. }
    apply V.
  - assert (G : forall l k, (forall r, In r l -> length r <= columns rs) -> Forall (fun r => length (cells r) = columns rs) (enum_map (string_row h (columns rs)) k l)).
    { induction l as [|q l IH]; intros k Hl; [constructor|]. cbn [enum_map]. constructor; [|apply IH; intros; apply Hl; now right].
      unfold string_row. cbn [cells]. rewrite app_length, map_length, repeat_length. specialize (Hl q (or_introl eq_refl)). lia. }
    apply G. intros r Hr. destruct rs; [destruct Hr|]. now apply longest_le.
  - apply repeat_length.
  - unfold table_width. cbn [widths]. pose proof (N.mul_div_le 8000000 (N.of_nat (columns rs))).
    rewrite sum_repeat by (unfold u32_max; lia). lia.
  - assert (G : forall l k i r, nth_error (enum_map (string_row h (columns rs)) k l) i = Some r -> r = string_row h (columns rs) (k + i) (nth i l [])).
    { induction l as [|q l IH]; intros k [|i] r E; cbn [enum_map nth_error] in E; try discriminate.
      - injection E as <-. now rewrite Nat.add_0_r.
      - apply IH in E. subst. cbn [nth]. f_equal. lia. }
    intros i r Hr j c Hc. apply G in Hr. subst r. cbn [Nat.add] in Hc. unfold string_row in Hc. cbn [cells] in Hc.
    destruct (Nat.ltb_spec j (length (nth i rs []))) as [J|J].
    + rewrite nth_error_app1 in Hc by now rewrite map_length. apply nth_error_In, in_map_iff in Hc. destruct Hc as (s & <- & _).
      rewrite andb_true_r. now destruct (h && Nat.eqb i 0).
    + rewrite nth_error_app2 in Hc by now rewrite map_length. apply nth_error_In, repeat_spec in Hc. subst. now rewrite andb_false_r.
Qed.
Theorem string_table_shown rs h id : Forall (Forall (fun s => text_ok s = true)) rs -> (0 < columns rs)%nat -> (N.of_nat (columns rs) <= u32_max)%N ->
  exists t x, table_from_string_rows rs h = Ret t /\ xml_read (table_xml t id) = Some x /\ grid x = padded rs /\ length (grid_widths x) = columns rs.
Proof.
  intros F P L. rewrite (string_rows_eq rs h P L). set (t := Table _ _ _ _).
  assert (K : table_ok t = true) by (unfold table_ok, t; cbn [rows]; now apply string_rows_ok).
  destruct (table_shows t id K) as (x & R & G & _ & W & _). exists t, x. split; [reflexivity|]. split; [exact R|]. split.
  - rewrite G. unfold t. cbn [rows]. rewrite enum_texts. apply padded_eq.
  - rewrite W, map_length. apply repeat_length.
Qed.
Theorem string_table_panics rs h : rs <> [] -> longest rs = 0%nat -> table_from_string_rows rs h = Panic.
Proof.
  intros N Z. unfold table_from_string_rows. destruct rs as [|r rs]; [congruence|]. unfold longest in Z. cbn [map] in *. rewrite Z. reflexivity.
Qed.
