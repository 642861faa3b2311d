From Coq Require Import String Ascii List Bool Arith NArith Lia.
From Verif Require Import Str StrRefl EscapeModel EscapeProofs XmlSpec XmlProofs XmlTpl OpcSpec GenProofs TplRead XmlPath PathRead ConnectorModel ConnectorSpec.
Import ListNotations.
Open Scope string_scope.

Definition cxnT (which : string) (o : option (N * N)) : list tpl :=
  match o with Some (i, k) => [nlT; TS which [("id", [Lit (dec i)]); ("idx", [Lit (dec k)])]] | None => [] end.
Definition headT (which : string) (a : arrow) (s : arrow_size) : list tpl :=
  if arrow_is_none a then [] else
  [nlT; TS which [("type", [Lit (arrow_value a)]); ("w", [Lit (size_value s)]); ("len", [Lit (size_value s)])]].
Definition labelT (o : option string) : list tpl :=
  match o with
  | Some l => [nlT; TE "p:txBody" [] [nlT; TS "a:bodyPr" []; nlT; TS "a:lstStyle" []; nlT;
       TE "a:p" [] [nlT; TE "a:r" [] [nlT; TS "a:rPr" [("lang", [Lit "en-US"]); ("sz", [Lit "1000"])]; nlT; TE "a:t" [] [TT [Esc l]]; nlT]; nlT]; nlT]]
  | None => []
  end.
Definition flips (h v : bool) : list (string * list piece) :=
  ((if h then [("flipH", [Lit "1"])] else []) ++ (if v then [("flipV", [Lit "1"])] else []))%list.
Definition xfrmT (b : box) : tpl :=
  TE "a:xfrm" (flips (flipped_h b) (flipped_v b))
    [nlT; TS "a:off" [("x", [Lit (dec (bx b))]); ("y", [Lit (dec (by_ b))])]; nlT;
     TS "a:ext" [("cx", [Lit (dec (bcx b))]); ("cy", [Lit (dec (bcy b))])]; nlT].
Definition lnT (w : N) (col : string) (d : dash) (hs : list tpl) : tpl :=
  TE "a:ln" [("w", [Lit (dec w)])]
    ([nlT; TE "a:solidFill" [] [nlT; TS "a:srgbClr" [("val", [Lit col])]; nlT]; nlT; TS "a:prstDash" [("val", [Lit (dash_value d)])]] ++ hs ++ [nlT]).
Definition nvT (id : N) (cs : list tpl) : tpl :=
  TE "p:nvCxnSpPr" [] [nlT; TS "p:cNvPr" [("id", [Lit (dec id)]); ("name", [Lit "Connector "; Lit (dec id)])]; nlT;
    TE "p:cNvCxnSpPr" [] (cs ++ [nlT]); nlT; TS "p:nvPr" []; nlT].
Definition connT (id : N) (cs : list tpl) (b : box) (prst : string) (ln : tpl) (ls : list tpl) : tpl :=
  TE "p:cxnSp" [] ([nlT; nvT id cs; nlT;
     TE "p:spPr" [] [nlT; xfrmT b; nlT; TE "a:prstGeom" [("prst", [Lit prst])] [nlT; TS "a:avLst" []; nlT]; nlT; ln; nlT]] ++ ls ++ [nlT]).

Definition box_of (c : connector) : box :=
  Box (N.min (start_x c) (end_x c)) (N.min (start_y c) (end_y c)) (width c) (height c) (flip_h c) (flip_v c).
Definition full (c : connector) (id : N) : tpl :=
  connT id (cxnT "a:stCxn" (both (start_shape c) (option_map site_index (start_site c)))
            ++ cxnT "a:endCxn" (both (end_shape c) (option_map site_index (end_site c)))) (box_of c) (preset_name (ctype c))
    (lnT (line_width c) (line_color c) (line_dash c) (headT "a:headEnd" (start_arrow c) (a_size c) ++ headT "a:tailEnd" (end_arrow c) (a_size c)))
    (labelT (label c)).

Lemma cxn_str which o : tstrs (cxnT which o) = match o with
  | Some (i, k) => nl ++ "<" ++ which ++ " id=""" ++ dec i ++ """ idx=""" ++ dec k ++ """/>" | None => "" end.
Proof. destruct o as [[i k]|]; [|reflexivity]. unfold cxnT, nlT. tstr_eq. Qed.
Lemma head_str which a s : tstrs (headT which a s) = if arrow_is_none a then "" else
  nl ++ "<" ++ which ++ " type=""" ++ arrow_value a ++ """ w=""" ++ size_value s ++ """ len=""" ++ size_value s ++ """/>".
Proof. unfold headT. destruct (arrow_is_none a); [reflexivity|]. unfold nlT. tstr_eq. Qed.
Lemma label_str o : tstrs (labelT o) = match o with
     | Some l => nl ++ "<p:txBody>" ++ nl ++ "<a:bodyPr/>" ++ nl ++ "<a:lstStyle/>" ++ nl ++ "<a:p>" ++ nl ++ "<a:r>" ++ nl
                 ++ "<a:rPr lang=""en-US"" sz=""1000""/>" ++ nl ++ "<a:t>" ++ escape_xml l ++ "</a:t>" ++ nl ++ "</a:r>" ++ nl ++ "</a:p>" ++ nl ++ "</p:txBody>"
     | None => "" end.
Proof. destruct o; [|reflexivity]. unfold labelT, nlT. tstr_eq. Qed.
Lemma flips_str h v : attrs_raw (flips h v) = (if h then " flipH=""1""" else "") ++ (if v then " flipV=""1""" else "").
Proof. now destruct h, v. Qed.

Lemma full_str c id : generate_connector_xml c id = tstr (full c id).
Proof.
  unfold full, connT, nvT, lnT, xfrmT, nlT. cbn [box_of bx by_ bcx bcy flipped_h flipped_v]. unfold generate_connector_xml. cbv zeta.
  generalize (cxn_str "a:stCxn" (both (start_shape c) (option_map site_index (start_site c)))).
  generalize (cxn_str "a:endCxn" (both (end_shape c) (option_map site_index (end_site c)))).
  generalize (head_str "a:headEnd" (start_arrow c) (a_size c)), (head_str "a:tailEnd" (end_arrow c) (a_size c)), (label_str (label c)), (flips_str (flip_h c) (flip_v c)).
  generalize (cxnT "a:stCxn" (both (start_shape c) (option_map site_index (start_site c)))) as A1.
  generalize (cxnT "a:endCxn" (both (end_shape c) (option_map site_index (end_site c)))) as A2.
  generalize (headT "a:headEnd" (start_arrow c) (a_size c)) as A3, (headT "a:tailEnd" (end_arrow c) (a_size c)) as A4, (labelT (label c)) as A5, (flips (flip_h c) (flip_v c)) as F.
  intros A3 A4 A5 F A2 A1 H3 H4 H5 HF H2 H1.
  tflat.
  fold (tstrs A1) (tstrs A2) (tstrs A3) (tstrs A4) (tstrs A5). rewrite H1, H2, H3, H4, H5, HF. clear.
  assert (E1 : match both (start_shape c) (option_map site_index (start_site c)) with
    | Some (i, k) => nl ++ "<" ++ "a:stCxn" ++ " id=""" ++ dec i ++ """ idx=""" ++ dec k ++ """/>" | None => "" end
    = match start_shape c, start_site c with Some i, Some s => nl ++ "<a:stCxn id=""" ++ dec i ++ """ idx=""" ++ dec (site_index s) ++ """/>" | _, _ => "" end)
    by (destruct (start_shape c), (start_site c); reflexivity).
  assert (E2 : match both (end_shape c) (option_map site_index (end_site c)) with
    | Some (i, k) => nl ++ "<" ++ "a:endCxn" ++ " id=""" ++ dec i ++ """ idx=""" ++ dec k ++ """/>" | None => "" end
    = match end_shape c, end_site c with Some i, Some s => nl ++ "<a:endCxn id=""" ++ dec i ++ """ idx=""" ++ dec (site_index s) ++ """/>" | _, _ => "" end)
    by (destruct (end_shape c), (end_site c); reflexivity).
  rewrite E1, E2. clear E1 E2.
  set (X1 := match start_shape c with Some _ => _ | None => _ end). set (X2 := match end_shape c with Some _ => _ | None => _ end).
  set (X5 := match label c with Some _ => _ | None => _ end). clearbody X1 X2 X5.
  change ("<a:headEnd type=""" ++ arrow_value (start_arrow c) ++ """ w=""" ++ size_value (a_size c) ++ """ len=""" ++ size_value (a_size c) ++ """/>")
    with ("<" ++ "a:headEnd" ++ " type=""" ++ arrow_value (start_arrow c) ++ """ w=""" ++ size_value (a_size c) ++ """ len=""" ++ size_value (a_size c) ++ """/>").
  change ("<a:tailEnd type=""" ++ arrow_value (end_arrow c) ++ """ w=""" ++ size_value (a_size c) ++ """ len=""" ++ size_value (a_size c) ++ """/>")
    with ("<" ++ "a:tailEnd" ++ " type=""" ++ arrow_value (end_arrow c) ++ """ w=""" ++ size_value (a_size c) ++ """ len=""" ++ size_value (a_size c) ++ """/>").
  set (X3 := if arrow_is_none (start_arrow c) then _ else _). set (X4 := if arrow_is_none (end_arrow c) then _ else _).
  set (H := if flip_h c then _ else _). set (V := if flip_v c then _ else _). clearbody X3 X4 H V.
  tstr_eq.
Qed.

Lemma cxn_toks which o : is_name which = true -> toks (cxnT which o).
Proof. intros H. destruct o as [[i k]|]; [|exact I]. unfold cxnT, nlT. toks_solve. exact H. Qed.
Lemma head_toks which a s : is_name which = true -> toks (headT which a s).
Proof.
  intros H. unfold headT. destruct (arrow_is_none a); [exact I|]. unfold nlT.
  assert (A : sforall plain_val (arrow_value a) = true) by (destruct a; reflexivity).
  assert (S : sforall plain_val (size_value s) = true) by (destruct s; reflexivity).
  toks_solve; exact H.
Qed.
Definition label_ok (o : option string) : bool := match o with Some l => text_ok l | None => true end.
Lemma label_toks o : label_ok o = true -> toks (labelT o).
Proof. destruct o as [l|]; intros H; [|exact I]. unfold labelT, nlT. cbn [label_ok] in H. toks_solve. Qed.
Lemma full_tok c id : sforall plain_val (line_color c) = true -> label_ok (label c) = true -> tok (full c id).
Proof.
  intros Hc Hl. unfold full, connT. apply tok_TE; [reflexivity|reflexivity|]. apply toks_app_i; [|apply toks_app_i; [now apply label_toks|unfold nlT; toks_solve]].
  assert (N : tok nlT) by (vm_compute; reflexivity).
  cbn [toks]. split; [exact N|]. split; [|split; [exact N|split; [|exact I]]].
  - unfold nvT. apply tok_TE; [reflexivity|reflexivity|]. cbn [toks]. split; [exact N|]. split; [toks_solve|]. split; [exact N|]. split.
    { apply tok_TE; [reflexivity|reflexivity|]. toks_apps; [now apply cxn_toks|now apply cxn_toks|unfold nlT; toks_solve]. }
    unfold nlT; toks_solve.
  - apply tok_TE; [reflexivity|reflexivity|]. cbn [toks]. split; [exact N|]. split.
    { unfold xfrmT. apply tok_TE; [reflexivity| |unfold nlT; toks_solve]. destruct (flipped_h _), (flipped_v _); reflexivity. }
    split; [exact N|]. split.
    { unfold nlT. destruct (ctype c); toks_solve. }
    split; [exact N|]. split; [|split; [exact N|exact I]].
    unfold lnT. apply tok_TE; [reflexivity|unfold tattrs_ok; apply andb_true_iff; split; [vm_compute; reflexivity|pieces_ok]|].
    toks_apps; [unfold nlT; destruct (line_dash c); toks_solve|now apply head_toks|now apply head_toks|unfold nlT; toks_solve].
Qed.

Lemma label_named o m : m <> "p:txBody" -> named m (tsnodes (labelT o)) = [].
Proof. intros H. destruct o; [|reflexivity]. cbn -[String.eqb]. destruct (String.eqb_spec "p:txBody" m); [congruence|reflexivity]. Qed.
Lemma cxn_named w o m : m <> w -> named m (tsnodes (cxnT w o)) = [].
Proof. intros H. destruct o as [[]|]; [|reflexivity]. cbn -[String.eqb]. destruct (String.eqb_spec w m); [congruence|reflexivity]. Qed.

Lemma full_shows c id : shows (tnode (full c id)) (box_of c).
Proof.
  unfold shows, full, connT. exists (tnode (xfrmT (box_of c))).
  eexists. eexists. split.
  { cbn [at_path]. rewrite named_children. cbn [tbody]. rewrite !tsnodes_named_app. rewrite label_named by discriminate.
    unfold nlT. unfold nvT, xfrmT. nread. cbn [app flat_map]. nread. cbn [app flat_map]. reflexivity. }
  unfold xfrmT, nlT.
  split; [cbn [at_path]; nread; cbn [app flat_map]; reflexivity|].
  split; [cbn [at_path]; nread; cbn [app flat_map]; reflexivity|].
  assert (A : forall k v r, attr k (tnode (TS r v)) = match option_map snd (find (fun p => String.eqb (fst p) k) (attrs_val v)) with Some v => v | None => "" end) by reflexivity.
  split; [destruct (flipped_h _), (flipped_v _); reflexivity|].
  split; [destruct (flipped_h _), (flipped_v _); reflexivity|].
  cbn. rewrite !sapp_nil_r. auto.
Qed.
Lemma full_glued c id : glued (tnode (full c id)) "a:stCxn" (both (start_shape c) (option_map site_index (start_site c))) /\
  glued (tnode (full c id)) "a:endCxn" (both (end_shape c) (option_map site_index (end_site c))).
Proof.
  unfold glued, full, connT.
  generalize (both (start_shape c) (option_map site_index (start_site c))) as o1, (both (end_shape c) (option_map site_index (end_site c))) as o2. intros o1 o2.
  assert (P : forall which cs sp ls, (forall m, m <> "p:txBody" -> named m (tsnodes ls) = []) ->
    at_path ["p:nvCxnSpPr"; "p:cNvCxnSpPr"; which] (tnode (TE "p:cxnSp" [] ([nlT; nvT id cs; nlT; TE "p:spPr" [] sp] ++ ls ++ [nlT])))
    = named which (tsnodes cs)).
  { intros which cs sp ls Hl. cbn [at_path]. rewrite named_children. cbn [tbody]. rewrite !tsnodes_named_app, Hl by discriminate.
    unfold nvT, nlT. nread. cbn [app flat_map]. nread. cbn [app flat_map]. nread. rewrite tsnodes_named_app. nread. rewrite !app_nil_r.
    induction (named which (tsnodes cs)) as [|x l IH]; [reflexivity|]. cbn [flat_map app]. now rewrite IH. }
  split; (rewrite P by (intros m Hm; now apply label_named)); rewrite tsnodes_named_app.
  - rewrite (cxn_named "a:endCxn") by discriminate. rewrite app_nil_r. destruct o1 as [[i k]|]; [|reflexivity]. cbn. now rewrite !sapp_nil_r.
  - rewrite (cxn_named "a:stCxn") by discriminate. destruct o2 as [[i k]|]; [|reflexivity]. cbn. now rewrite !sapp_nil_r.
Qed.
Lemma box_points c : start_of (box_of c) = (start_x c, start_y c) /\ end_of (box_of c) = (end_x c, end_y c).
Proof.
  unfold start_of, end_of, box_of, width, height, flip_h, flip_v, abs_diff. cbn [bx by_ bcx bcy flipped_h flipped_v].
  destruct (N.ltb_spec (end_x c) (start_x c)), (N.ltb_spec (end_y c) (start_y c)); split; f_equal; lia.
Qed.

Lemma full_look c id : line_look (tnode (full c id)) = want_line c.
Proof.
  assert (L : at_path ["p:spPr"; "a:ln"] (tnode (full c id)) =
    [tnode (lnT (line_width c) (line_color c) (line_dash c) (headT "a:headEnd" (start_arrow c) (a_size c) ++ headT "a:tailEnd" (end_arrow c) (a_size c)))]).
  { unfold full, connT. cbn [at_path]. rewrite named_children. cbn [tbody]. rewrite !tsnodes_named_app. rewrite label_named by discriminate.
    unfold nlT. unfold nvT, xfrmT, lnT. nread. cbn [app flat_map]. nread. cbn [app flat_map]. reflexivity. }
  unfold line_look. rewrite L. cbv zeta. cbn [flat_map]. rewrite !app_nil_r. clear L. unfold want_line.
  assert (D : want_dash (line_dash c) = dash_value (line_dash c)) by (destruct (line_dash c); reflexivity).
  assert (H1 : forall w a z, filter (called w) (headT w a z) = match headT w a z with [] => [] | _ => [TS w [("type", [Lit (arrow_value a)]); ("w", [Lit (size_value z)]); ("len", [Lit (size_value z)])]] end).
  { intros w a z. unfold headT. destruct (arrow_is_none a); [reflexivity|]. cbn [filter called tname nlT]. now rewrite String.eqb_refl. }
  assert (H2 : forall v w a z, String.eqb w v = false -> filter (called v) (headT w a z) = []).
  { intros v w a z E. unfold headT. destruct (arrow_is_none a); [reflexivity|]. cbn [filter called tname nlT]. now rewrite E. }
  assert (E : forall w a z, forallb elemT (headT w a z) = true) by (intros; unfold headT; destruct (arrow_is_none a); reflexivity).
  assert (P : forall v q, at_path (v :: q) (tnode (lnT (line_width c) (line_color c) (line_dash c) (headT "a:headEnd" (start_arrow c) (a_size c) ++ headT "a:tailEnd" (end_arrow c) (a_size c))))
    = flat_map (at_path q) (map tnode (filter (called v) [TE "a:solidFill" [] [nlT; TS "a:srgbClr" [("val", [Lit (line_color c)])]; nlT]; TS "a:prstDash" [("val", [Lit (dash_value (line_dash c))])]]
       ++ filter (called v) (headT "a:headEnd" (start_arrow c) (a_size c)) ++ filter (called v) (headT "a:tailEnd" (end_arrow c) (a_size c))))).
  { intros v q. unfold lnT. rewrite path_list by (cbn [tbody]; rewrite !forallb_app, !E; reflexivity). cbn [tbody]. rewrite !filter_app.
    f_equal. f_equal. change (filter (called v) [nlT]) with (@nil tpl). rewrite app_nil_r. reflexivity. }
  rewrite !P. rewrite !H1, !H2 by reflexivity. clear P H1 H2 E.
  assert (K : map (attr "prst") (at_path ["p:spPr"; "a:prstGeom"] (tnode (full c id))) = [want_kind (ctype c)]).
  { unfold full, connT. cbn [at_path]. rewrite named_children. cbn [tbody]. rewrite !tsnodes_named_app. rewrite label_named by discriminate.
    unfold nlT. unfold nvT, xfrmT, lnT. nread. cbn [app flat_map]. nread. cbn [app flat_map map]. unfold attr, attr_opt, tnode. cbn. destruct (ctype c); reflexivity. }
  rewrite K, D. f_equal; [f_equal; [f_equal; [f_equal; [f_equal|]|]|]|].
  - unfold lnT. cbn. now rewrite sapp_nil_r.
  - cbn. now rewrite sapp_nil_r.
  - cbn. now rewrite sapp_nil_r.
  - unfold headT. destruct (start_arrow c), (a_size c); reflexivity.
  - unfold headT. destruct (end_arrow c), (a_size c); reflexivity.
Qed.

Lemma connector_reads c id : sforall plain_val (line_color c) = true -> label_ok (label c) = true ->
  exists x b, xml_read (generate_connector_xml c id) = Some x /\ shows x b /\
    start_of b = (start_x c, start_y c) /\ end_of b = (end_x c, end_y c) /\
    glued x "a:stCxn" (both (start_shape c) (option_map site_index (start_site c))) /\
    glued x "a:endCxn" (both (end_shape c) (option_map site_index (end_site c))) /\
    map text_in (at_path ["p:txBody"; "a:p"; "a:r"; "a:t"] x) = match label c with Some l => [l] | None => [] end /\
    line_look x = want_line c.
Proof.
  intros Hc Hl. exists (tnode (full c id)), (box_of c). rewrite full_str. split.
  { pose proof (full_tok c id Hc Hl) as T. unfold full, connT in *. now apply tpl_read_node. }
  split; [apply full_shows|]. destruct (box_points c) as [A B]. split; [exact A|]. split; [exact B|].
  destruct (full_glued c id) as [G1 G2]. split; [exact G1|]. split; [exact G2|]. split; [|apply full_look].
  unfold full, connT. cbn [at_path]. rewrite named_children. cbn [tbody]. rewrite !tsnodes_named_app. unfold nvT, nlT. nread. cbn [app].
  destruct (label c) as [l|]; [|reflexivity]. unfold labelT, nlT. nread. cbn [app flat_map]. nread. cbn [app flat_map]. nread. cbn [app flat_map]. nread.
  cbn [app flat_map map]. rewrite text_leaf. cbn [vals map sconcat fold_right pval]. now rewrite sapp_nil_r.
Qed.
