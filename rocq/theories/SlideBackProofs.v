From Coq Require Import String Ascii List Bool Arith NArith ZArith Lia.
From Verif Require Import Str StrRefl Num XmlSpec XmlProofs XmlTpl TplRead XmlTreeModel XmlTreeSpec XmlTreeProofs TplTree
  ColorModel MergeModel TableModel TableSpec TableProofs ConnectorModel ConnectorProofs ChartModel ShapeModel ShapeProofs SlideModel SlideProofs SlideRead SlideSpec SlideInput SlideWant ReaderModel SlideBackSpec SlideBack.
Import ListNotations.
Open Scope nat_scope.
Open Scope string_scope.
Local Arguments String.append _ _ : simpl nomatch.


(** ** Tables *)
Lemma cell_name c : local_name (xe (cellT c)) = "tc" /\ xt (cellT c) = [xe (cellT c)].
Proof. unfold cellT. destruct (covered c); split; reflexivity. Qed.
Lemma cell_found c : match find_descendant "t" (xe (cellT c)) with Some e => text_content e | None => "" end
  = if covered c then "" else visible (ctext c).
Proof.
  unfold cellT. destruct (covered c); [reflexivity|]. unfold cellP. destruct (String.eqb_spec (ctext c) "") as [->|N].
  { unfold tcP. destruct (background c) as [b|]; [|reflexivity]. reflexivity. }
  assert (P : fd "t" (flat_map xt (parP c)) = None) by (unfold parP; destruct (calign c); reflexivity).
  assert (R : exists e, xt (runP c) = [e] /\ String.eqb (local_name e) "t" = false /\ find_descendant "t" e = None).
  { unfold runP, runC. destruct (text_color c), (font_family c); cbn [app]; eexists; (split; [reflexivity|split; reflexivity]). }
  destruct R as (e & R1 & R2 & R3).
  unfold xe. cbn [xt flat_map app]. rewrite !flat_map_app. cbn [flat_map xt app]. rewrite R1. cbn [app]. rewrite leaf_text, vals_esc.
  rewrite fd_eq. cbn [fd local_name]. replace (String.eqb (local "a:txBody") "t") with false by reflexivity. rewrite fd_eq. cbn [fd local_name].
  replace (String.eqb (local "a:bodyPr") "t") with false by reflexivity. replace (String.eqb (local "a:lstStyle") "t") with false by reflexivity.
  replace (String.eqb (local "a:p") "t") with false by reflexivity. rewrite !fd_eq.
  rewrite fd_app, P. cbn [fd local_name]. replace (String.eqb (local "a:r") "t") with false by reflexivity. rewrite fd_eq. cbn [fd]. rewrite R2, R3. cbn [local_name].
  replace (String.eqb (local "a:t") "t") with true by reflexivity. rewrite text_content_eq. cbn [text kids map]. unfold sconcat. cbn [fold_right]. rewrite sapp_nil_r. reflexivity.
Qed.
Lemma cell_attrs c : attributes (xe (cellT c)) = xattrs (mergeA c).
Proof. unfold cellT. destruct (covered c); reflexivity. Qed.
Lemma span_attr c k : attr_of k (xe (cellT c)) = option_map snd (find (fun p => String.eqb (fst p) k) (xattrs (mergeA c))).
Proof. unfold attr_of. now rewrite cell_attrs. Qed.
Lemma cell_back c : span_fits (row_span_of c) && span_fits (grid_span c) = true -> parse_cell (xe (cellT c)) = back_cell c.
Proof.
  intros F. apply andb_true_iff in F as [F1 F2]. unfold parse_cell, back_cell. rewrite cell_found, !span_attr. unfold covered, mergeA.
  destruct (h_merge c); [reflexivity|]. destruct (v_merge c); [reflexivity|]. cbn [orb].
  assert (Z : forall o, span_fits o = true -> N.max 1 (or_default o 1%N) = match o with Some n => if (1 <? n)%N then n else 1%N | None => 1%N end).
  { intros [n|]; [|reflexivity]. intros _. cbn [or_default]. destruct (N.ltb_spec 1 n); lia. }
  rewrite !Z by assumption. unfold spanA.
  destruct (grid_span c) as [g|]; [destruct (N.ltb_spec 1 g)|]; (destruct (row_span_of c) as [r|]; [destruct (N.ltb_spec 1 r)|]);
    unfold xattrs, attrs_val; cbn [app map fst snd]; rewrite ?vals_lit; cbn [span_fits] in *;
    try (apply N.leb_le in F1); try (apply N.leb_le in F2);
    repeat match goal with |- context [filter ?f ?l] => let v := eval cbv [filter is_xmlns negb fst String.eqb Ascii.eqb Bool.eqb orb andb starts_with] in (filter f l) in change (filter f l) with v end;
    cbn [rev app find fst String.eqb Ascii.eqb Bool.eqb option_map snd bind]; rewrite ?parse_uint_dec by assumption; reflexivity.
Qed.
Lemma cells_back l : forallb (fun c => span_fits (row_span_of c) && span_fits (grid_span c)) l = true ->
  map parse_cell (filter (fun c => String.eqb (local_name c) "tc") (xts (map cellT l))) = map back_cell l.
Proof.
  induction l as [|c l IH]; intros F; [reflexivity|]. cbn [forallb] in F. apply andb_true_iff in F as [F1 F2]. destruct (cell_name c) as [N1 N2].
  cbn [map]. change (xts (cellT c :: map cellT l)) with (app (xt (cellT c)) (xts (map cellT l))). rewrite N2. cbn [app filter]. rewrite N1. cbn [String.eqb Ascii.eqb Bool.eqb].
  cbn [map]. now rewrite (cell_back c F1), (IH F2).
Qed.
Lemma row_back idx r : forallb (fun c => span_fits (row_span_of c) && span_fits (grid_span c)) (cells r) = true ->
  parse_row (xe (rowT idx r)) = match map back_cell (cells r) with [] => [] | l => [l] end.
Proof.
  intros F. unfold parse_row, rowT, rowE, xe, find_all. cbn [xt kids]. rewrite flat_map_app, filter_app. fold (xts (map cellT (cells r))).
  change (filter (fun c => String.eqb (local_name c) "tc") (flat_map xt [TE "a:extLst" ?a ?b])) with (@nil xel). rewrite app_nil_r, cells_back by exact F. reflexivity.
Qed.
Lemma rows_back l : forall k, forallb (fun r => forallb (fun c => span_fits (row_span_of c) && span_fits (grid_span c)) (cells r)) l = true ->
  flat_map parse_row (filter (fun c => String.eqb (local_name c) "tr") (xts (eachT rowT k l)))
  = filter (fun r => match r with [] => false | _ => true end) (map (fun r => map back_cell (cells r)) l).
Proof.
  induction l as [|r l IH]; intros k F; [reflexivity|]. cbn [forallb] in F. apply andb_true_iff in F as [F1 F2].
  cbn [eachT map]. change (xts (rowT k r :: eachT rowT (S k) l)) with (xe (rowT k r) :: xts (eachT rowT (S k) l)). cbn [filter].
  replace (String.eqb (local_name (xe (rowT k r))) "tr") with true by reflexivity. cbn [flat_map]. rewrite (IH _ F2), (row_back k r F1). now destruct (map back_cell (cells r)).
Qed.
Lemma table_back t id : forallb (fun r => forallb (fun c => span_fits (row_span_of c) && span_fits (grid_span c)) (cells r)) (rows t) = true ->
  parse_table (xe (tableT t id)) = match filter (fun r => match r with [] => false | _ => true end) (map (fun r => map back_cell (cells r)) (rows t)) with [] => [] | l => [l] end.
Proof.
  intros F. unfold parse_table, tableT, tableE.
  match goal with |- match ?f with _ => _ end = _ => assert (E : exists n a x e1, f = Some (XE n "tbl" a (e1 ++ xts (eachT rowT 0 (rows t))) x) /\ filter (fun c => String.eqb (local_name c) "tr") e1 = []) end.
  { match goal with |- context [TE "a:tbl" ?a (?f ++ _)] => exists "a:tbl", (xattrs a); eexists; exists (xts f) end. split; [|reflexivity].
    unfold xe. cbn [xt flat_map app]. reflexivity. }
  destruct E as (n & a & x & e1 & -> & E). unfold find_all. cbn [kids]. rewrite filter_app, E. cbn [app]. rewrite rows_back by exact F. reflexivity.
Qed.

(** ** The other elements *)
Lemma codes_marked c id : is_title_shape (xe (codeT c id)) = false /\ is_body_shape (xe (codeT c id)) = false /\ ps_paras (mark (xe (codeT c id))) = []
  /\ ps_title (mark (xe (codeT c id))) = false /\ ps_body (mark (xe (codeT c id))) = false.
Proof. repeat split; reflexivity. Qed.
Lemma code_back c id : forallb i64_fits [cb_x c; cb_y c; cb_w c; cb_h c] = true -> back_code (mark (xe (codeT c id))) c.
Proof.
  cbn [forallb]. rewrite !andb_true_iff. intros (F1 & F2 & F3 & F4 & _). destruct (codes_marked c id) as (_ & _ & P & T & B). unfold back_code.
  split; [reflexivity|]. split; [|now repeat split].
  transitivity (or 0%Z (parse_i64 (vals [Lit (zdec (cb_x c))])), or 0%Z (parse_i64 (vals [Lit (zdec (cb_y c))])), or 0%Z (parse_i64 (vals [Lit (zdec (cb_w c))])), or 0%Z (parse_i64 (vals [Lit (zdec (cb_h c))]))); [reflexivity|].
  rewrite !vals_lit, !parse_i64_zdec by assumption. reflexivity.
Qed.
Lemma no_table c id r : parse_table (xe (chartE c id r)) = [].
Proof. reflexivity. Qed.
Lemma each_filter {A} (q : xel -> bool) (f : nat -> A -> tpl) (g : bool) l : (forall k x, xt (f k x) = [xe (f k x)] /\ q (xe (f k x)) = g) ->
  forall k, filter q (xts (eachT f k l)) = if g then xts (eachT f k l) else [].
Proof.
  intros H. induction l as [|x l IH]; intros k; [now destruct g|]. cbn [eachT]. change (xts (f k x :: eachT f (S k) l)) with (app (xt (f k x)) (xts (eachT f (S k) l))).
  destruct (H k x) as [H1 H2]. rewrite H1. cbn [app filter]. rewrite H2, IH. now destruct g.
Qed.
Lemma each_xts {A} (f : nat -> A -> tpl) l : (forall k x, xt (f k x) = [xe (f k x)]) -> forall k e, In e (xts (eachT f k l)) -> exists j x, In x l /\ e = xe (f j x).
Proof.
  intros H. induction l as [|x l IH]; intros k e E; [destruct E|]. cbn [eachT] in E. change (xts (f k x :: eachT f (S k) l)) with (app (xt (f k x)) (xts (eachT f (S k) l))) in E.
  rewrite H in E. destruct E as [<-|E]; [exists k, x; split; [now left|reflexivity]|]. destruct (IH _ _ E) as (j & y & I & ->). exists j, y. split; [now right|reflexivity].
Qed.

(** ** The whole slide *)
Lemma titles_back s : xts (titles s) = match s_layout s with Blank => [] | _ => [hd (xel_new "") (xts (titles s))] end
  /\ filter is_sp (xts (titles s)) = xts (titles s) /\ filter is_gf (xts (titles s)) = []
  /\ fold_left title_in (xts (titles s)) None = match s_layout s with Blank => None | _ => Some (visible (s_title s)) end
  /\ flat_map body_in (xts (titles s)) = []
  /\ Forall (fun p => ps_title p = true /\ ps_body p = false) (map mark (xts (titles s))).
Proof.
  assert (T : forall x y w h al size b, let e := xe (titleE x y w h al (titleP s size b) (s_title s)) in
    is_title_shape e = true /\ pshape_text (parse_shape e) = visible (s_title s) /\ is_sp e = true /\ is_gf e = false).
  { intros x y w h al size b e. split; [reflexivity|]. split; [|split; reflexivity]. unfold pshape_text, e, titleP. rewrite textP_props, title_paras.
    - unfold visible. destruct (blank (s_title s)); [reflexivity|]. cbn [map]. unfold para_text, sjoin. cbn [runs map r_text rpr]. unfold sconcat. cbn [fold_right]. apply sapp_nil_r.
    - cbn [p_size]. unfold wmul. match goal with |- (?a mod ?b <= _)%N => pose proof (N.mod_lt a b) end. unfold u32_max in *. lia. }
  unfold titles. destruct (s_layout s); try (repeat split; [constructor]);
    (match goal with |- context [titleE ?x ?y ?w ?h ?al (titleP s ?size ?b) (s_title s)] => destruct (T x y w h al size b) as (T1 & T2 & T3 & T4); set (e := titleE x y w h al (titleP s size b) (s_title s)) in * end;
     change (xts [e]) with [xe e]; cbn [filter fold_left flat_map map hd]; rewrite T3, T4; unfold title_in, body_in; rewrite T1, T2;
     (split; [reflexivity|split; [reflexivity|split; [reflexivity|split; [reflexivity|split; [reflexivity|]]]]]); constructor; [|constructor];
     unfold mark; destruct (parse_shape (xe e)); rewrite T1; split; reflexivity).
Qed.
Lemma bullet_back_eq s b d : d = usual_size s -> size_ok (s_csize s) = true -> (match b_format b with Some f => size_ok (bf_size f) | None => true end) = true ->
  bullet_back (content_props s d) b = if nonblank (b_text b) then [back_bullet s b] else [].
Proof.
  intros -> S1 S2. unfold bullet_back, back_bullet, nonblank. cbv zeta. destruct (blank (b_text b)); [reflexivity|]. cbn [negb]. f_equal. unfold content_props, with_basic.
  assert (Z : wmul u32_max (match s_csize s with Some n => n | None => usual_size s end) 100 = (or_default (s_csize s) (usual_size s) * 100)%N).
  { destruct (s_csize s) as [n|]; cbn [or_default size_ok] in *; apply wmul_exact; [now apply N.leb_le|]. unfold usual_size, u32_max. destruct (s_layout s); lia. }
  assert (C : forall c, option_map clean (option_map clean c) = option_map clean c) by (intros [c|]; cbn [option_map]; [now rewrite clean_idem|reflexivity]).
  destruct (b_format b) as [f|]; cbn [merged p_bold p_italic p_underline p_size p_color].
  - rewrite orb_false_r. f_equal. f_equal. f_equal.
    + destruct (bf_size f) as [n|]; cbn [or_default size_ok] in *; [|now rewrite Z]. f_equal. apply wmul_exact. now apply N.leb_le.
    + unfold back_color. destruct (bf_color f); [reflexivity|]. cbn [orelse]. apply C.
  - rewrite Z. unfold back_color. now rewrite C.
Qed.
Definition kept_bullets (l : list bullet) : list bullet := filter (fun b => nonblank (b_text b)) l.
Lemma box_back s d id name x y w h l : d = usual_size s -> size_ok (s_csize s) = true ->
  forallb (fun b => match b_format b with Some f => size_ok (bf_size f) | None => true end) l = true ->
  forallb (fun b => b_level b <=? u32_max)%N l = true ->
  ps_paras (parse_shape (xe (boxE id name x y w h (parasT (content_props s d) l)))) = map (back_bullet s) (kept_bullets l).
Proof.
  intros D S1 S2 L. rewrite box_paras, paras_back; [| |exact L].
  - clear L. induction l as [|b l IH]; [reflexivity|]. cbn [forallb] in S2. apply andb_true_iff in S2 as [S2 S3]. cbn [flat_map kept_bullets filter].
    rewrite (bullet_back_eq s b d D S1 S2), (IH S3). unfold kept_bullets. now destruct (nonblank (b_text b)).
  - unfold content_props, with_basic. cbn [p_size]. unfold wmul. match goal with |- (?a mod ?b <= _)%N => pose proof (N.mod_lt a b) end. unfold u32_max in *. lia.
Qed.
Lemma back_text s b : para_text (back_bullet s b) = b_text b.
Proof. unfold back_bullet, para_text. destruct (b_format b); cbn [runs map r_text]; unfold sconcat; cbn [fold_right]; apply sapp_nil_r. Qed.
Lemma texts_back s l : filter (fun t => negb (String.eqb t "")) (map para_text (map (back_bullet s) (kept_bullets l))) = map b_text (kept_bullets l).
Proof.
  induction l as [|b l IH]; [reflexivity|]. unfold kept_bullets in *. cbn [filter]. destruct (nonblank (b_text b)) eqn:N; [|exact IH].
  cbn [map filter]. rewrite back_text, IH. destruct (String.eqb_spec (b_text b) "") as [E|]; [rewrite E in N; discriminate|reflexivity].
Qed.
(** A list of boxes as the reader sees it. *)
Lemma boxes_back s d ts : d = usual_size s -> size_ok (s_csize s) = true ->
  forall ls, Forall2 (fun t l => (exists id name x y w h, t = boxE id name x y w h (parasT (content_props s d) l) /\ In name ["Content"; "Left Content"; "Right Content"]) /\
    forallb (fun b => match b_format b with Some f => size_ok (bf_size f) | None => true end) l = true /\ forallb (fun b => b_level b <=? u32_max)%N l = true) ts ls ->
  filter is_sp (xts ts) = xts ts /\ filter is_gf (xts ts) = [] /\ (forall e, In e (xts ts) -> is_title_shape e = false)
  /\ flat_map body_in (xts ts) = map b_text (kept_bullets (concat ls))
  /\ flat_map ps_paras (map mark (xts ts)) = map (back_bullet s) (kept_bullets (concat ls))
  /\ Forall (fun p => ps_title p = false /\ ps_body p = true) (map mark (xts ts)).
Proof.
  intros D S ls H. induction H as [|t l ts ls ((id & name & x & y & w & h & -> & N) & A & B) _ IH]; [repeat split; [intros e []|constructor]|].
  destruct IH as (I1 & I2 & I3 & I4 & I5 & I6). set (t := boxE id name x y w h _).
  change (xts (t :: ts)) with (xe t :: xts ts). cbn [filter flat_map map concat].
  assert (T : is_title_shape (xe t) = false /\ is_body_shape (xe t) = true) by (destruct N as [<-|[<-|[<-|[]]]]; split; reflexivity).
  destruct T as [T1 T2]. replace (is_sp (xe t)) with true by reflexivity. replace (is_gf (xe t)) with false by reflexivity.
  pose proof (box_back s d id name x y w h l D S A B) as P. fold t in P.
  assert (K : kept_bullets (l ++ concat ls) = (kept_bullets l ++ kept_bullets (concat ls))%list) by apply filter_app.
  split; [now rewrite I1|]. split; [exact I2|]. split; [intros e [<-|E]; [exact T1|now apply I3]|].
  split; [rewrite I4; unfold body_in; rewrite T1, T2, P, texts_back, K, map_app; reflexivity|].
  split; [rewrite I5, K, map_app; f_equal; unfold mark; rewrite <- P; now destruct (parse_shape (xe t))|].
  constructor; [|exact I6]. unfold mark. destruct (parse_shape (xe t)). rewrite T1, T2. split; reflexivity.
Qed.
Lemma wanted_of s : wanted s = bullets_of s.
Proof. reflexivity. Qed.
Definition bodies_ok (s : slide) (bs : list tpl) : Prop :=
  filter is_gf (xts bs) = match s_layout s, s_table s with TitleAndContent, Some t => [xe (tableT t 3)] | _, _ => [] end
  /\ (forall e, In e (filter is_sp (xts bs)) -> is_title_shape e = false)
  /\ flat_map body_in (filter is_sp (xts bs)) = map b_text (kept_bullets (shown_bullets s))
  /\ flat_map ps_paras (map mark (filter is_sp (xts bs))) = map (back_bullet s) (kept_bullets (shown_bullets s))
  /\ Forall (fun p => ps_title p = false /\ ps_body p = true) (map mark (filter is_sp (xts bs))).
Lemma bodies_back s : slide_fits s = true -> sizes_ok s = true -> bodies_ok s (bodies s).
Proof.
  intros F S. unfold slide_fits in F. rewrite !andb_true_iff in F. destruct F as [[[F _] _] _]. unfold sizes_ok in S. apply andb_true_iff in S as [S1 S2].
  assert (W : forallb (fun b => match b_format b with Some f => size_ok (bf_size f) | None => true end) (wanted s) = true /\ forallb (fun b => b_level b <=? u32_max)%N (wanted s) = true).
  { unfold wanted. destruct (s_bullets s) as [|b l]; [|split; assumption]. split; apply forallb_forall; intros x X; apply in_map_iff in X as (t & <- & _); reflexivity. }
  destruct W as [W1 W2].
  assert (Z : forall ts ls, concat ls = shown_bullets s -> (forall t, s_layout s = TitleAndContent -> s_table s = Some t -> False) ->
    Forall2 (fun t l => (exists id name x y w h, t = boxE id name x y w h (parasT (content_props s (usual_size s)) l) /\ In name ["Content"; "Left Content"; "Right Content"]) /\
    forallb (fun b => match b_format b with Some f => size_ok (bf_size f) | None => true end) l = true /\ forallb (fun b => b_level b <=? u32_max)%N l = true) ts ls -> bodies_ok s ts) by (intros ts ls C NT H; unfold bodies_ok; destruct (boxes_back s (usual_size s) ts eq_refl S1 ls H) as (I1 & I2 & I3 & I4 & I5 & I6); rewrite C in I4, I5; rewrite I1;
       split; [rewrite I2; destruct (s_layout s) eqn:L; try reflexivity; destruct (s_table s) as [t|] eqn:Tb; [elim (NT t); reflexivity|reflexivity]|exact (conj I3 (conj I4 (conj I5 I6)))]).
  assert (half : forall (q : bullet -> bool) n l, forallb q l = true -> forallb q (firstn n l) = true /\ forallb q (skipn n l) = true).
  { intros q n l Q. rewrite <- (firstn_skipn n l), forallb_app in Q. now apply andb_true_iff in Q. }
  unfold bodies. destruct (s_layout s) eqn:L.
  - apply (Z [] []); [unfold shown_bullets; now rewrite L|discriminate|constructor].
  - apply (Z [] []); [unfold shown_bullets; now rewrite L|discriminate|constructor].
  - destruct (s_table s) as [t|] eqn:Tb.
    + unfold bodies_ok, shown_bullets. rewrite L, Tb. repeat split; [intros e []|constructor].
    + rewrite <- wanted_of. assert (SB : shown_bullets s = wanted s) by (unfold shown_bullets; now rewrite L, Tb).
      assert (U : usual_size s = 28%N) by (unfold usual_size; now rewrite L).
      destruct (wanted s) as [|b l] eqn:Wn; [apply (Z [] []); [now rewrite SB|discriminate|constructor]|].
      eapply (Z _ [b :: l]); [rewrite SB; apply app_nil_r|discriminate|]. constructor; [|constructor]. split; [|split; assumption].
      rewrite U. do 6 eexists. split; [reflexivity|now left].
  - rewrite <- wanted_of. assert (SB : shown_bullets s = wanted s) by (unfold shown_bullets; now rewrite L).
    assert (U : usual_size s = 28%N) by (unfold usual_size; now rewrite L).
    destruct (wanted s) as [|b l] eqn:Wn; [apply (Z [] []); [now rewrite SB|discriminate|constructor]|].
    eapply (Z _ [b :: l]); [rewrite SB; apply app_nil_r|discriminate|]. constructor; [|constructor]. split; [|split; assumption].
    rewrite U. do 6 eexists. split; [reflexivity|now left].
  - rewrite <- wanted_of. assert (SB : shown_bullets s = wanted s) by (unfold shown_bullets; now rewrite L).
    assert (U : usual_size s = 24%N) by (unfold usual_size; now rewrite L). rewrite U in Z.
    destruct (half _ (SlideProofs.half (wanted s)) _ W1) as [A1 A2]. destruct (half _ (SlideProofs.half (wanted s)) _ W2) as [B1 B2].
    cbv zeta in *. destruct (Nat.ltb_spec 0 (length (wanted s))) as [LN|LN].
    + destruct (Nat.ltb_spec (SlideProofs.half (wanted s)) (length (wanted s))) as [LH|LH].
      * eapply (Z _ [firstn (SlideProofs.half (wanted s)) (wanted s); skipn (SlideProofs.half (wanted s)) (wanted s)]); [|discriminate|].
        { rewrite SB. cbn [concat]. rewrite app_nil_r. apply firstn_skipn. }
        constructor; [|constructor; [|constructor]]; (split; [|split; assumption]); do 6 eexists; (split; [reflexivity|]); [right; now left|right; right; now left].
      * eapply (Z _ [firstn (SlideProofs.half (wanted s)) (wanted s)]); [|discriminate|].
        { rewrite SB. cbn [concat]. rewrite app_nil_r. apply firstn_all2. exact LH. }
        constructor; [|constructor]. (split; [|split; assumption]); do 6 eexists; (split; [reflexivity|right; now left]).
    + assert (N : wanted s = []) by (apply length_zero_iff_nil; lia). apply (Z [] []); [now rewrite SB, N|discriminate|constructor].
  - apply (Z [] []); [unfold shown_bullets; now rewrite L|discriminate|constructor].
  - apply (Z [] []); [unfold shown_bullets; now rewrite L|discriminate|constructor].
Qed.
Lemma filter_forall {A} (q : A -> bool) l : (forall x, In x l -> q x = true) -> filter q l = l.
Proof. induction l as [|x l IH]; intros H; [reflexivity|]. cbn [filter]. rewrite (H x (or_introl eq_refl)). f_equal. apply IH. intros y Y. apply H. now right. Qed.
Lemma extras_back s rids ink : filter is_sp (xts (extras s rids ink)) = (xts (shapesI s) ++ xts (codesI s))%list
  /\ filter is_gf (xts (extras s rids ink)) = xts (chartsI s rids).
Proof.
  unfold extras. rewrite !xts_app, !filter_app.
  assert (SH : forall q g, (forall k x, q (xe (shapeT x k)) = g) -> filter q (xts (shapesI s)) = if g : bool then xts (shapesI s) else []).
  { intros q g Q. apply each_filter. intros k x. split; [reflexivity|apply Q]. }
  assert (IM : forall q g, (forall x k r, q (xe (imageT x k r)) = g) -> filter q (xts (imagesI s)) = if g : bool then xts (imagesI s) else []).
  { intros q g Q. apply each_filter. intros k x. split; [reflexivity|apply Q]. }
  assert (CO : forall q g, (forall x k, q (xe (codeT x k)) = g) -> filter q (xts (codesI s)) = if g : bool then xts (codesI s) else []).
  { intros q g Q. apply each_filter. intros k x. split; [reflexivity|apply Q]. }
  assert (CN : forall q g, (forall x k, q (xe (full x k)) = g) -> filter q (xts (connsI s)) = if g : bool then xts (connsI s) else []).
  { intros q g Q. apply each_filter. intros k x. split; [reflexivity|apply Q]. }
  assert (CH : forall q g, (forall x k r, q (xe (chartE x k r)) = g) -> filter q (xts (chartsI s rids)) = if g : bool then xts (chartsI s rids) else []).
  { intros q g Q. apply each_filter. intros k x. split; [reflexivity|apply Q]. }
  assert (IK : filter is_sp (xts (inkI s ink)) = [] /\ filter is_gf (xts (inkI s ink)) = []).
  { unfold inkI. destruct ink; [|split; reflexivity]. destruct (s_ink s); split; reflexivity. }
  destruct IK as [K1 K2]. rewrite K1, K2.
  rewrite (SH is_sp true), (IM is_sp false), (CO is_sp true), (CN is_sp false), (CH is_sp false) by reflexivity.
  rewrite (SH is_gf false), (IM is_gf false), (CO is_gf false), (CN is_gf false), (CH is_gf true) by reflexivity.
  cbn [app]. rewrite !app_nil_r. split; reflexivity.
Qed.
Lemma map_each {A} (P : pshape -> A -> Prop) (f : nat -> A -> tpl) l : (forall k x, xt (f k x) = [xe (f k x)]) ->
  (forall k x, In x l -> P (mark (xe (f k x))) x) -> forall k, Forall2 P (map mark (xts (eachT f k l))) l.
Proof.
  intros X H. induction l as [|x l IH]; intros k; [constructor|]. cbn [eachT]. change (xts (f k x :: eachT f (S k) l)) with (app (xt (f k x)) (xts (eachT f (S k) l))).
  rewrite X. cbn [app map]. constructor; [apply H; now left|]. apply IH. intros j y Y. apply H. now right.
Qed.
Lemma slide_back s rids ink : slide_ok s = true -> rids_ok rids ink = true -> slide_fits s = true -> sizes_ok s = true ->
  exists r, parse_slide (slide_xml s rids ink) = Some r /\ given_back s r.
Proof.
  intros K R F S. rewrite (slide_doc s rids ink K R). cbv zeta. eexists. split; [reflexivity|]. unfold given_back. cbn [sl_title sl_body sl_shapes sl_tables].
  unfold items. rewrite !xts_app, !filter_app. destruct (extras_back s rids ink) as [E1 E2]. rewrite E1, E2.
  destruct (titles_back s) as (T1 & T2 & T3 & T4 & T5 & T6). rewrite T2, T3. destruct (bodies_back s F S) as (B1 & B2 & B3 & B4 & B5). rewrite B1.
  unfold slide_fits in F. rewrite !andb_true_iff in F. destruct F as [[[F1 F2] F3] F4].
  assert (SHB : forall k x, In x (s_shapes s) -> is_title_shape (xe (shapeT x k)) = false /\ is_body_shape (xe (shapeT x k)) = false /\ back_shape (mark (xe (shapeT x k))) x).
  { intros k x X. rewrite forallb_forall in F3. specialize (F3 x X). cbn [forallb] in F3. rewrite !andb_true_iff in F3. destruct F3 as (X1 & X2 & X3 & X4 & _).
    apply shape_back; now apply N.leb_le. }
  assert (SH2 : forall e, In e (xts (shapesI s)) -> is_title_shape e = false /\ is_body_shape e = false).
  { intros e E. apply each_xts in E as (j & x & X & ->); [|reflexivity]. destruct (SHB (shape_id_of j x) x X) as (U1 & U2 & _). now split. }
  assert (CO2 : forall e, In e (xts (codesI s)) -> is_title_shape e = false /\ is_body_shape e = false).
  { intros e E. apply each_xts in E as (j & x & X & ->); [|reflexivity]. split; reflexivity. }
  assert (NB : forall l, (forall e, In e l -> is_title_shape e = false /\ is_body_shape e = false) -> flat_map body_in l = [] /\ filter ps_body (map mark l) = []).
  { induction l as [|e l IH]; intros H; [split; reflexivity|]. destruct (H e (or_introl eq_refl)) as [H1 H2]. destruct IH as [I1 I2]; [intros x X; apply H; now right|].
    cbn [flat_map map filter]. rewrite I1, I2. unfold body_in, mark. rewrite H1, H2. destruct (parse_shape e). split; reflexivity. }
  destruct (NB _ SH2) as [SH3 SH4]. destruct (NB _ CO2) as [CO3 CO4].
  split; [rewrite !fold_left_app, T4; rewrite !titles_kept; [reflexivity|..]; [exact B2|intros e E; now apply SH2|intros e E; now apply CO2]|].
  split; [rewrite !flat_map_app, T5, B3, SH3, CO3, !app_nil_r; cbn [app]; unfold kept_bullets; clear; induction (shown_bullets s) as [|b l IH]; [reflexivity|]; cbn [filter map]; destruct (nonblank (b_text b)); cbn [map]; now rewrite IH|].
  split.
  { rewrite !map_app, !filter_app, SH4, CO4, !app_nil_r.
    replace (filter ps_body (map mark (xts (titles s)))) with (@nil pshape).
    2:{ clear -T6. induction T6 as [|p l [_ P] _ IH]; [reflexivity|]. cbn [filter]. now rewrite P. }
    cbn [app]. rewrite filter_forall; [exact B4|]. intros x X. rewrite Forall_forall in B5. now apply B5. }
  split.
  { rewrite !flat_map_app. replace (flat_map parse_table (xts (chartsI s rids))) with (@nil (list (list pcell))).
    2:{ symmetry. assert (H : forall e, In e (xts (chartsI s rids)) -> parse_table e = []).
        { intros e E. apply each_xts in E as (j & x & _ & ->); reflexivity. }
        clear -H. induction (xts (chartsI s rids)) as [|e l IH]; [reflexivity|]. cbn [flat_map]. rewrite (H e (or_introl eq_refl)). apply IH. intros y Y. apply H. now right. }
    rewrite app_nil_r. cbn [flat_map app]. unfold back_tables. destruct (s_layout s); try reflexivity. destruct (s_table s) as [t|]; [|reflexivity]. cbn [flat_map]. rewrite app_nil_r. now apply table_back. }
  exists (map mark (xts (titles s)) ++ map mark (filter is_sp (xts (bodies s))))%list, (map mark (xts (shapesI s))), (map mark (xts (codesI s))).
  split; [now rewrite !map_app, <- !app_assoc|]. split; [|split].
  - apply Forall_app. split; [refine (Forall_impl _ _ T6); intros p [-> _]; reflexivity|refine (Forall_impl _ _ B5); intros p [-> ->]; reflexivity].
  - apply map_each; [reflexivity|]. intros k x X. apply SHB, X.
  - apply map_each; [reflexivity|]. intros k c C. apply code_back. rewrite forallb_forall in F4. now apply F4.
Qed.
