From Coq Require Import String Ascii List Bool Arith NArith ZArith Lia.
From Verif Require Import Str StrRefl Num EscapeModel EscapeProofs XmlSpec XmlProofs XmlTpl OpcSpec GenProofs TplRead XmlPath PathRead ColorModel DocPropsProofs TableModel TableSpec TableProofs ConnectorModel ConnectorSpec ConnectorProofs ChartModel ChartTpl ChartProofs ShapeModel SlideModel SlideSpec SlideInput ElemRead ShapeProofs.
Import ListNotations.
Open Scope nat_scope.
Open Scope string_scope.

(** ** Run properties *)
Lemma optA_raw b k v : attrs_raw (optA b k v) = if b then " " ++ k ++ "=""" ++ v ++ """" else "".
Proof. destruct b; [|reflexivity]. unfold optA, attrs_raw, araw, raws. cbn [map sconcat fold_right fst snd praw]. str_refl. Qed.
Definition baseA (p : props) : list (string * list piece) :=
  if p_sub p then [("baseline", [Lit "-25000"])] else optA (p_super p) "baseline" "30000".
Definition propsA (p : props) : list (string * list piece) :=
  ([("lang", [Lit "en-US"]); ("sz", [Lit (dec (p_size p))]); ("b", [Lit (onezero (p_bold p))]); ("i", [Lit (onezero (p_italic p))]); ("dirty", [Lit "0"])]
   ++ optA (p_underline p) "u" "sng" ++ optA (p_strike p) "strike" "sngStrike" ++ baseA p)%list.
Definition ocolT (o : option string) : list tpl := match o with Some c => [colorT c] | None => [] end.
Definition hiT (o : option string) : list tpl :=
  match o with Some c => [TE "a:highlight" [] [TS "a:srgbClr" [("val", [Lit (clean c)])]]] | None => [] end.
Definition fontT (o : option string) : list tpl :=
  match o with Some f => [TS "a:latin" [("typeface", [Lit f])]; TS "a:cs" [("typeface", [Lit f])]] | None => [] end.
Definition propsT (p : props) : tpl := TE "a:rPr" (propsA p) (ocolT (p_color p) ++ hiT (p_highlight p) ++ fontT (p_font p)).
Lemma ocol_str o : match o with Some c => "<a:solidFill><a:srgbClr val=""" ++ clean c ++ """/></a:solidFill>" | None => "" end = tstrs (ocolT o).
Proof. destruct o; [|reflexivity]. unfold ocolT, colorT. tstr_eq. Qed.
Lemma hi_str o : match o with Some c => "<a:highlight><a:srgbClr val=""" ++ clean c ++ """/></a:highlight>" | None => "" end = tstrs (hiT o).
Proof. destruct o; [|reflexivity]. unfold hiT. tstr_eq. Qed.
Lemma font_str o : match o with Some f => "<a:latin typeface=""" ++ f ++ """/><a:cs typeface=""" ++ f ++ """/>" | None => "" end = tstrs (fontT o).
Proof. destruct o; [|reflexivity]. unfold fontT. tstr_eq. Qed.
Lemma baseA_raw p : attrs_raw (baseA p) = if p_sub p then " baseline=""-25000""" else if p_super p then " baseline=""30000""" else "".
Proof. unfold baseA. destruct (p_sub p), (p_super p); reflexivity. Qed.
Lemma props_str p : props_xml p = tstr (propsT p).
Proof.
  unfold props_xml, propsT, propsA. rewrite ocol_str, hi_str, font_str.
  generalize (ocolT (p_color p)) (hiT (p_highlight p)) (fontT (p_font p)). intros x y z.
  cbn [tstr]. rewrite !map_app, !sconcat_app. fold (tstrs x) (tstrs y) (tstrs z). rewrite !attrs_app, !optA_raw, baseA_raw.
  generalize (tstrs x) (tstrs y) (tstrs z). intros u v w.
  destruct (p_underline p), (p_strike p), (p_sub p); [..|destruct (p_super p)]; try (destruct (p_super p)); tstr_eq.
Qed.
Definition textP (size : N) (b i u : bool) (c : option string) : tpl :=
  TE "a:rPr" ([("lang", [Lit "en-US"]); ("sz", [Lit (dec size)]); ("b", [Lit (onezero b)]); ("i", [Lit (onezero i)]); ("dirty", [Lit "0"])] ++ optA u "u" "sng") (ocolT c).
Lemma textP_str size b i u c : text_props size b i u c = tstr (textP size b i u c).
Proof.
  unfold text_props, textP. rewrite ocol_str. generalize (ocolT c). intros x. cbn [tstr]. rewrite !attrs_app, optA_raw. fold (tstrs x).
  generalize (tstrs x). intros y. destruct u; tstr_eq.
Qed.
Definition merged (d : props) (f : option bullet_format) : props :=
  match f with
  | Some f => Props (match bf_size f with Some s => wmul u32_max s 100 | None => p_size d end)
      (bf_bold f || p_bold d) (bf_italic f || p_italic d) (bf_underline f || p_underline d)
      (bf_strike f) (bf_sub f) (bf_super f) (orelse (bf_color f) (p_color d)) (bf_highlight f) (orelse (bf_font f) (p_font d))
  | None => d
  end.
Lemma merged_eq d f : bullet_props d f = props_xml (merged d f).
Proof. now destruct f. Qed.

(** ** Bullets *)
Definition buT (s : bullet_style) : tpl :=
  match s with
  | Bullet => (TS "a:buChar" [("char", [Lit "•"])])
  | Number => (TS "a:buAutoNum" [("type", [Lit "arabicPeriod"])])
  | LetterLower => (TS "a:buAutoNum" [("type", [Lit "alphaLcPeriod"])])
  | LetterUpper => (TS "a:buAutoNum" [("type", [Lit "alphaUcPeriod"])])
  | RomanLower => (TS "a:buAutoNum" [("type", [Lit "romanLcPeriod"])])
  | RomanUpper => (TS "a:buAutoNum" [("type", [Lit "romanUcPeriod"])])
  | Custom ch => (TS "a:buChar" [("char", [Lit ch])])
  | NoBullet => (TS "a:buNone" [])
  end.
Lemma bu_str s : bullet_xml s = tstr (buT s).
Proof. destruct s; unfold bullet_xml, buT; tstr_eq. Qed.
Definition paraE (lvl mar ind : string) (bu pr : tpl) (t : string) : tpl :=
  (TE "a:p" [] [TT [Lit "
"]; TE "a:pPr" [("lvl", [Lit lvl]); ("marL", [Lit mar]); ("indent", [Lit "-"; Lit ind])] ([TT [Lit "
"]] ++ ([bu]) ++ [TT [Lit "
"]])%list; TT [Lit "
"]; TE "a:r" [] ([TT [Lit "
"]] ++ ([pr]) ++ [TT [Lit "
"]; TE "a:t" [] [TT [Esc t]]; TT [Lit "
"]])%list; TT [Lit "
"]]).
Definition indent_of (b : bullet) : N := wadd u32_max 457200 (wmul u32_max (b_level b) 457200).
Definition paraT (d : props) (b : bullet) : tpl :=
  paraE (dec (b_level b)) (dec (wadd u32_max (wmul u32_max (b_level b) 457200) (indent_of b))) (dec (indent_of b)) (buT (b_style b)) (propsT (merged d (b_format b))) (b_text b).
Lemma para_str d b : bullet_paragraph d b = nl ++ tstr (paraT d b).
Proof.
  unfold bullet_paragraph, paraT. cbv zeta. rewrite merged_eq, props_str, bu_str. fold (indent_of b).
  generalize (propsT (merged d (b_format b))) (buT (b_style b)) (dec (indent_of b)) (dec (wadd u32_max (wmul u32_max (b_level b) 457200) (indent_of b))) (dec (b_level b)).
  intros x y m i l. unfold paraE. tblock. generalize (tstr x) (tstr y). intros u v. tstr_eq.
Qed.

(** ** A list of items, each after a line feed *)
Definition nls (l : list tpl) : list tpl := flat_map (fun t => [nlT; t]) l.
Lemma nls_app a b : nls (a ++ b) = (nls a ++ nls b)%list.
Proof. apply flat_map_app'. Qed.
Lemma nls_cons_str t l : tstrs (nls (t :: l)) = nl ++ tstr t ++ tstrs (nls l).
Proof. unfold tstrs. cbn [nls flat_map app map]. rewrite !sconcat_cons. unfold nlT. cbn [tstr]. unfold raws. cbn [map praw sconcat fold_right]. rewrite sapp_nil_r. reflexivity. Qed.
Lemma tstrs_app' a b : tstrs (a ++ b) = tstrs a ++ tstrs b.
Proof. unfold tstrs. now rewrite map_app, sconcat_app. Qed.
Lemma nls_app_str a b : tstrs (nls (a ++ b)) = tstrs (nls a) ++ tstrs (nls b).
Proof. now rewrite nls_app, tstrs_app'. Qed.
Lemma nls_one_str t : tstrs (nls [t]) = nl ++ tstr t.
Proof. rewrite nls_cons_str. cbn [nls flat_map]. unfold tstrs. cbn [map sconcat fold_right]. now rewrite sapp_nil_r. Qed.
Lemma nl_each_str {A} (f : nat -> A -> string) (g : nat -> A -> tpl) l : (forall k x, f k x = tstr (g k x)) ->
  nl_each f l = tstrs (nls (eachT g 0 l)).
Proof.
  intros H. unfold nl_each. generalize 0. induction l as [|x l IH]; intros k; [reflexivity|]. cbn [each_push eachT].
  rewrite nls_cons_str, IH, H. now rewrite sapp_assoc.
Qed.
Lemma nls_toks l : toks l -> toks (nls l).
Proof. induction l as [|t l IH]; [trivial|]. intros [A B]. cbn [nls flat_map app]. split; [apply nlT_tok|]. split; [exact A|now apply IH]. Qed.
Lemma nls_map_str {A} (f : A -> string) (g : A -> tpl) l : (forall x, f x = nl ++ tstr (g x)) -> sconcat (map f l) = tstrs (nls (map g l)).
Proof. intros H. induction l as [|x l IH]; [reflexivity|]. cbn [map]. rewrite sconcat_cons, nls_cons_str, IH, H. now rewrite sapp_assoc. Qed.

(** ** Title and content shapes *)
Definition titleE (x y w h : N) (align : string) (pr : tpl) (t : string) : tpl :=
  (TE "p:sp" [] [TT [Lit "
"]; TE "p:nvSpPr" [] [TT [Lit "
"]; TS "p:cNvPr" [("id", [Lit "2"]); ("name", [Lit "Title"])]; TT [Lit "
"]; TS "p:cNvSpPr" [("txBox", [Lit "1"])]; TT [Lit "
"]; TS "p:nvPr" []; TT [Lit "
"]]; TT [Lit "
"]; TE "p:spPr" [] [TT [Lit "
"]; TE "a:xfrm" [] [TT [Lit "
"]; TS "a:off" [("x", [Lit (dec x)]); ("y", [Lit (dec y)])]; TT [Lit "
"]; TS "a:ext" [("cx", [Lit (dec w)]); ("cy", [Lit (dec h)])]; TT [Lit "
"]]; TT [Lit "
"]; TE "a:prstGeom" [("prst", [Lit "rect"])] [TS "a:avLst" []]; TT [Lit "
"]; TS "a:noFill" []; TT [Lit "
"]]; TT [Lit "
"]; TE "p:txBody" [] [TT [Lit "
"]; TS "a:bodyPr" [("wrap", [Lit "square"]); ("rtlCol", [Lit "0"]); ("anchor", [Lit "ctr"])]; TT [Lit "
"]; TS "a:lstStyle" []; TT [Lit "
"]; TE "a:p" [] [TT [Lit "
"]; TS "a:pPr" [("algn", [Lit align])]; TT [Lit "
"]; TE "a:r" [] ([TT [Lit "
"]] ++ ([pr]) ++ [TT [Lit "
"]; TE "a:t" [] [TT [Esc t]]; TT [Lit "
"]])%list; TT [Lit "
"]]; TT [Lit "
"]]; TT [Lit "
"]]).
Lemma title_str x y w h align pr t : title_shape (escape_xml t) (tstr pr) x y w h align = tstr (titleE x y w h align pr t).
Proof. unfold title_shape, titleE. tblock. generalize (tstr pr). intros u. tstr_eq. Qed.
Definition titleP (s : slide) (size : N) (bold : bool) : tpl :=
  textP (wmul u32_max (match s_tsize s with Some n => n | None => size end) 100) bold (s_titalic s) (s_tunder s) (s_tcolor s).
Lemma titleP_str s size bold : title_props s size bold = tstr (titleP s size bold).
Proof. apply textP_str. Qed.
Definition boxE (id name : string) (x y w h : string) (ps : list tpl) : tpl :=
  (TE "p:sp" [] [TT [Lit "
"]; TE "p:nvSpPr" [] [TT [Lit "
"]; TS "p:cNvPr" [("id", [Lit id]); ("name", [Lit name])]; TT [Lit "
"]; TS "p:cNvSpPr" [("txBox", [Lit "1"])]; TT [Lit "
"]; TS "p:nvPr" []; TT [Lit "
"]]; TT [Lit "
"]; TE "p:spPr" [] [TT [Lit "
"]; TE "a:xfrm" [] [TT [Lit "
"]; TS "a:off" [("x", [Lit x]); ("y", [Lit y])]; TT [Lit "
"]; TS "a:ext" [("cx", [Lit w]); ("cy", [Lit h])]; TT [Lit "
"]]; TT [Lit "
"]; TE "a:prstGeom" [("prst", [Lit "rect"])] [TS "a:avLst" []]; TT [Lit "
"]; TS "a:noFill" []; TT [Lit "
"]]; TT [Lit "
"]; TE "p:txBody" [] ([TT [Lit "
"]; TS "a:bodyPr" [("wrap", [Lit "square"]); ("rtlCol", [Lit "0"])]; TT [Lit "
"]; TS "a:lstStyle" []] ++ (ps) ++ [TT [Lit "
"]])%list; TT [Lit "
"]]).
Lemma box_str id name x y w h ps : tstr (boxE id name x y w h ps) =
  ("<p:sp>
<p:nvSpPr>
<p:cNvPr id=""" ++ id ++ """ name=""" ++ name ++ """/>
<p:cNvSpPr txBox=""1""/>
<p:nvPr/>
</p:nvSpPr>
<p:spPr>
<a:xfrm>
<a:off x=""" ++ x ++ """ y=""" ++ y ++ """/>
<a:ext cx=""" ++ w ++ """ cy=""" ++ h ++ """/>
</a:xfrm>
<a:prstGeom prst=""rect""><a:avLst/></a:prstGeom>
<a:noFill/>
</p:spPr>
<p:txBody>
<a:bodyPr wrap=""square"" rtlCol=""0""/>
<a:lstStyle/>" ++ tstrs ps ++ "
</p:txBody>
</p:sp>").
Proof. unfold boxE. tblock. generalize (tstrs ps). intros u. tstr_eq. Qed.
Definition parasT (d : props) (l : list bullet) : list tpl := nls (map (paraT d) l).
Lemma paras_str d l : paragraphs d l = tstrs (parasT d l).
Proof. unfold paragraphs, parasT. apply nls_map_str. apply para_str. Qed.

(** What each layout puts on the slide before the additional content. *)
Definition half (l : list bullet) : nat := (length l + 1) / 2.
Definition titles (s : slide) : list tpl :=
  match s_layout s with
  | Blank => []
  | TitleOnly => [titleE 457200 274638 8230200 1143000 "l" (titleP s 44 (s_tbold s)) (s_title s)]
  | SectionHeader => [titleE 457200 1600200 8229600 1828800 "ctr" (titleP s 48 true) (s_title s)]
  | CenteredTitle => [titleE 457200 2743200 8230200 1371600 "ctr" (titleP s 54 (s_tbold s)) (s_title s)]
  | TitleAndBigContent | TwoColumn => [titleE 457200 274638 8230200 914400 "l" (titleP s 44 (s_tbold s)) (s_title s)]
  | TitleAndContent => [titleE 457200 274638 8230200 1143000 "l" (titleP s 44 (s_tbold s)) (s_title s)]
  end.
Definition bodies (s : slide) : list tpl :=
  match s_layout s with
  | TitleAndBigContent =>
      match bullets_of s with [] => [] | l => [boxE "3" "Content" "457200" "1189200" "8230200" "5668800" (parasT (content_props s 28) l)] end
  | TwoColumn =>
      let l := bullets_of s in
      if Nat.ltb 0 (length l) then
        boxE "3" "Left Content" "457200" "1189200" "4115100" "5668800" (parasT (content_props s 24) (firstn (half l) l))
        :: (if Nat.ltb (half l) (length l) then [boxE "4" "Right Content" "4572300" "1189200" "4115100" "5668800" (parasT (content_props s 24) (skipn (half l) l))] else [])
      else []
  | TitleAndContent =>
      match s_table s with
      | Some t => [tableT t 3]
      | None => match bullets_of s with [] => [] | l => [boxE "3" "Content" "457200" "1600200" "8230200" "4572000" (parasT (content_props s 28) l)] end
      end
  | _ => []
  end.
Definition shape_id_of (i : nat) (x : shape) : N := match sh_id x with Some n => n | None => (N.of_nat (i + 10) mod (u32_max + 1))%N end.
Definition rel0 (s : slide) : nat := 2 + match s_notes s with Some _ => 1 | None => 0 end.
Definition shapesI (s : slide) : list tpl := eachT (fun i x => shapeT x (shape_id_of i x)) 0 (s_shapes s).
Definition imagesI (s : slide) : list tpl := eachT (fun i x => imageT x (N.of_nat (20 + length (s_shapes s) + i)) (N.of_nat (rel0 s + i))) 0 (s_images s).
Definition codesI (s : slide) : list tpl := eachT (fun i x => codeT x (N.of_nat (30 + length (s_shapes s) + length (s_images s) + i))) 0 (s_code s).
Definition connsI (s : slide) : list tpl :=
  eachT (fun i x => full x (N.of_nat (50 + length (s_shapes s) + length (s_images s) + length (s_code s) + i))) 0 (s_connectors s).
Definition chartsI (s : slide) (rids : list string) : list tpl :=
  eachT (fun i (x : chart * string) => chartE (fst x) (N.of_nat (100 + length (s_shapes s) + length (s_images s) + length (s_code s) + length (s_connectors s) + i)) (snd x)) 0 (combine (s_charts s) rids).
Definition inkE (r : string) : tpl := (TE "mc:AlternateContent" [("xmlns:mc", [Lit "http://schemas.openxmlformats.org/markup-compatibility/2006"])] [TE "mc:Choice" [("Requires", [Lit "p14"])] [TS "p:contentPart" [("xmlns:r", [Lit "http://schemas.openxmlformats.org/officeDocument/2006/relationships"]); ("r:id", [Lit r])]]]).
Definition inkI (s : slide) (ink : option string) : list tpl := match ink with Some r => if s_ink s then [inkE r] else [] | None => [] end.
Definition extras (s : slide) (rids : list string) (ink : option string) : list tpl :=
  (shapesI s ++ imagesI s ++ codesI s ++ connsI s ++ chartsI s rids ++ inkI s ink)%list.
Definition items (s : slide) (rids : list string) (ink : option string) : list tpl := (titles s ++ bodies s ++ extras s rids ink)%list.

Lemma charts_str b rids : forall l k,
  each_push (fun i x => match nth_error rids i with Some r => nl ++ chart_ref_xml x r (N.of_nat (b + i)) | None => "" end) k l
  = tstrs (nls (eachT (fun i (x : chart * string) => chartE (fst x) (N.of_nat (b + i)) (snd x)) k (combine l (skipn k rids)))).
Proof.
  induction l as [|c l IH]; intros k; [reflexivity|]. cbn [each_push]. rewrite IH.
  destruct (nth_error rids k) as [r|] eqn:E.
  - assert (K : skipn k rids = r :: skipn (S k) rids).
    { clear -E. revert k E. induction rids as [|a rids IH]; intros [|k] E; try discriminate; [injection E as ->; reflexivity|]. cbn [skipn]. apply IH, E. }
    rewrite K. cbn [combine eachT fst snd]. rewrite nls_cons_str, chart_ref_str. now rewrite sapp_assoc.
  - apply nth_error_None in E. rewrite !skipn_all2 by lia. destruct l; reflexivity.
Qed.
Lemma extras_str s rids ink : extra s rids ink = tstrs (nls (extras s rids ink)).
Proof.
  unfold extra, extras. cbv zeta. rewrite !nls_app_str. f_equal; [apply nl_each_str; intros; apply shape_str|].
  f_equal; [apply nl_each_str; intros; apply image_str|]. f_equal; [apply nl_each_str; intros; apply code_str|].
  f_equal; [apply nl_each_str; intros; apply full_str|]. f_equal; [unfold chartsI; now rewrite charts_str|].
  unfold inkI. destruct ink as [r|]; [|reflexivity]. destruct (s_ink s); [|reflexivity]. rewrite nls_one_str. f_equal. unfold inkE. tstr_eq.
Qed.
Definition layout_xml (s : slide) rids ink : string :=
  match s_layout s with
  | Blank => blank_slide s rids ink
  | TitleOnly => title_only_slide s rids ink
  | CenteredTitle => centered_title_slide s rids ink
  | TitleAndBigContent => big_content_slide s rids ink
  | TwoColumn => two_column_slide s rids ink
  | SectionHeader => section_header_slide s rids ink
  | TitleAndContent => title_and_content_slide s rids ink
  end.
Lemma layout_str s rids ink : layout_xml s rids ink = SLIDE_HEADER ++ tstrs (nls (items s rids ink)) ++ SLIDE_FOOTER.
Proof.
  assert (TT : forall pr, ((("
<p:sp>
<p:nvSpPr>
<p:cNvPr id=""2"" name=""Title""/>
<p:cNvSpPr txBox=""1""/>
<p:nvPr/>
</p:nvSpPr>
<p:spPr>
<a:xfrm>
<a:off x=""457200"" y=""274638""/>
<a:ext cx=""8230200"" cy=""914400""/>
</a:xfrm>
<a:prstGeom prst=""rect""><a:avLst/></a:prstGeom>
<a:noFill/>
</p:spPr>
<p:txBody>
<a:bodyPr wrap=""square"" rtlCol=""0"" anchor=""ctr""/>
<a:lstStyle/>
<a:p>
<a:pPr algn=""l""/>
<a:r>
" ++ tstr pr ++ "
<a:t>" ++ escape_xml (s_title s) ++ "</a:t>
</a:r>
</a:p>
</p:txBody>
</p:sp>") = nl ++ tstr (titleE 457200 274638 8230200 914400 "l" pr (s_title s))) /\
     ("
<p:sp>
<p:nvSpPr>
<p:cNvPr id=""2"" name=""Title""/>
<p:cNvSpPr txBox=""1""/>
<p:nvPr/>
</p:nvSpPr>
<p:spPr>
<a:xfrm>
<a:off x=""457200"" y=""274638""/>
<a:ext cx=""8230200"" cy=""1143000""/>
</a:xfrm>
<a:prstGeom prst=""rect""><a:avLst/></a:prstGeom>
<a:noFill/>
</p:spPr>
<p:txBody>
<a:bodyPr wrap=""square"" rtlCol=""0"" anchor=""ctr""/>
<a:lstStyle/>
<a:p>
<a:pPr algn=""l""/>
<a:r>
" ++ tstr pr ++ "
<a:t>" ++ escape_xml (s_title s) ++ "</a:t>
</a:r>
</a:p>
</p:txBody>
</p:sp>") = nl ++ tstr (titleE 457200 274638 8230200 1143000 "l" pr (s_title s)))).
  { intros pr. split; rewrite <- title_str; unfold title_shape;
    change (dec 457200) with "457200"; change (dec 274638) with "274638"; change (dec 8230200) with "8230200"; change (dec 914400) with "914400"; change (dec 1143000) with "1143000";
    generalize (tstr pr), (escape_xml (s_title s)); intros; str_refl. }
  unfold layout_xml, items. rewrite !nls_app_str, <- extras_str.
  unfold titles, bodies. destruct (s_layout s) eqn:L;
    unfold blank_slide, title_only_slide, centered_title_slide, big_content_slide, two_column_slide, section_header_slide, title_and_content_slide; cbv zeta;
    generalize (extra s rids ink) as e; intros e; rewrite ?titleP_str, ?title_str.
  all: change (tstrs (nls [])) with "".
  1,2,6,7: rewrite ?nls_one_str; cbn [append]; rewrite ?sapp_assoc; reflexivity.
  - rewrite (proj2 (TT _)), nls_one_str. rewrite !sapp_assoc. do 3 f_equal.
    destruct (s_table s) as [t|]; [rewrite nls_one_str, table_str; now rewrite !sapp_assoc|].
    destruct (bullets_of s) as [|b l]; [reflexivity|]. generalize (b :: l). intros k. rewrite nls_one_str, box_str, paras_str.
    f_equal; generalize (tstrs (parasT (content_props s 28) k)); intros u; str_refl.
  - rewrite (proj1 (TT _)), nls_one_str. rewrite !sapp_assoc. do 3 f_equal.
    destruct (bullets_of s) as [|b l]; [reflexivity|]. generalize (b :: l). intros k. rewrite nls_one_str, box_str, paras_str.
    f_equal; generalize (tstrs (parasT (content_props s 28) k)); intros u; str_refl.
  - rewrite (proj1 (TT _)), nls_one_str. rewrite !sapp_assoc. do 3 f_equal.
    generalize (bullets_of s). intros l. fold (half l). destruct (Nat.ltb 0 (length l)); [|reflexivity].
    rewrite nls_cons_str, box_str, !paras_str.
    destruct (Nat.ltb (half l) (length l)).
    + rewrite nls_one_str, box_str. f_equal; generalize (tstrs (parasT (content_props s 24) (firstn (half l) l))), (tstrs (parasT (content_props s 24) (skipn (half l) l))); intros u v; str_refl.
    + change (tstrs (nls [])) with "". f_equal; generalize (tstrs (parasT (content_props s 24) (firstn (half l) l))); intros u; str_refl.
Qed.
