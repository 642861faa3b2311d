From Coq Require Import String Ascii List Bool Arith NArith ZArith Lia.
From Verif Require Import GeomSpec GeomProofs ListingProofs Str StrRefl Num XmlSpec XmlProofs XmlTpl TplRead XmlTreeModel XmlTreeSpec XmlTreeProofs TplTree
  ColorModel MergeModel TableModel TableProofs ConnectorModel ConnectorProofs ChartModel ShapeModel ShapeProofs SlideModel SlideProofs SlideRead SlideSpec SlideInput SlideWant ReaderModel SlideBackSpec.
Import ListNotations.
Open Scope nat_scope.
Open Scope string_scope.
Local Arguments String.append _ _ : simpl nomatch.

(** ** Searching below a list of elements *)
Fixpoint fd (n : string) (l : list xel) : option xel :=
  match l with
  | [] => None
  | c :: l => if String.eqb (local_name c) n then Some c else match find_descendant n c with Some f => Some f | None => fd n l end
  end.
Lemma fd_eq n t l a ks x : find_descendant n (XE t l a ks x) = fd n ks.
Proof. cbn [find_descendant]. induction ks as [|c ks IH]; [reflexivity|]. cbn [fd]. now rewrite IH. Qed.
Lemma fd_app n a b : fd n (a ++ b) = match fd n a with Some x => Some x | None => fd n b end.
Proof. induction a as [|c a IH]; [reflexivity|]. cbn [app fd]. destruct (String.eqb (local_name c) n); [reflexivity|]. now destruct (find_descendant n c). Qed.
Lemma fd_none n l : (forall c, In c l -> String.eqb (local_name c) n = false /\ find_descendant n c = None) -> fd n l = None.
Proof.
  induction l as [|c l IH]; intros H; [reflexivity|]. cbn [fd]. destruct (H c (or_introl eq_refl)) as [-> ->].
  apply IH. intros d D. apply H. now right.
Qed.
(** ** Folding over the shapes *)
Definition mark (sp : xel) : pshape :=
  let '(PShape n t ps x y w h _ _) := parse_shape sp in PShape n t ps x y w h (is_title_shape sp) (negb (is_title_shape sp) && is_body_shape sp).
Definition title_in (o : option string) (sp : xel) : option string := if is_title_shape sp then Some (pshape_text (parse_shape sp)) else o.
Definition body_in (sp : xel) : list string :=
  if is_title_shape sp then [] else if is_body_shape sp then filter (fun t => negb (String.eqb t "")) (map para_text (ps_paras (parse_shape sp))) else [].
Lemma fold_shapes l : forall s, fold_left add_shape l s =
  PSlide (sl_shapes s ++ map mark l) (sl_tables s) (fold_left title_in l (sl_title s)) (sl_body s ++ flat_map body_in l)%list.
Proof.
  induction l as [|sp l IH]; intros s; [cbn; rewrite !app_nil_r; now destruct s|].
  cbn [fold_left map flat_map]. rewrite IH. unfold add_shape, mark, title_in, body_in.
  assert (PT : forall n t ps x y w h a b, pshape_text (PShape n t ps x y w h a b) = sjoin nl (map para_text ps)) by reflexivity.
  destruct (parse_shape sp) as [n t ps x y w h a b]. destruct (is_title_shape sp); [|destruct (is_body_shape sp)]; cbn [sl_shapes sl_tables sl_title sl_body ps_paras negb andb];
    rewrite ?PT, <- ?app_assoc; reflexivity.
Qed.
Lemma titles_kept l o : (forall sp, In sp l -> is_title_shape sp = false) -> fold_left title_in l o = o.
Proof.
  induction l as [|sp l IH]; intros H; [reflexivity|]. cbn [fold_left]. unfold title_in at 2. rewrite (H sp (or_introl eq_refl)).
  apply IH. intros q Q. apply H. now right.
Qed.
(** ** The document *)
Definition xe (t : tpl) : xel := match xt t with e :: _ => e | [] => xel_new "" end.
Definition is_sp (e : xel) : bool := String.eqb (local_name e) "sp".
Definition is_gf (e : xel) : bool := String.eqb (local_name e) "graphicFrame".
Lemma xts_nls l : xts (nls l) = xts l.
Proof. induction l as [|t l IH]; [reflexivity|]. change (xts (nls (t :: l))) with (app (xt t) (xts (nls l))). now rewrite IH. Qed.
Lemma tree_doc its tr : exists e1 e2 n l a x, bind (tree (tnode (rootE its tr))) (find_descendant "spTree") = Some (XE n l a (e1 ++ xts its ++ e2) x)
  /\ filter is_sp e1 = [] /\ filter is_gf e1 = [] /\ e2 = [].
Proof.
  unfold rootE. rewrite tree_tnode. unfold bind. rewrite fd_eq.
  match goal with |- context [TE "p:spTree" ?a (?f ++ its ++ ?g)] => exists (xts f), (xts g), "p:spTree", "spTree", (xattrs a); eexists end.
  split; [|split; [|split]; reflexivity].
  unfold xts at 1. cbn [flat_map xt app]. rewrite !flat_map_app. reflexivity.
Qed.
Lemma slide_doc s rids ink : slide_ok s = true -> rids_ok rids ink = true ->
  parse_slide (slide_xml s rids ink) =
  let l := filter is_sp (xts (items s rids ink)) in
  Some (PSlide (map mark l) (flat_map parse_table (filter is_gf (xts (items s rids ink)))) (fold_left title_in l None) (flat_map body_in l)).
Proof.
  intros K R. unfold rids_ok in R. apply andb_true_iff in R as [R1 R2].
  unfold parse_slide. pose proof (slide_read s rids ink K R1 R2) as E. unfold slideT in E.
  destruct (tree_doc (nls (items s rids ink)) (transT (s_transition s))) as (e1 & e2 & m & l & x & y & F & A & B & C). rewrite xts_nls in F.
  set (r := rootE _ _) in *.
  assert (exists n a b, r = TE n a b) as (n & a & b & Hr) by (unfold r, rootE; eauto). clearbody r. subst r. cbn [tnode] in E, F.
  rewrite (parse_tree _ _ _ _ E). destruct (tree _) as [root|]; [|discriminate]. cbn [bind] in F. rewrite F. cbv zeta.
  assert (G : forall q, filter q e1 = [] -> filter q (e1 ++ xts (items s rids ink) ++ e2)%list = filter q (xts (items s rids ink))).
  { intros q Q. now rewrite C, app_nil_r, filter_app, Q. }
  unfold find_all. cbn [kids]. fold is_sp is_gf. rewrite !G by assumption. rewrite fold_shapes. reflexivity.
Qed.
(** ** Runs and paragraphs *)
Lemma vals_lit s : vals [Lit s] = s.
Proof. apply sapp_nil_r. Qed.
Lemma vals_esc s : vals [Esc s] = s.
Proof. apply sapp_nil_r. Qed.
Definition rpr (e : xel) : string -> run := fun t =>
  Run t (flag e "b") (flag e "i") (match attr_of "u" e with Some _ => true | None => false end)
        (bind (attr_of "sz" e) (parse_uint u32_max)) (bind (bind (find_descendant "solidFill" e) (find_child "srgbClr")) (attr_of "val")).
Lemma run_at n l a x e tn ta t rest : local_name e = "rPr" ->
  parse_run (XE n l a (e :: XE tn "t" ta [] (if blank t then "" else t) :: rest) x) = if blank t then [] else [rpr e t].
Proof.
  intros E. unfold parse_run, find_child. cbn [kids find]. rewrite E. cbn [String.eqb Ascii.eqb Bool.eqb].
  cbn [local_name]. rewrite String.eqb_refl. rewrite text_content_eq. cbn [text kids map sconcat fold_right]. unfold sconcat. cbn [fold_right]. rewrite sapp_nil_r.
  destruct (blank t) eqn:B; [reflexivity|]. destruct (String.eqb_spec t "") as [->|]; [discriminate|]. reflexivity.
Qed.
Lemma textP_props size b i u c : textP size b i u c = propsT (Props size b i u false false false c None None).
Proof. unfold textP, propsT, propsA, baseA. cbn [p_size p_bold p_italic p_underline p_strike p_sub p_super p_color p_highlight p_font hiT fontT]. unfold optA. destruct u; cbn [app]; rewrite ?app_nil_r; reflexivity. Qed.
Lemma upper_idem c : upper (upper c) = upper c.
Proof. destruct c as [[] [] [] [] [] [] [] []]; reflexivity. Qed.
Lemma clean_idem c : clean (clean c) = clean c.
Proof.
  assert (I : forall s, smap (fun c => s1 (upper c)) (smap (fun c => s1 (upper c)) s) = smap (fun c => s1 (upper c)) s).
  { induction s as [|x s IH]; [reflexivity|]. cbn [smap]. unfold s1 in *. cbn [append smap]. rewrite upper_idem. cbn [append]. now rewrite IH. }
  unfold clean. assert (T : forall s, trim_start_by is_hash (smap (fun c => s1 (upper c)) (trim_start_by is_hash s)) = smap (fun c => s1 (upper c)) (trim_start_by is_hash s)).
  { induction s as [|x s IH]; [reflexivity|]. cbn [trim_start_by]. destruct (is_hash x) eqn:H; [exact IH|]. cbn [smap]. unfold s1. cbn [append trim_start_by].
    replace (is_hash (upper x)) with false; [reflexivity|]. symmetry. revert H. destruct x as [[] [] [] [] [] [] [] []]; vm_compute; congruence. }
  now rewrite T, I.
Qed.
Lemma rpr_name p : local_name (xe (propsT p)) = "rPr".
Proof. reflexivity. Qed.
Lemma rpr_props p t : (p_size p <= u32_max)%N ->
  rpr (xe (propsT p)) t = Run t (p_bold p) (p_italic p) (p_underline p) (Some (p_size p)) (option_map clean (p_color p)).
Proof.
  intros H. unfold rpr.
  assert (A : attr_of "sz" (xe (propsT p)) = Some (dec (p_size p) ++ "") /\ attr_of "b" (xe (propsT p)) = Some (onezero (p_bold p) ++ "")
    /\ attr_of "i" (xe (propsT p)) = Some (onezero (p_italic p) ++ "") /\ attr_of "u" (xe (propsT p)) = if p_underline p then Some "sng" else None).
  { unfold xe, propsT. cbn [xt]. unfold attr_of. cbn [attributes]. unfold xattrs, attrs_val, propsA, baseA, optA.
    destruct (p_underline p), (p_strike p), (p_sub p); try destruct (p_super p); repeat split; reflexivity. }
  rewrite !sapp_nil_r in A. destruct A as (A1 & A2 & A3 & A4). unfold flag. rewrite A1, A2, A3, A4. cbn [bind]. rewrite parse_uint_dec by exact H.
  assert (B : bind (bind (find_descendant "solidFill" (xe (propsT p))) (find_child "srgbClr")) (attr_of "val") = option_map clean (p_color p)).
  { unfold xe, propsT. cbn [xt]. rewrite fd_eq, !flat_map_app, !fd_app. destruct (p_color p) as [c|]; cbn [ocolT flat_map app].
    - unfold colorT. cbn [xt fd local_name]. replace (String.eqb (local "a:solidFill") "solidFill") with true by reflexivity. cbn [bind option_map].
      transitivity (Some (clean c ++ "")); [reflexivity|now rewrite sapp_nil_r].
    - cbn [fd]. destruct (p_highlight p), (p_font p); reflexivity. }
  rewrite B. destruct (p_bold p), (p_italic p), (p_underline p); reflexivity.
Qed.
Lemma para_back lvl mar ind bu p t : (lvl <= u32_max)%N -> (p_size p <= u32_max)%N ->
  parse_para (xe (paraE (dec lvl) mar ind bu (propsT p) t)) =
  if blank t then [] else [Para [Run t (p_bold p) (p_italic p) (p_underline p) (Some (p_size p)) (option_map clean (p_color p))] lvl].
Proof.
  intros L S. rewrite <- (rpr_props p t S). unfold parse_para.
  assert (A : bind (find_child "pPr" (xe (paraE (dec lvl) mar ind bu (propsT p) t))) (attr_of "lvl") = Some (dec lvl)).
  { transitivity (Some (dec lvl ++ "")); [reflexivity|now rewrite sapp_nil_r]. }
  assert (B : flat_map parse_run (find_all "r" (xe (paraE (dec lvl) mar ind bu (propsT p) t))) = if blank t then [] else [rpr (xe (propsT p)) t]).
  { transitivity (if blank (vals [Esc t]) then [] else [rpr (xe (propsT p)) (vals [Esc t])]); [|now rewrite vals_esc]. unfold xe at 1, paraE. cbn [xt app flat_map]. unfold find_all. cbn [kids filter local_name].
    replace (String.eqb (local "a:pPr") "r") with false by reflexivity. replace (String.eqb (local "a:r") "r") with true by reflexivity.
    rewrite leaf_text. change (flat_map parse_run [?x]) with (app (parse_run x) []). rewrite app_nil_r.
    change (local "a:t") with "t". fold (xe (propsT p)).
    exact (run_at _ _ _ _ (xe (propsT p)) _ _ (vals [Esc t]) [] (rpr_name p)). }
  rewrite A, B. cbn [bind or]. rewrite parse_uint_dec by exact L. cbn [or]. now destruct (blank t).
Qed.
Definition bullet_back (d : props) (b : bullet) : list para :=
  let p := merged d (b_format b) in
  if blank (b_text b) then [] else [Para [Run (b_text b) (p_bold p) (p_italic p) (p_underline p) (Some (p_size p)) (option_map clean (p_color p))] (b_level b)].
Lemma merged_size d f : (p_size d <= u32_max)%N -> (p_size (merged d f) <= u32_max)%N.
Proof.
  intros H. destruct f as [f|]; [|exact H]. cbn [merged p_size]. destruct (bf_size f); [|exact H]. unfold wmul.
  match goal with |- (?a mod ?b <= _)%N => pose proof (N.mod_lt a b) end. unfold u32_max in *. lia.
Qed.
Lemma paras_back d l : (p_size d <= u32_max)%N -> forallb (fun b => b_level b <=? u32_max)%N l = true ->
  flat_map parse_para (filter (fun c => String.eqb (local_name c) "p") (xts (parasT d l))) = flat_map (bullet_back d) l.
Proof.
  intros S. unfold parasT. rewrite xts_nls. induction l as [|b l IH]; intros L; [reflexivity|]. cbn [forallb] in L. apply andb_true_iff in L as [L1 L2].
  cbn [map]. change (xts (paraT d b :: map (paraT d) l)) with (xe (paraT d b) :: xts (map (paraT d) l)). cbn [filter].
  replace (String.eqb (local_name (xe (paraT d b))) "p") with true by reflexivity. cbn [flat_map]. rewrite (IH L2). f_equal.
  unfold paraT. rewrite para_back; [reflexivity|now apply N.leb_le|now apply merged_size].
Qed.
Lemma box_paras id name x y w h ps : ps_paras (parse_shape (xe (boxE id name x y w h ps))) = flat_map parse_para (filter (fun c => String.eqb (local_name c) "p") (xts ps)).
Proof.
  unfold boxE, parse_shape. cbn [ps_paras].
  match goal with |- match find_descendant "txBody" ?e with _ => _ end = _ => assert (E : exists n a x e1, find_descendant "txBody" e = Some (XE n "txBody" a (e1 ++ xts ps ++ []) x) /\ filter (fun c => String.eqb (local_name c) "p") e1 = []) end.
  { match goal with |- context [TE "p:txBody" ?a (?f ++ ps ++ ?g)] => exists "p:txBody", (xattrs a); eexists; exists (xts f) end.
    split; [|reflexivity]. unfold xe. cbn [xt flat_map app]. rewrite fd_eq. cbn [fd local_name].
    rewrite !flat_map_app. reflexivity. }
  destruct E as (n & a & t & e1 & -> & E). unfold parse_text_body, find_all. cbn [kids]. now rewrite !filter_app, E, app_nil_r.
Qed.
Lemma title_paras x y w h al p t : (p_size p <= u32_max)%N ->
  ps_paras (parse_shape (xe (titleE x y w h al (propsT p) t))) = if blank t then [] else [Para [rpr (xe (propsT p)) t] 0].
Proof.
  intros S. unfold titleE, parse_shape. cbn [ps_paras].
  transitivity (if blank (vals [Esc t]) then [] else [Para [rpr (xe (propsT p)) (vals [Esc t])] 0]); [|now rewrite vals_esc].
  match goal with |- context [TE "a:p" ?a ?b] => set (pa := TE "a:p" a b) end.
  transitivity (parse_para (xe pa)).
  { unfold xe. cbn [xt flat_map app]. 
    transitivity (app (parse_para (xe pa)) []); [reflexivity|apply app_nil_r]. }
  subst pa. unfold xe at 1. cbn [xt flat_map app]. unfold parse_para. unfold find_all. cbn [kids filter local_name].
  replace (String.eqb (local "a:pPr") "r") with false by reflexivity. replace (String.eqb (local "a:r") "r") with true by reflexivity.
  rewrite leaf_text. change (flat_map parse_run [?x]) with (app (parse_run x) []). rewrite app_nil_r. change (local "a:t") with "t". fold (xe (propsT p)).
  match goal with |- context [parse_run (XE ?n ?l ?a ?k ?x)] =>
    replace (parse_run (XE n l a k x)) with (if blank (vals [Esc t]) then [] else [rpr (xe (propsT p)) (vals [Esc t])])
      by (symmetry; exact (run_at n l a x (xe (propsT p)) "a:t" (xattrs []) (vals [Esc t]) [] (rpr_name p))) end.
  destruct (blank (vals [Esc t])); reflexivity.
Qed.
(** ** Shapes *)
Lemma parse_i64_dec n : (n <= u32_max)%N -> parse_i64 (dec n) = Some (Z.of_N n).
Proof.
  intros H. unfold parse_i64. pose proof (parse_uint_dec i64_max n) as P. destruct (dec n) as [|c r] eqn:E; [now elim (dec_nonempty n)|].
  pose proof (dec_head n c r E) as D. rewrite P by (unfold i64_max, u32_max in *; lia).
  destruct c as [[] [] [] [] [] [] [] []]; try reflexivity; discriminate.
Qed.
Lemma parse_i64_zdec z : i64_fits z = true -> parse_i64 (zdec z) = Some z.
Proof.
  unfold i64_fits. rewrite andb_true_iff, !Z.leb_le. intros [A B]. unfold zdec. destruct (z <? 0)%Z eqn:E.
  - apply Z.ltb_lt in E. cbn [append parse_i64]. rewrite parse_digits_dec by lia. cbn [option_map]. f_equal. lia.
  - apply Z.ltb_ge in E. unfold parse_i64. set (n := Z.to_N z). pose proof (parse_uint_dec i64_max n) as P. destruct (dec n) as [|c r] eqn:F; [now elim (dec_nonempty n)|].
    pose proof (dec_head n c r F) as D. rewrite P by (unfold i64_max, n; lia). replace (option_map Z.of_N (Some n)) with (Some z) by (cbn [option_map]; f_equal; unfold n; lia).
    destruct c as [[] [] [] [] [] [] [] []]; try reflexivity; discriminate.
Qed.
Lemma contains_char c w s : sforall (fun x => negb (Ascii.eqb c x)) s = true -> Str.contains (String c w) s = false.
Proof.
  intros H. unfold Str.contains. replace (split_once (String c w) s) with (@None (string * string)); [reflexivity|]. symmetry.
  induction s as [|x s IH]; [reflexivity|]. cbn [sforall] in H. apply andb_true_iff in H as [A B]. cbn [split_once strip_prefix].
  destruct (Ascii.eqb c x); [discriminate|]. now rewrite IH.
Qed.
Lemma lowercase_app a b : lowercase (a ++ b) = lowercase a ++ lowercase b.
Proof. apply smap_app. Qed.
Lemma lowercase_digits s : sforall is_digit s = true -> lowercase s = s.
Proof.
  induction s as [|c s IH]; [reflexivity|]. intros H. cbn [sforall] in H. apply andb_true_iff in H as [A B]. unfold lowercase in *. cbn [smap]. rewrite (IH B).
  unfold s1. cbn [append]. f_equal. revert A. destruct c as [[] [] [] [] [] [] [] []]; vm_compute; congruence.
Qed.
Lemma shape_named id w : w = "title" \/ w = "content" -> Str.contains w (lowercase ("Shape " ++ dec id)) = false.
Proof.
  intros H. rewrite lowercase_app, (lowercase_digits _ (dec_digits id)). pose proof (dec_digits id) as D. revert D. generalize (dec id). intros d D.
  assert (N : forall c, is_digit c = false -> sforall (fun x => negb (Ascii.eqb c x)) d = true).
  { intros c Hc. clear -D Hc. induction d as [|x d IH]; [reflexivity|]. cbn [sforall] in *. apply andb_true_iff in D as [A B]. rewrite (IH B), andb_true_r.
    destruct (Ascii.eqb_spec c x); [congruence|reflexivity]. }
  destruct H as [-> | ->]; apply contains_char; rewrite sforall_app, N by reflexivity; reflexivity.
Qed.

Lemma cnv_facts s id : local_name (xe (cnvT s id)) = "cNvPr" /\ attr_of "name" (xe (cnvT s id)) = Some ("Shape " ++ dec id) /\ xt (cnvT s id) = [xe (cnvT s id)]
  /\ forall n, String.eqb "hlinkClick" n = false -> find_descendant n (xe (cnvT s id)) = None.
Proof.
  assert (V : vals [Lit "Shape "; Lit (dec id)] = "Shape " ++ dec id) by (unfold vals; cbn [map sconcat fold_right]; change (fold_right append "" [?a; ?b]) with (a ++ (b ++ "")); now rewrite sapp_nil_r).
  unfold cnvT. destruct (sh_link s) as [h|]; [destruct (h_rid h) as [r|]|]; (split; [reflexivity|split; [rewrite <- V; reflexivity|split; [reflexivity|]]]); intros n Hn; try reflexivity.
  unfold xe. cbn [xt]. rewrite fd_eq. cbn [flat_map app xt hlinkT fd]. cbn [local_name]. change (local "a:hlinkClick") with "hlinkClick". rewrite Hn. reflexivity.
Qed.
Definition offE (k1 v1 k2 v2 n : string) : tpl := TS n [(k1, [Lit v1]); (k2, [Lit v2])].
Lemma shape_tree cnv rot x y w h prst fl ln body : xt cnv = [xe cnv] -> xt body = [xe body] ->
  exists t1 t2 t3 t4 t5, xe (shapeE cnv rot x y w h prst fl ln body) =
  XE "p:sp" "sp" []
    [XE "p:nvSpPr" "nvSpPr" [] [xe cnv; XE "p:cNvSpPr" "cNvSpPr" [] [] ""; XE "p:nvPr" "nvPr" [] [] ""] t2;
     XE "p:spPr" "spPr" []
       (XE "a:xfrm" "xfrm" (xattrs rot) [xe (offE "x" (dec x) "y" (dec y) "a:off"); xe (offE "cx" (dec w) "cy" (dec h) "a:ext")] t3
        :: XE "a:prstGeom" "prstGeom" [("prst", vals [Lit prst])] [XE "a:avLst" "avLst" [] [] ""] t4 :: xts fl ++ xts ln) t5;
     xe body] t1.
Proof.
  intros C B. do 5 eexists. unfold xe at 1, shapeE. cbn [xt]. rewrite !flat_map_app. cbn [flat_map xt app]. rewrite !flat_map_app. cbn [flat_map xt app].
  rewrite C, B. cbn [app]. rewrite app_nil_r. reflexivity.
Qed.
Lemma fill_clear s : fd "txBody" (xts (anyfill s)) = None.
Proof.
  unfold anyfill. destruct (sh_gradient s) as [g|].
  - assert (S : fd "txBody" (xts (map stopT (stops g))) = None).
    { induction (stops g) as [|x l IH]; [reflexivity|]. cbn [map]. change (xts (stopT x :: map stopT l)) with (xe (stopT x) :: xts (map stopT l)). cbn [fd]. rewrite IH.
      unfold stopT, alphaT. destruct (st_alpha x); reflexivity. }
    unfold gradT, xts. cbn [flat_map xt app]. rewrite !flat_map_app. cbn [flat_map xt app]. cbn [fd local_name].
    replace (String.eqb (local "a:gradFill") "txBody") with false by reflexivity. rewrite fd_eq. cbn [fd local_name].
    replace (String.eqb (local "a:gsLst") "txBody") with false by reflexivity. rewrite fd_eq, app_nil_r. fold (xts (map stopT (stops g))). rewrite S. reflexivity.
  - unfold fillT. destruct (sh_fill s) as [f|]; [|reflexivity]. unfold alphaT. destruct (fl_alpha f); reflexivity.
Qed.
Lemma line_clear o : fd "txBody" (xts (lineT o)) = None.
Proof. destruct o; reflexivity. Qed.
Definition kept (t : string) : list string := filter nonblank [t].
Lemma text_para n l a x pp rp ta t rest e0 : local_name pp = "pPr" -> local_name rp = "rPr" ->
  map para_text (parse_para (XE n l a [pp; XE "a:r" "r" ta (rp :: XE "a:t" "t" e0 [] (if blank t then "" else t) :: rest) x] x)) = kept t.
Proof.
  intros P R. unfold parse_para, find_all. cbn [kids filter]. rewrite P. cbn [local_name]. 
  replace (String.eqb "pPr" "r") with false by reflexivity. rewrite String.eqb_refl. cbn [flat_map]. rewrite run_at by exact R. unfold kept, nonblank. cbn [filter].
  destruct (blank t); [reflexivity|]. cbn [negb app map]. unfold para_text. cbn [runs map r_text rpr]. unfold sconcat. cbn [fold_right]. now rewrite sapp_nil_r.
Qed.
Lemma body_name s : local_name (xe (bodyT s)) = "txBody" /\ xt (bodyT s) = [xe (bodyT s)].
Proof. unfold bodyT. destruct (sh_text s) as [t|]; [destruct (is_code t)|]; split; reflexivity. Qed.
Lemma body_texts s : map para_text (parse_text_body (xe (bodyT s))) =
  match sh_text s with Some t => if is_code t then filter nonblank (lines t) else kept t | None => [] end.
Proof.
  unfold bodyT. destruct (sh_text s) as [t|]; [|reflexivity]. destruct (is_code t).
  - unfold codeTB, xe, parse_text_body, find_all. cbn [xt kids]. rewrite flat_map_app, filter_app. cbn [flat_map xt app filter local_name].
    replace (String.eqb (local "a:bodyPr") "p") with false by reflexivity. replace (String.eqb (local "a:lstStyle") "p") with false by reflexivity. cbn [app].
    induction (lines t) as [|y l IH]; [reflexivity|]. cbn [map]. change (flat_map xt (codeLT y :: map codeLT l)) with (xe (codeLT y) :: flat_map xt (map codeLT l)).
    cbn [filter]. replace (String.eqb (local_name (xe (codeLT y))) "p") with true by reflexivity. cbn [flat_map]. rewrite map_app, IH.
    transitivity (app (kept (vals [Esc y])) (filter nonblank l)); [|rewrite vals_esc; unfold kept; cbn [filter]; now destruct (nonblank y)]. f_equal.
    unfold codeLT, xe. cbn [xt flat_map app]. rewrite leaf_text. 
    apply (text_para "a:p" "p" [] "" (XE "a:pPr" "pPr" (xattrs [("algn", [Lit "l"])]) [] "") _ (xattrs []) (vals [Esc y]) [] (xattrs [])); reflexivity.
  - transitivity (kept (vals [Esc t])); [|now rewrite vals_esc]. unfold textTB, xe, parse_text_body, find_all. cbn [xt kids flat_map app filter local_name].
    replace (String.eqb (local "a:bodyPr") "p") with false by reflexivity. replace (String.eqb (local "a:lstStyle") "p") with false by reflexivity.
    replace (String.eqb (local "a:p") "p") with true by reflexivity. cbn [flat_map]. rewrite app_nil_r, leaf_text.
    apply (text_para "a:p" "p" [] "" (XE "a:pPr" "pPr" _ [] "") _ (xattrs []) (vals [Esc t]) [] (xattrs [])); reflexivity.
Qed.
Definition fits (n : N) : Prop := (n <= u32_max)%N.
Lemma shape_back s id : fits (sh_x s) -> fits (sh_y s) -> fits (sh_w s) -> fits (sh_h s) ->
  is_title_shape (xe (shapeT s id)) = false /\ is_body_shape (xe (shapeT s id)) = false /\ back_shape (mark (xe (shapeT s id))) s.
Proof.
  intros X Y W H. unfold shapeT. destruct (cnv_facts s id) as (N1 & N2 & N3 & N4). destruct (body_name s) as [B1 B2].
  destruct (shape_tree (cnvT s id) (rotA (sh_rotation s)) (sh_x s) (sh_y s) (sh_w s) (sh_h s) (preset (sh_type s)) (anyfill s) (lineT (sh_line s)) (bodyT s) N3 B2) as (t1 & t2 & t3 & t4 & t5 & E).
  set (e := xe (shapeE _ _ _ _ _ _ _ _ _ _)) in *.
  assert (C : find_descendant "cNvPr" e = Some (xe (cnvT s id))).
  { rewrite E, fd_eq. cbn [fd local_name]. replace (String.eqb "nvSpPr" "cNvPr") with false by reflexivity. rewrite fd_eq. cbn [fd]. rewrite N1. reflexivity. }
  assert (P : find_descendant "nvPr" e = Some (XE "p:nvPr" "nvPr" [] [] "")).
  { rewrite E, fd_eq. cbn [fd local_name]. replace (String.eqb "nvSpPr" "nvPr") with false by reflexivity. rewrite fd_eq. cbn [fd]. rewrite N1, N4 by reflexivity. reflexivity. }
  assert (M : forall w, w = "title" \/ w = "content" -> name_has w e = false).
  { intros w Hw. unfold name_has. rewrite C. cbn [bind]. rewrite N2. now apply shape_named. }
  assert (T : is_title_shape e = false) by (unfold is_title_shape, ph_of; rewrite P, M by (now left); reflexivity).
  assert (Bd : is_body_shape e = false) by (unfold is_body_shape, ph_of; rewrite P, M by (now right); reflexivity).
  split; [exact T|]. split; [exact Bd|].
  assert (F : forall n, String.eqb "hlinkClick" n = false -> String.eqb "cNvPr" n = false -> String.eqb "nvSpPr" n = false -> String.eqb "cNvSpPr" n = false -> String.eqb "nvPr" n = false ->
    find_descendant n e = fd n (tl (kids e))).
  { intros n H1 H2 H3 H4 H5. rewrite E at 1. rewrite fd_eq. cbn [fd local_name]. rewrite H3, fd_eq. cbn [fd]. rewrite N1, H2, (N4 n H1). cbn [local_name find_descendant]. rewrite H4, H5. rewrite E. reflexivity. }
  assert (G : find_descendant "prstGeom" e = Some (XE "a:prstGeom" "prstGeom" [("prst", vals [Lit (preset (sh_type s))])] [XE "a:avLst" "avLst" [] [] ""] t4)).
  { rewrite F by reflexivity. rewrite E. reflexivity. }
  assert (Xf : find_descendant "xfrm" e = Some (XE "a:xfrm" "xfrm" (xattrs (rotA (sh_rotation s))) [xe (offE "x" (dec (sh_x s)) "y" (dec (sh_y s)) "a:off"); xe (offE "cx" (dec (sh_w s)) "cy" (dec (sh_h s)) "a:ext")] t3)).
  { rewrite F by reflexivity. rewrite E. reflexivity. }
  assert (Tb : find_descendant "txBody" e = Some (xe (bodyT s))).
  { rewrite F by reflexivity. rewrite E. cbn [kids tl fd local_name]. replace (String.eqb "spPr" "txBody") with false by reflexivity. rewrite fd_eq. cbn [fd local_name].
    replace (String.eqb "xfrm" "txBody") with false by reflexivity. replace (String.eqb "prstGeom" "txBody") with false by reflexivity.
    replace (find_descendant "txBody" _) with (@None xel) by reflexivity. replace (find_descendant "txBody" _) with (@None xel) by reflexivity.
    rewrite fd_app, fill_clear, line_clear, B1. reflexivity. }
  unfold mark. rewrite T, Bd. unfold parse_shape. rewrite G, Xf, Tb. unfold back_shape. cbn [ps_type ps_x ps_y ps_w ps_h ps_paras ps_title ps_body bind negb andb].
  split.
  { assert (V : attr_of "prst" (XE "a:prstGeom" "prstGeom" [("prst", vals [Lit (preset (sh_type s))])] [XE "a:avLst" "avLst" [] [] ""] t4) = Some (preset (sh_type s)))
      by (rewrite <- (vals_lit (preset (sh_type s))) at 2; reflexivity).
    destruct (figure (sh_type s)) as [g|] eqn:Hg; [rewrite V; f_equal; now apply figure_preset|]. exists (preset (sh_type s)). split; [exact V|now apply figure_none]. }
  split.
  { unfold coord. 
    assert (Q : forall k1 k2 v1 v2 n, String.eqb k1 k2 = false -> is_xmlns k1 = false -> is_xmlns k2 = false ->
       attr_of k1 (xe (offE k1 v1 k2 v2 n)) = Some v1 /\ attr_of k2 (xe (offE k1 v1 k2 v2 n)) = Some v2).
    { intros k1 k2 v1 v2 n K I1 I2. unfold xe, offE. cbn [xt]. unfold attr_of, xattrs, attrs_val. cbn [attributes map fst snd filter]. rewrite I1, I2, !vals_lit. cbn [negb rev app find fst].
      rewrite String.eqb_refl. rewrite String.eqb_sym, K, String.eqb_refl. split; reflexivity. }
    unfold find_child. cbn [kids find].
    replace (String.eqb (local_name (xe (offE "x" (dec (sh_x s)) "y" (dec (sh_y s)) "a:off"))) "off") with true by reflexivity.
    replace (String.eqb (local_name (xe (offE "x" (dec (sh_x s)) "y" (dec (sh_y s)) "a:off"))) "ext") with false by reflexivity.
    replace (String.eqb (local_name (xe (offE "cx" (dec (sh_w s)) "cy" (dec (sh_h s)) "a:ext"))) "ext") with true by reflexivity. cbn [bind].
    destruct (Q "x" "y" (dec (sh_x s)) (dec (sh_y s)) "a:off") as [-> ->]; [reflexivity..|].
    destruct (Q "cx" "cy" (dec (sh_w s)) (dec (sh_h s)) "a:ext") as [-> ->]; [reflexivity..|]. cbn [bind]. rewrite !parse_i64_dec by assumption. reflexivity. }
  split; [|split; reflexivity]. pose proof (body_texts s) as Z. destruct (sh_text s) as [t|].
  - destruct (is_code t) eqn:IC; split; intros Q; [exact Z|now elim Q; apply is_code_iff|apply is_code_iff in Q; congruence|exact Z].
  - destruct (parse_text_body _); [reflexivity|discriminate].
Qed.
