(** Proofs: layouts, masters, themes, notes and slides as parts of their own. *)
From Coq Require Import String Ascii List Bool Arith NArith Lia.
From Verif Require Import Str StrRefl Num XmlSpec XmlProofs XmlTpl TplRead OpcSpec XmlPath PathRead EscapeModel GenProofs MdProofs ShapeModel PartsModel PartsSpec PartsProofs PartsPres.
Import ListNotations.
Open Scope nat_scope.
Open Scope string_scope.
Local Arguments String.append _ _ : simpl nomatch.

(** ** Layouts *)
Definition layoutR (l : lpart) : tpl := (TE "p:sldLayout" [("xmlns:a", [Lit "http://schemas.openxmlformats.org/drawingml/2006/main"]); ("xmlns:r", [Lit "http://schemas.openxmlformats.org/officeDocument/2006/relationships"]); ("xmlns:p", [Lit "http://schemas.openxmlformats.org/presentationml/2006/main"]); ("type", [Lit (layout_value (l_type l))]); ("preserve", [Lit "1"])] [TT [Lit "
  "]; TE "p:cSld" [("name", [Lit (l_name l)])] [TT [Lit "
    "]; TE "p:spTree" [] [TT [Lit "
      "]; TE "p:nvGrpSpPr" [] [TT [Lit "
        "]; TS "p:cNvPr" [("id", [Lit "1"]); ("name", [])]; TT [Lit "
        "]; TS "p:cNvGrpSpPr" []; TT [Lit "
        "]; TS "p:nvPr" []; TT [Lit "
      "]]; TT [Lit "
      "]; TE "p:grpSpPr" [] [TT [Lit "
        "]; TE "a:xfrm" [] [TT [Lit "
          "]; TS "a:off" [("x", [Lit "0"]); ("y", [Lit "0"])]; TT [Lit "
          "]; TS "a:ext" [("cx", [Lit "0"]); ("cy", [Lit "0"])]; TT [Lit "
          "]; TS "a:chOff" [("x", [Lit "0"]); ("y", [Lit "0"])]; TT [Lit "
          "]; TS "a:chExt" [("cx", [Lit "0"]); ("cy", [Lit "0"])]; TT [Lit "
        "]]; TT [Lit "
      "]]; TT [Lit "
    "]]; TT [Lit "
  "]]; TT [Lit "
  "]; TE "p:clrMapOvr" [] [TT [Lit "
    "]; TS "a:masterClrMapping" []; TT [Lit "
  "]]; TT [Lit "
"]]).
Lemma layout_tpl l : layout_generate l = decl ++ nl ++ tstr (layoutR l).
Proof. unfold layout_generate, layoutR. generalize (layout_value (l_type l)) (l_name l). intros a b. tstr_eq. Qed.
Lemma layout_read l : l_xml l = None -> as_value (l_name l) = true ->
  exists x, xml_read (layout_xml l) = Some x /\ attr "type" x = layout_code (l_type l) /\ map (attr "name") (at_path ["p:cSld"] x) = [l_name l].
Proof.
  intros E V. unfold layout_xml. rewrite E, layout_tpl. exists (tnode (layoutR l)).
  assert (T : sforall plain_val (layout_value (l_type l)) = true) by (destruct (l_type l); reflexivity).
  assert (C : layout_value (l_type l) = layout_code (l_type l)) by (destruct (l_type l); reflexivity). rewrite <- C. clear C. apply as_value_ok in V.
  split; [|split].
  - unfold layoutR. set (a := layout_value (l_type l)) in *. clearbody a. set (b := l_name l) in *. clearbody b. apply (tpl_read nl); [reflexivity|reflexivity|]. toks_solve.
  - unfold layoutR. set (a := layout_value (l_type l)) in *. clearbody a. cbn. unfold vals. cbn. now rewrite sapp_nil_r.
  - unfold layoutR. pread. cbn. unfold vals. cbn. now rewrite sapp_nil_r.
Qed.

(** ** Masters *)
Definition layT (l : list string) (r : string) : tpl := TS "p:sldLayoutId" [("id", [Lit (dec (wadd u64_max 2147483649 (N.of_nat (position r l))))]); ("r:id", [Lit r])].
Definition lay_sep : string := "
      ".
Definition layB (m : master) : list tpl := match m_layouts m with [] => [] | _ => ([TT [Lit lay_sep]] ++ joinT lay_sep (map (layT (m_layouts m)) (m_layouts m)) ++ [TT [Lit "
  "]])%list end.
Definition masterR (m : master) : tpl := (TE "p:sldMaster" [("xmlns:a", [Lit "http://schemas.openxmlformats.org/drawingml/2006/main"]); ("xmlns:r", [Lit "http://schemas.openxmlformats.org/officeDocument/2006/relationships"]); ("xmlns:p", [Lit "http://schemas.openxmlformats.org/presentationml/2006/main"])] [TT [Lit "
  "]; TE "p:cSld" [] [TT [Lit "
    "]; TE "p:bg" [] [TT [Lit "
      "]; TE "p:bgRef" [("idx", [Lit "1001"])] [TT [Lit "
        "]; TS "a:schemeClr" [("val", [Lit "bg1"])]; TT [Lit "
      "]]; TT [Lit "
    "]]; TT [Lit "
    "]; TE "p:spTree" [] [TT [Lit "
      "]; TE "p:nvGrpSpPr" [] [TT [Lit "
        "]; TS "p:cNvPr" [("id", [Lit "1"]); ("name", [])]; TT [Lit "
        "]; TS "p:cNvGrpSpPr" []; TT [Lit "
        "]; TS "p:nvPr" []; TT [Lit "
      "]]; TT [Lit "
      "]; TE "p:grpSpPr" [] [TT [Lit "
        "]; TE "a:xfrm" [] [TT [Lit "
          "]; TS "a:off" [("x", [Lit "0"]); ("y", [Lit "0"])]; TT [Lit "
          "]; TS "a:ext" [("cx", [Lit "0"]); ("cy", [Lit "0"])]; TT [Lit "
          "]; TS "a:chOff" [("x", [Lit "0"]); ("y", [Lit "0"])]; TT [Lit "
          "]; TS "a:chExt" [("cx", [Lit "0"]); ("cy", [Lit "0"])]; TT [Lit "
        "]]; TT [Lit "
      "]]; TT [Lit "
    "]]; TT [Lit "
  "]]; TT [Lit "
  "]; TS "p:clrMap" [("bg1", [Lit "lt1"]); ("tx1", [Lit "dk1"]); ("bg2", [Lit "lt2"]); ("tx2", [Lit "dk2"]); ("accent1", [Lit "accent1"]); ("accent2", [Lit "accent2"]); ("accent3", [Lit "accent3"]); ("accent4", [Lit "accent4"]); ("accent5", [Lit "accent5"]); ("accent6", [Lit "accent6"]); ("hlink", [Lit "hlink"]); ("folHlink", [Lit "folHlink"])]; TT [Lit "
  "]; TE "p:sldLayoutIdLst" [] ([TT [Lit "
    "]] ++ (layB m))%list; TT [Lit "
  "]; TE "p:txStyles" [] [TT [Lit "
    "]; TS "p:titleStyle" []; TT [Lit "
    "]; TS "p:bodyStyle" []; TT [Lit "
    "]; TS "p:otherStyle" []; TT [Lit "
  "]]; TT [Lit "
"]]).
Lemma master_tpl m : master_generate m = decl ++ nl ++ tstr (masterR m).
Proof.
  unfold master_generate. cbv zeta.
  assert (E : map (fun r => ("<p:sldLayoutId id=""" ++ dec (wadd u64_max 2147483649 (N.of_nat (position r (m_layouts m)))) ++ """ r:id=""" ++ r ++ """/>")) (m_layouts m) = map tstr (map (layT (m_layouts m)) (m_layouts m))).
  { rewrite map_map. apply map_ext. intros r. unfold layT. generalize (dec (wadd u64_max 2147483649 (N.of_nat (position r (m_layouts m))))). intros d. tstr_eq. }
  rewrite E, <- join_str. clear E.
  match goal with |- context [if ?c then "" else ?s] => replace (if c then "" else s) with (tstrs (layB m)) end.
  2:{ unfold layB, lay_sep. destruct (m_layouts m) as [|r l]; [reflexivity|]. 
      match goal with |- context [joinT ?s (map ?f (?r :: ?l))] => assert (NE : String.eqb (tstrs (joinT s (map f (r :: l)))) "" = false); [cbn [map]; destruct (map f l); reflexivity|]; rewrite NE; clear NE; generalize (joinT s (map f (r :: l))) as B end. intros B.
      rewrite !tstrs_app. set (X := tstrs B). clearbody X. tstr_eq. }
  unfold masterR. generalize (layB m) as B. intros B. cbn [tstr map]. rewrite ?map_app, ?sconcat_app. fold (tstrs B). set (X := tstrs B). clearbody X. tstr_eq.
Qed.
Lemma position_nth l : forall k r, NoDup l -> nth_error l k = Some r -> position r l = k.
Proof.
  induction l as [|x l IH]; intros [|k] r D H; try easy; cbn [nth_error position] in *.
  - inversion H; subst. now rewrite String.eqb_refl.
  - inversion D as [|? ? N D']; subst. destruct (String.eqb_spec x r) as [->|]; [exfalso; apply N; now apply (nth_error_In _ k)|]. f_equal. now apply IH.
Qed.
Lemma positions l : NoDup l -> map (fun r => position r l) l = seq 0 (length l).
Proof.
  intros D. apply nth_ext with (d := 0) (d' := 0); [now rewrite map_length, seq_length|]. intros k H. rewrite map_length in H.
  destruct (nth_error l k) as [r|] eqn:E; [|apply nth_error_None in E; lia]. rewrite seq_nth by lia. rewrite (nth_indep _ 0 (position "" l)) by (rewrite map_length; lia).
  rewrite (map_nth (fun r => position r l)). rewrite (nth_error_nth l k "" E). now apply position_nth.
Qed.
Lemma lay_toks m : forallb as_value (m_layouts m) = true -> toks (layB m).
Proof.
  intros V. unfold layB. assert (T : toks (map (layT (m_layouts m)) (m_layouts m))).
  { generalize (m_layouts m) at 1. intros l0. induction (m_layouts m) as [|r l IH]; [easy|]. cbn [forallb map] in *. apply andb_true_iff in V as [V1 V2]. split; [|now apply IH].
    apply as_value_ok in V1. unfold layT. generalize (wadd u64_max 2147483649 (N.of_nat (position r l0))). intros d. toks_solve. }
  destruct (m_layouts m) as [|r l]; [easy|]. apply toks_app. split; [now split|]. apply toks_app. split; [|now split]. now apply join_toks.
Qed.
Lemma lay_named m : named "p:sldLayoutId" (tsnodes (layB m)) = map (fun r => tnode (layT (m_layouts m) r)) (m_layouts m).
Proof.
  unfold layB. assert (E : named "p:sldLayoutId" (tsnodes (map (layT (m_layouts m)) (m_layouts m))) = map (fun r => tnode (layT (m_layouts m) r)) (m_layouts m)) by now apply named_all.
  destruct (m_layouts m) as [|r l]; [reflexivity|]. cbn [app]. rewrite named_text, tsnodes_app, named_app, join_named, E. rewrite named_text. apply app_nil_r.
Qed.
Lemma combine_self {A B C} (f : B -> C) (g : A -> B) l : map (fun r => (f (g r), r)) l = combine (map f (map g l)) l.
Proof. induction l as [|x l IH]; [reflexivity|]. cbn. f_equal. exact IH. Qed.
Lemma number_combine l : forall k, number_layouts (N.of_nat k) l = combine (map (fun i => dec (2147483649 + N.of_nat i)) (seq k (length l))) l.
Proof. induction l as [|x l IH]; intros k; [reflexivity|]. cbn [number_layouts length seq map combine]. f_equal. rewrite <- IH. f_equal. lia. Qed.
Lemma layouts_read m : m_xml m = None -> forallb as_value (m_layouts m) = true -> NoDup (m_layouts m) -> (N.of_nat (length (m_layouts m)) <= 18446744071562067967)%N ->
  exists x, xml_read (master_xml m) = Some x /\ map (fun e => (attr "id" e, attr "r:id" e)) (at_path ["p:sldLayoutIdLst"; "p:sldLayoutId"] x) = number_layouts 0 (m_layouts m).
Proof.
  intros E V D B. unfold master_xml. rewrite E, master_tpl. exists (tnode (masterR m)). split.
  - unfold masterR. apply (tpl_read nl); [reflexivity|reflexivity|]. pose proof (lay_toks m V) as T. generalize dependent (layB m). intros b T.
    apply tok_TE; [reflexivity|vm_compute; reflexivity|]. cbn [toks]. repeat match goal with |- _ /\ _ => split end; try exact I; try (toks_solve; fail).
    apply tok_TE; [reflexivity|reflexivity|]. apply toks_app. split; [toks_solve|exact T].
  - unfold masterR. generalize (eq_refl (layB m)). generalize (layB m) at 1 3. intros b EB. pstep. rewrite path_step, path_end || rewrite path_one.
    rewrite named_children. cbn [tbody]. rewrite named_text, EB. clear EB b. rewrite lay_named, map_map.
    transitivity (map (fun r => (dec (2147483649 + N.of_nat (position r (m_layouts m))), r)) (m_layouts m)).
    { apply map_ext_in. intros r H. unfold layT. cbn. unfold vals. cbn. rewrite !sapp_nil_r. repeat f_equal. unfold wadd. apply N.mod_small.
      apply In_nth_error in H as [k H]. rewrite (position_nth _ k) by assumption. assert (k < length (m_layouts m)) by (apply nth_error_Some; congruence). change (u64_max + 1)%N with 18446744073709551616%N. lia. }
    rewrite (combine_self (fun i => dec (2147483649 + N.of_nat i)) (fun r => position r (m_layouts m))), positions by assumption. symmetry. exact (number_combine (m_layouts m) 0).
Qed.

(** The same relationship twice: one number for both *)
Lemma layout_twice : exists r, let m := add_layout_rel_id r (add_layout_rel_id r (master_new 1)) in as_value r = true /\
  exists x a, xml_read (master_xml m) = Some x /\ map (fun e => (attr "id" e, attr "r:id" e)) (at_path ["p:sldLayoutIdLst"; "p:sldLayoutId"] x) = [a; a].
Proof. exists "rId1". cbv zeta. split; [reflexivity|]. do 2 eexists. split; vm_compute; reflexivity. Qed.
Lemma layouts_distinct l : NoDup (map fst (number_layouts 0 l)).
Proof.
  change 0%N with (N.of_nat 0). rewrite number_combine. match goal with |- NoDup (map fst (combine ?a l)) => assert (L : length a = length l) by now rewrite map_length, seq_length end. rewrite (proj1 (combine_firsts _ l L)).
  apply FinFun.Injective_map_NoDup; [|apply seq_NoDup]. intros a b H. apply dec_inj in H. lia.
Qed.

(** ** Themes *)
Definition clrT (c : string * string) : tpl := TE ("a:" ++ fst c) [("val", [Lit (fst c)])] [TS "a:srgbClr" [("val", [Lit (snd c)])]].
Definition clr_sep : string := "
        ".
Definition themeR (t : theme) : tpl := (TE "a:theme" [("xmlns:a", [Lit "http://schemas.openxmlformats.org/drawingml/2006/main"]); ("name", [Lit (h_name t)])] [TT [Lit "
  "]; TE "a:themeElements" [] [TT [Lit "
    "]; TE "a:clrScheme" [("name", [Lit "Office"])] ([TT [Lit "
      "]] ++ (joinT clr_sep (map clrT (h_colors t))) ++ [TT [Lit "
    "]])%list; TT [Lit "
    "]; TE "a:fontScheme" [("name", [Lit "Office"])] [TT [Lit "
      "]; TE "a:majorFont" [] [TT [Lit "
        "]; TS "a:latin" [("typeface", [Lit (h_major t)])]; TT [Lit "
        "]; TS "a:ea" [("typeface", [])]; TT [Lit "
        "]; TS "a:cs" [("typeface", [])]; TT [Lit "
      "]]; TT [Lit "
      "]; TE "a:minorFont" [] [TT [Lit "
        "]; TS "a:latin" [("typeface", [Lit (h_minor t)])]; TT [Lit "
        "]; TS "a:ea" [("typeface", [])]; TT [Lit "
        "]; TS "a:cs" [("typeface", [])]; TT [Lit "
      "]]; TT [Lit "
    "]]; TT [Lit "
    "]; TE "a:fmtScheme" [("name", [Lit "Office"])] [TT [Lit "
      "]; TE "a:fillStyleLst" [] [TT [Lit "
        "]; TE "a:solidFill" [] [TS "a:schemeClr" [("val", [Lit "phClr"])]]; TT [Lit "
        "]; TE "a:gradFill" [("rotWithShape", [Lit "1"])] [TE "a:gsLst" [] [TE "a:gs" [("pos", [Lit "0"])] [TE "a:schemeClr" [("val", [Lit "phClr"])] [TS "a:tint" [("val", [Lit "50000"])]; TS "a:satMod" [("val", [Lit "300000"])]]]; TE "a:gs" [("pos", [Lit "35000"])] [TE "a:schemeClr" [("val", [Lit "phClr"])] [TS "a:tint" [("val", [Lit "37000"])]; TS "a:satMod" [("val", [Lit "300000"])]]]; TE "a:gs" [("pos", [Lit "100000"])] [TE "a:schemeClr" [("val", [Lit "phClr"])] [TS "a:tint" [("val", [Lit "15000"])]; TS "a:satMod" [("val", [Lit "350000"])]]]]; TS "a:lin" [("ang", [Lit "16200000"]); ("scaled", [Lit "1"])]]; TT [Lit "
        "]; TE "a:gradFill" [("rotWithShape", [Lit "1"])] [TE "a:gsLst" [] [TE "a:gs" [("pos", [Lit "0"])] [TE "a:schemeClr" [("val", [Lit "phClr"])] [TS "a:shade" [("val", [Lit "51000"])]; TS "a:satMod" [("val", [Lit "130000"])]]]; TE "a:gs" [("pos", [Lit "80000"])] [TE "a:schemeClr" [("val", [Lit "phClr"])] [TS "a:shade" [("val", [Lit "93000"])]; TS "a:satMod" [("val", [Lit "130000"])]]]; TE "a:gs" [("pos", [Lit "100000"])] [TE "a:schemeClr" [("val", [Lit "phClr"])] [TS "a:shade" [("val", [Lit "94000"])]; TS "a:satMod" [("val", [Lit "135000"])]]]]; TS "a:lin" [("ang", [Lit "16200000"]); ("scaled", [Lit "0"])]]; TT [Lit "
      "]]; TT [Lit "
      "]; TE "a:lnStyleLst" [] [TT [Lit "
        "]; TE "a:ln" [("w", [Lit "6350"]); ("cap", [Lit "flat"]); ("cmpd", [Lit "sng"]); ("algn", [Lit "ctr"])] [TE "a:solidFill" [] [TS "a:schemeClr" [("val", [Lit "phClr"])]]; TS "a:prstDash" [("val", [Lit "solid"])]; TS "a:miter" [("lim", [Lit "800000"])]]; TT [Lit "
        "]; TE "a:ln" [("w", [Lit "12700"]); ("cap", [Lit "flat"]); ("cmpd", [Lit "sng"]); ("algn", [Lit "ctr"])] [TE "a:solidFill" [] [TS "a:schemeClr" [("val", [Lit "phClr"])]]; TS "a:prstDash" [("val", [Lit "solid"])]; TS "a:miter" [("lim", [Lit "800000"])]]; TT [Lit "
        "]; TE "a:ln" [("w", [Lit "19050"]); ("cap", [Lit "flat"]); ("cmpd", [Lit "sng"]); ("algn", [Lit "ctr"])] [TE "a:solidFill" [] [TS "a:schemeClr" [("val", [Lit "phClr"])]]; TS "a:prstDash" [("val", [Lit "solid"])]; TS "a:miter" [("lim", [Lit "800000"])]]; TT [Lit "
      "]]; TT [Lit "
      "]; TE "a:effectStyleLst" [] [TT [Lit "
        "]; TE "a:effectStyle" [] [TS "a:effectLst" []]; TT [Lit "
        "]; TE "a:effectStyle" [] [TS "a:effectLst" []]; TT [Lit "
        "]; TE "a:effectStyle" [] [TE "a:effectLst" [] [TE "a:outerShdw" [("blurRad", [Lit "57150"]); ("dist", [Lit "19050"]); ("dir", [Lit "5400000"]); ("algn", [Lit "ctr"]); ("rotWithShape", [Lit "0"])] [TE "a:srgbClr" [("val", [Lit "000000"])] [TS "a:alpha" [("val", [Lit "63000"])]]]]]; TT [Lit "
      "]]; TT [Lit "
      "]; TE "a:bgFillStyleLst" [] [TT [Lit "
        "]; TE "a:solidFill" [] [TS "a:schemeClr" [("val", [Lit "phClr"])]]; TT [Lit "
        "]; TE "a:solidFill" [] [TE "a:schemeClr" [("val", [Lit "phClr"])] [TS "a:tint" [("val", [Lit "95000"])]; TS "a:satMod" [("val", [Lit "170000"])]]]; TT [Lit "
        "]; TE "a:gradFill" [("rotWithShape", [Lit "1"])] [TE "a:gsLst" [] [TE "a:gs" [("pos", [Lit "0"])] [TE "a:schemeClr" [("val", [Lit "phClr"])] [TS "a:tint" [("val", [Lit "93000"])]; TS "a:satMod" [("val", [Lit "150000"])]; TS "a:shade" [("val", [Lit "98000"])]; TS "a:lumMod" [("val", [Lit "102000"])]]]; TE "a:gs" [("pos", [Lit "50000"])] [TE "a:schemeClr" [("val", [Lit "phClr"])] [TS "a:tint" [("val", [Lit "98000"])]; TS "a:satMod" [("val", [Lit "130000"])]; TS "a:shade" [("val", [Lit "90000"])]; TS "a:lumMod" [("val", [Lit "103000"])]]]; TE "a:gs" [("pos", [Lit "100000"])] [TE "a:schemeClr" [("val", [Lit "phClr"])] [TS "a:shade" [("val", [Lit "63000"])]; TS "a:satMod" [("val", [Lit "120000"])]]]]; TS "a:lin" [("ang", [Lit "5400000"]); ("scaled", [Lit "0"])]]; TT [Lit "
      "]]; TT [Lit "
    "]]; TT [Lit "
  "]]; TT [Lit "
  "]; TS "a:objectDefaults" []; TT [Lit "
  "]; TS "a:extraClrSchemeLst" []; TT [Lit "
"]]).
Lemma theme_tpl t : theme_generate t = decl ++ nl ++ tstr (themeR t).
Proof.
  unfold theme_generate. cbv zeta.
  assert (E : map (fun c : string * string => ("<a:" ++ fst c ++ " val=""" ++ fst c ++ """><a:srgbClr val=""" ++ snd c ++ """/></a:" ++ fst c ++ ">")) (h_colors t) = map tstr (map clrT (h_colors t))).
  { rewrite map_map. apply map_ext. intros c. unfold clrT. tstr_eq. }
  rewrite E, <- join_str. clear E. unfold themeR, clr_sep.
  match goal with |- context [joinT ?s (map clrT ?l)] => generalize (joinT s (map clrT l)) as B end. intros B. cbn [tstr map]. rewrite ?map_app, ?sconcat_app. fold (tstrs B). set (X := tstrs B). clearbody X. tstr_eq.
Qed.
Definition color_ok (c : string * string) : bool := is_name ("a:" ++ fst c) && as_value (fst c) && as_value (snd c).
Definition theme_ok (t : theme) : bool := as_value (h_name t) && as_value (h_major t) && as_value (h_minor t) && forallb color_ok (h_colors t).
Lemma clr_toks l : forallb color_ok l = true -> toks (map clrT l).
Proof.
  induction l as [|c l IH]; [easy|]. cbn [forallb map]. intros H. apply andb_true_iff in H as [H1 H2]. split; [|now apply IH]. apply andb_true_iff in H1 as [H1 H3]. apply andb_true_iff in H1 as [H0 H1]. apply as_value_ok in H1, H3.
  unfold clrT. apply tok_TE; [exact H0| |].
  - unfold tattrs_ok. cbn [forallb fst snd pv_ok]. rewrite H1. reflexivity.
  - cbn [toks tok]. split; [|exact I]. split; [reflexivity|]. unfold tattrs_ok. cbn [forallb fst snd pv_ok]. rewrite H3. reflexivity.
Qed.
Lemma theme_tok t : theme_ok t = true -> tok (themeR t).
Proof.
  intros OK. apply andb_true_iff in OK as [OK O4]. apply andb_true_iff in OK as [OK O3]. apply andb_true_iff in OK as [O1 O2]. apply as_value_ok in O1, O2, O3. apply clr_toks in O4.
  assert (J : toks (joinT clr_sep (map clrT (h_colors t)))) by now apply join_toks.
  unfold themeR. generalize dependent (joinT clr_sep (map clrT (h_colors t))). clear O4. intros B J. set (n := h_name t) in *. set (a := h_major t) in *. set (b := h_minor t) in *. clearbody n a b. clear t.
  apply tok_TE; [reflexivity|toks_solve|]. cbn [toks]. repeat match goal with |- _ /\ _ => split end; try exact I; try (toks_solve; fail).
  apply tok_TE; [reflexivity|reflexivity|]. cbn [toks]. repeat match goal with |- _ /\ _ => split end; try exact I; try (toks_solve; fail).
  apply tok_TE; [reflexivity|reflexivity|]. change (toks ([TT [Lit "
      "]] ++ B ++ [TT [Lit "
    "]])). apply toks_app. split; [toks_solve|]. apply toks_app. split; [exact J|toks_solve].
Qed.
Lemma colors_named n l : named ("a:" ++ n) (tsnodes (map clrT l)) = map (fun c => tnode (clrT c)) (filter (fun c => String.eqb (fst c) n) l).
Proof.
  induction l as [|c l IH]; [reflexivity|]. cbn [map filter]. erewrite named_cons by reflexivity. rewrite IH.
  replace (String.eqb ("a:" ++ fst c) ("a:" ++ n)) with (String.eqb (fst c) n) by (cbn; reflexivity). now destruct (String.eqb (fst c) n).
Qed.
Lemma theme_found t n : colors_found n (tnode (themeR t)) = map snd (filter (fun c => String.eqb (fst c) n) (h_colors t)).
Proof.
  unfold colors_found, themeR. match goal with |- context [TE "a:clrScheme" _ ?b] => generalize (eq_refl b); generalize b at 1 3 end. intros B EB.
  pstep. pstep. rewrite path_step, named_children. cbn [tbody]. rewrite EB. clear EB B. cbn [app]. rewrite named_text, tsnodes_app, named_app, join_named, colors_named, named_text. 
  change (named ("a:" ++ n) (tsnodes [])) with (@nil node). rewrite app_nil_r. induction (filter _ (h_colors t)) as [|c l IH]; [reflexivity|]. cbn [map flat_map]. rewrite map_app, IH. cbn. unfold vals. cbn. now rewrite sapp_nil_r.
Qed.
Lemma theme_fields t : attr "name" (tnode (themeR t)) = h_name t /\ map (attr "typeface") (at_path ["a:themeElements"; "a:fontScheme"; "a:majorFont"; "a:latin"] (tnode (themeR t))) = [h_major t]
  /\ map (attr "typeface") (at_path ["a:themeElements"; "a:fontScheme"; "a:minorFont"; "a:latin"] (tnode (themeR t))) = [h_minor t].
Proof.
  unfold themeR. match goal with |- context [TE "a:clrScheme" _ ?b] => generalize b end. intros B. split; [|split].
  - cbn. unfold vals. cbn. now rewrite sapp_nil_r.
  - pread. cbn. unfold vals. cbn. now rewrite sapp_nil_r.
  - pread. cbn. unfold vals. cbn. now rewrite sapp_nil_r.
Qed.
Definition look (n : string) (l : list (string * string)) : option string := option_map snd (find (fun c => String.eqb (fst c) n) l).
Lemma look_only n l : NoDup (map fst l) -> map snd (filter (fun c => String.eqb (fst c) n) l) = match look n l with Some v => [v] | None => [] end.
Proof.
  unfold look. induction l as [|[m v] l IH]; [reflexivity|]. cbn [map fst filter find]. intros D. inversion D as [|? ? N D']; subst. destruct (String.eqb_spec m n) as [->|]; [|now apply IH].
  cbn [option_map map snd]. f_equal. clear - N. induction l as [|[k w] l IH]; [reflexivity|]. cbn [map fst filter] in *. destruct (String.eqb_spec k n) as [->|]; [exfalso; apply N; now left|]. apply IH. intros H; apply N; now right.
Qed.
Lemma put_look n m v l : look n (put_color m v l) = if String.eqb m n then Some v else look n l.
Proof.
  unfold look. induction l as [|[k w] l IH]; cbn [put_color find fst]; [now destruct (String.eqb m n)|].
  destruct (String.eqb_spec k m) as [->|NE]; cbn [find fst].
  - now destruct (String.eqb m n).
  - destruct (String.eqb_spec k n) as [->|]; [|exact IH]. destruct (String.eqb_spec m n); [congruence|reflexivity].
Qed.
Lemma put_names m v l : forall x, In x (map fst (put_color m v l)) -> x = m \/ In x (map fst l).
Proof.
  induction l as [|[k w] l IH]; intros x; cbn [put_color map fst]; [intros [->|[]]; now left|].
  destruct (String.eqb_spec k m) as [->|NE]; cbn [map fst In]; intros [<-|H]; auto. destruct (IH _ H); auto.
Qed.
Lemma put_nodup m v l : NoDup (map fst l) -> NoDup (map fst (put_color m v l)).
Proof.
  induction l as [|[k w] l IH]; cbn [put_color map fst]; intros D; [constructor; [easy|constructor]|]. inversion D as [|? ? N D']; subst.
  destruct (String.eqb_spec k m) as [->|NE]; cbn [map fst]; constructor; auto. intros H. apply put_names in H as [->|H]; auto.
Qed.
Lemma put_ok m v l : color_ok (m, v) = true -> forallb color_ok l = true -> forallb color_ok (put_color m v l) = true.
Proof.
  intros H. induction l as [|[k w] l IH]; cbn [put_color forallb]; [now rewrite H|]. intros O. apply andb_true_iff in O as [O1 O2].
  destruct (String.eqb_spec k m) as [->|NE]; cbn [forallb]; apply andb_true_iff; split; auto.
Qed.
Lemma theme_do_all calls : forall t, theme_ok t = true -> NoDup (map fst (h_colors t)) -> h_xml t = None -> forallb theme_call_ok calls = true ->
  let u := fold_left theme_do calls t in
  theme_ok u = true /\ NoDup (map fst (h_colors u)) /\ h_xml u = None /\ h_name u = last_given name_in (h_name t) calls /\ h_major u = last_given major_in (h_major t) calls /\ h_minor u = last_given minor_in (h_minor t) calls
  /\ forall n, look n (h_colors u) = color_after n (look n (h_colors t)) calls.
Proof.
  induction calls as [|k calls IH]; intros t OK D X C; [now repeat split|]. cbn [forallb] in C. apply andb_true_iff in C as [C1 C2]. cbv zeta. cbn [fold_left].
  unfold theme_ok in OK. apply andb_true_iff in OK as [OK O4]. apply andb_true_iff in OK as [OK O3]. apply andb_true_iff in OK as [O1 O2].
  assert (P : theme_ok (theme_do t k) = true /\ NoDup (map fst (h_colors (theme_do t k))) /\ h_xml (theme_do t k) = None).
  { destruct k as [s|s|s|m v]; cbn [theme_call_ok theme_do] in *; unfold theme_ok; cbn [theme_set_name theme_set_major theme_set_minor theme_set_color h_name h_major h_minor h_colors h_xml]; rewrite ?O1, ?O2, ?O3, ?O4; [rewrite C1; auto|rewrite C1; auto|rewrite C1; auto|]. split; [|split; [now apply put_nodup|exact X]]. now apply put_ok. }
  destruct P as (P1 & P2 & P3). destruct (IH _ P1 P2 P3 C2) as (A1 & A2 & A3 & A4 & A5 & A6 & A7). repeat split; auto.
  - rewrite A4. destruct k; reflexivity.
  - rewrite A5. destruct k; reflexivity.
  - rewrite A6. destruct k; reflexivity.
  - intros n. rewrite A7. destruct k; try reflexivity. cbn [theme_do theme_set_color h_colors color_after]. now rewrite put_look.
Qed.
Lemma theme_history n calls : forallb theme_call_ok calls = true -> exists x, xml_read (theme_xml (fold_left theme_do calls (theme_new n))) = Some x
  /\ attr "name" x = last_given name_in "Office Theme" calls
  /\ map (attr "typeface") (at_path ["a:themeElements"; "a:fontScheme"; "a:majorFont"; "a:latin"] x) = [last_given major_in "Calibri Light" calls]
  /\ map (attr "typeface") (at_path ["a:themeElements"; "a:fontScheme"; "a:minorFont"; "a:latin"] x) = [last_given minor_in "Calibri" calls]
  /\ forall c, colors_found c x = match color_after c (office_color c) calls with Some v => [v] | None => [] end.
Proof.
  intros C. destruct (theme_do_all calls (theme_new n)) as (A1 & A2 & A3 & A4 & A5 & A6 & A7); [vm_compute; reflexivity|repeat constructor; cbn; intuition discriminate|reflexivity|exact C|].
  set (u := fold_left theme_do calls (theme_new n)) in *. exists (tnode (themeR u)). unfold theme_xml. rewrite A3, theme_tpl. destruct (theme_fields u) as (F1 & F2 & F3). repeat split.
  - pose proof (theme_tok u A1) as T. unfold themeR in *. apply (tpl_read nl); [reflexivity|reflexivity|exact T].
  - now rewrite F1, A4.
  - now rewrite F2, A5.
  - now rewrite F3, A6.
  - intros c. rewrite theme_found, look_only by exact A2. now rewrite A7.
Qed.
(** A colour that is not a possible name, a font with an ampersand *)
Lemma theme_raw : exists s, text_ok s = true /\ xml_read (theme_xml (theme_set_name s (theme_new 1))) = None.
Proof. exists "R&D". split; [reflexivity|vm_compute; reflexivity]. Qed.
Lemma theme_stuck : forall xml calls, theme_xml (fold_left theme_do calls (theme_from xml)) = xml.
Proof.
  intros xml calls. assert (E : forall t, h_xml t = Some xml -> h_xml (fold_left theme_do calls t) = Some xml).
  { induction calls as [|k l IH]; intros t H; [exact H|]. cbn [fold_left]. apply IH. destruct k; exact H. }
  unfold theme_xml. now rewrite (E (theme_from xml)).
Qed.
Lemma layout_stuck xml s : layout_xml (layout_set_name s (layout_from xml)) = xml.
Proof. reflexivity. Qed.
Lemma master_stuck xml rs : master_xml (fold_left (fun m r => add_layout_rel_id r m) rs (master_from xml)) = xml.
Proof.
  assert (E : forall m, m_xml m = Some xml -> m_xml (fold_left (fun m r => add_layout_rel_id r m) rs m) = Some xml).
  { induction rs as [|r l IH]; intros m H; [exact H|]. cbn [fold_left]. apply IH. exact H. }
  unfold master_xml. now rewrite (E (master_from xml)).
Qed.

(** ** Notes *)
Definition parT (l : string) : tpl := TE "a:p" [] [TE "a:r" [] [TS "a:rPr" [("lang", [Lit "en-US"])]; TE "a:t" [] [TT [Esc l]]]].
Definition parB (p : npart) : list tpl := if String.eqb (n_text p) "" then [TE "a:p" [] [TS "a:endParaRPr" [("lang", [Lit "en-US"])]]] else joinT "
              " (map parT (lines (n_text p))).
Definition notesR (p : npart) : tpl := (TE "p:notes" [("xmlns:a", [Lit "http://schemas.openxmlformats.org/drawingml/2006/main"]); ("xmlns:r", [Lit "http://schemas.openxmlformats.org/officeDocument/2006/relationships"]); ("xmlns:p", [Lit "http://schemas.openxmlformats.org/presentationml/2006/main"])] [TT [Lit "
  "]; TE "p:cSld" [] [TT [Lit "
    "]; TE "p:spTree" [] [TT [Lit "
      "]; TE "p:nvGrpSpPr" [] [TT [Lit "
        "]; TS "p:cNvPr" [("id", [Lit "1"]); ("name", [])]; TT [Lit "
        "]; TS "p:cNvGrpSpPr" []; TT [Lit "
        "]; TS "p:nvPr" []; TT [Lit "
      "]]; TT [Lit "
      "]; TE "p:grpSpPr" [] [TT [Lit "
        "]; TE "a:xfrm" [] [TT [Lit "
          "]; TS "a:off" [("x", [Lit "0"]); ("y", [Lit "0"])]; TT [Lit "
          "]; TS "a:ext" [("cx", [Lit "0"]); ("cy", [Lit "0"])]; TT [Lit "
          "]; TS "a:chOff" [("x", [Lit "0"]); ("y", [Lit "0"])]; TT [Lit "
          "]; TS "a:chExt" [("cx", [Lit "0"]); ("cy", [Lit "0"])]; TT [Lit "
        "]]; TT [Lit "
      "]]; TT [Lit "
      "]; TE "p:sp" [] [TT [Lit "
        "]; TE "p:nvSpPr" [] [TT [Lit "
          "]; TS "p:cNvPr" [("id", [Lit "2"]); ("name", [Lit "Slide Image Placeholder 1"])]; TT [Lit "
          "]; TE "p:cNvSpPr" [] [TS "a:spLocks" [("noGrp", [Lit "1"]); ("noRot", [Lit "1"]); ("noChangeAspect", [Lit "1"])]]; TT [Lit "
          "]; TE "p:nvPr" [] [TS "p:ph" [("type", [Lit "sldImg"])]]; TT [Lit "
        "]]; TT [Lit "
        "]; TS "p:spPr" []; TT [Lit "
      "]]; TT [Lit "
      "]; TE "p:sp" [] [TT [Lit "
        "]; TE "p:nvSpPr" [] [TT [Lit "
          "]; TS "p:cNvPr" [("id", [Lit "3"]); ("name", [Lit "Notes Placeholder 2"])]; TT [Lit "
          "]; TE "p:cNvSpPr" [] [TS "a:spLocks" [("noGrp", [Lit "1"])]]; TT [Lit "
          "]; TE "p:nvPr" [] [TS "p:ph" [("type", [Lit "body"]); ("idx", [Lit "1"])]]; TT [Lit "
        "]]; TT [Lit "
        "]; TS "p:spPr" []; TT [Lit "
        "]; TE "p:txBody" [] ([TT [Lit "
          "]; TS "a:bodyPr" []; TT [Lit "
          "]; TS "a:lstStyle" []; TT [Lit "
          "]] ++ (parB p) ++ [TT [Lit "
        "]])%list; TT [Lit "
      "]]; TT [Lit "
    "]]; TT [Lit "
  "]]; TT [Lit "
  "]; TE "p:clrMapOvr" [] [TS "a:masterClrMapping" []]; TT [Lit "
"]]).
Lemma notes_tpl p : notes_generate p = decl ++ nl ++ tstr (notesR p).
Proof.
  unfold notes_generate. cbv zeta. match goal with |- context [if ?c then ?a else ?b] => replace (if c then a else b) with (tstrs (parB p)) end.
  2:{ unfold parB. destruct (String.eqb (n_text p) ""); [reflexivity|]. rewrite join_str, map_map. f_equal. apply map_ext. intros l. unfold parT. tstr_eq. }
  unfold notesR. generalize (parB p) as B. intros B. cbn [tstr map]. rewrite ?map_app, ?sconcat_app. fold (tstrs B). set (X := tstrs B). clearbody X. tstr_eq.
Qed.
Lemma par_toks ls : Forall (fun l => text_ok l = true) ls -> toks (map parT ls).
Proof. induction 1 as [|l ls H _ IH]; [easy|]. cbn [map]. split; [|exact IH]. unfold parT. toks_solve. Qed.
Lemma par_text l : paragraph_text (tnode (parT l)) = l.
Proof. unfold paragraph_text, parT. pread. rewrite text_leaf. cbn. now rewrite !sapp_nil_r. Qed.
Lemma parB_toks p : Forall (fun l => text_ok l = true) (lines (n_text p)) -> toks (parB p).
Proof. intros H. unfold parB. destruct (String.eqb (n_text p) ""); [toks_solve|]. apply join_toks; [reflexivity|reflexivity|now apply par_toks]. Qed.
Lemma notes_found p : body_paragraphs (tnode (notesR p)) = named "a:p" (tsnodes (parB p)).
Proof.
  unfold body_paragraphs, notesR. match goal with |- context [TE "p:txBody" [] ?b] => generalize (eq_refl b); generalize b at 1 3 end. intros B EB.
  do 5 pstep. rewrite path_one, named_children. cbn [tbody]. rewrite EB. clear EB B.
  change ([TT [Lit "
          "]; TS "a:bodyPr" []; TT [Lit "
          "]; TS "a:lstStyle" []; TT [Lit "
          "]] ++ parB p ++ [TT [Lit "
        "]])%list with
    (TT [Lit "
          "] :: TS "a:bodyPr" [] :: TT [Lit "
          "] :: TS "a:lstStyle" [] :: TT [Lit "
          "] :: parB p ++ [TT [Lit "
        "]])%list.
  rewrite named_text. erewrite named_cons by reflexivity. change (String.eqb "a:bodyPr" "a:p") with false. cbn iota. rewrite named_text. erewrite named_cons by reflexivity. change (String.eqb "a:lstStyle" "a:p") with false. cbn iota. rewrite named_text.
  rewrite tsnodes_app, named_app, named_text. apply app_nil_r.
Qed.
Lemma lines_of_joined ls : Forall line_ok ls -> last ls "x" <> "" -> lines (sjoin nl ls) = ls.
Proof.
  intros F N. unfold lines. assert (CH : forall y, text_ok y = true -> chop_cr y = y).
  { clear. intros y Hy. unfold chop_cr. destruct (srev y) as [|c r] eqn:E; [reflexivity|]. destruct (Ascii.eqb_spec c CR) as [->|]; [|reflexivity]. exfalso.
    assert (X : y = srev r ++ s1 CR) by (rewrite <- (srev_involutive y), E; apply srev_cons). rewrite X in Hy. clear - Hy. revert Hy. induction (srev r) as [|c t IH]; [discriminate|]. change (String c t ++ s1 CR) with (String c (t ++ s1 CR)). cbn [text_ok]. intros H. apply andb_true_iff in H as [_ H]. auto. }
  assert (S : ls <> [] -> split_char LF (sjoin nl ls) = ls).
  { clear N. induction F as [|x l [Hx Hy] _ IH]; intros H; [congruence|]. destruct l as [|y l]; [cbn [sjoin]; now apply split_char_none|].
    change (sjoin nl (x :: y :: l)) with (x ++ String LF (sjoin nl (y :: l))). rewrite split_char_app, split_char_none by exact Hy. cbn [app]. f_equal. apply IH. discriminate. }
  destruct ls as [|x ls]; [reflexivity|]. rewrite S by discriminate. clear S. revert F N. generalize (x :: ls). clear x ls.
  induction l as [|y l IH]; intros F N; [reflexivity|]. inversion F as [|? ? [Hy _] Hl]; subst. cbn [chop_last].
  destruct l as [|z l]; [cbn [last] in N; destruct (String.eqb_spec y ""); [contradiction|reflexivity]|]. rewrite CH by exact Hy. f_equal. now apply IH.
Qed.
Lemma joined_nonempty ls : last ls "x" <> "" -> ls <> [] -> sjoin nl ls <> "".
Proof. intros L N. destruct ls as [|x ls]; [congruence|]. destruct ls as [|y ls]; [exact L|]. change (sjoin nl (x :: y :: ls)) with (x ++ nl ++ sjoin nl (y :: ls)). destruct x; discriminate. Qed.
Lemma notes_read p ls : n_xml p = None -> n_text p = sjoin nl ls -> Forall line_ok ls -> last ls "x" <> "" ->
  exists x, xml_read (notes_part_xml p) = Some x /\ map paragraph_text (body_paragraphs x) = match ls with [] => [""] | _ => ls end.
Proof.
  intros E T F L. unfold notes_part_xml. rewrite E, notes_tpl. exists (tnode (notesR p)). split.
  - assert (K : toks (parB p)). { apply parB_toks. rewrite T, (lines_of_joined ls F L). eapply Forall_impl; [|exact F]. now intros a [H _]. }
    unfold notesR. apply (tpl_read nl); [reflexivity|reflexivity|]. generalize dependent (parB p). intros B K.
    apply tok_TE; [reflexivity|vm_compute; reflexivity|]. cbn [toks]. repeat match goal with |- _ /\ _ => split end; try exact I; try (toks_solve; fail).
    apply tok_TE; [reflexivity|reflexivity|]. cbn [toks]. repeat match goal with |- _ /\ _ => split end; try exact I; try (toks_solve; fail).
    apply tok_TE; [reflexivity|reflexivity|]. cbn [toks]. repeat match goal with |- _ /\ _ => split end; try exact I; try (toks_solve; fail).
    apply tok_TE; [reflexivity|reflexivity|]. cbn [toks]. repeat match goal with |- _ /\ _ => split end; try exact I; try (toks_solve; fail).
    apply tok_TE; [reflexivity|reflexivity|]. apply toks_app. split; [toks_solve|]. apply toks_app. split; [exact K|toks_solve].
  - rewrite notes_found. unfold parB. rewrite T. destruct ls as [|l ls]; [reflexivity|]. destruct (String.eqb_spec (sjoin nl (l :: ls)) ""); [exfalso; now apply (joined_nonempty (l :: ls))|].
    rewrite (lines_of_joined _ F L), join_named, (named_all "a:p" parT) by reflexivity. rewrite map_map. etransitivity; [|apply map_id]. apply map_ext. intros a. apply par_text.
Qed.
Lemma notes_forgotten : exists p, n_text p <> "" /\ n_text (notes_from (notes_part_xml p)) = "" /\ n_number (notes_from (notes_part_xml p)) <> n_number p.
Proof. exists (notes_with_text 4 "Say hello"). repeat split; discriminate. Qed.
