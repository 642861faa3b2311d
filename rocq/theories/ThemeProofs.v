(** Proofs about themes. *)
From Coq Require Import String Ascii List Bool Arith NArith Lia.
From Verif Require Import Str StrRefl Num EscapeModel EscapeProofs XmlSpec XmlProofs XmlTpl OpcSpec GenProofs PresProofs TplRead XmlPath PathRead SettingsModel SettingsSpec ShowProofs.
Import ListNotations.
Open Scope nat_scope.
Open Scope string_scope.

(** ** Finding a pattern behind text in which it cannot start *)
Fixpoint clash (p s : string) : bool :=
  match p, s with String a p, String b s => if Ascii.eqb a b then clash p s else true | _, _ => false end.
Fixpoint nostart (p s : string) : bool := match s with "" => true | String _ s' => clash p s && nostart p s' end.
Lemma clash_strip p s t : clash p s = true -> strip_prefix p (s ++ t) = None.
Proof.
  revert s. induction p as [|a p IH]; intros [|b s] H; try discriminate. cbn [clash] in H. cbn [append strip_prefix].
  destruct (Ascii.eqb a b) eqn:E; [|now destruct (Ascii.eqb a b)]. now apply IH.
Qed.
Lemma clash_app p s t : clash p s = true -> clash p (s ++ t) = true.
Proof.
  revert s. induction p as [|a p IH]; intros [|b s] H; try discriminate. cbn [clash append] in *. destruct (Ascii.eqb a b); [now apply IH|reflexivity].
Qed.
Lemma nostart_app p s t : nostart p s = true -> nostart p t = true -> nostart p (s ++ t) = true.
Proof.
  intros H T. induction s as [|c s IH]; [exact T|]. cbn [nostart] in H. apply andb_true_iff in H. cbn [append nostart].
  rewrite IH by apply H. change (String c (s ++ t)) with (String c s ++ t). now rewrite clash_app by apply H.
Qed.
Lemma split_skip p s t : p <> "" -> nostart p s = true -> split_once p (s ++ t) = option_map (fun q => (s ++ fst q, snd q)) (split_once p t).
Proof.
  intros N. induction s as [|c s IH]; intros H.
  - cbn [append]. destruct (split_once p t) as [[a b]|]; reflexivity.
  - cbn [nostart] in H. apply andb_true_iff in H. destruct H as [H1 H2]. specialize (IH H2). apply (clash_strip _ _ t) in H1.
    cbn [append]. cbn [append] in H1. cbn [split_once]. rewrite H1, IH. now destruct (split_once p t) as [[a b]|].
Qed.
Lemma split_found p s t : p <> "" -> nostart p s = true -> split_once p (s ++ p ++ t) = Some (s, t).
Proof. intros N H. rewrite split_skip by assumption. rewrite PresProofs.split_once_app. cbn. now rewrite sapp_nil_r. Qed.
Lemma nostart_char c p s : sforall (fun d => negb (Ascii.eqb d c)) s = true -> nostart (String c p) s = true.
Proof.
  induction s as [|d s IH]; [reflexivity|]. cbn [sforall nostart clash]. rewrite andb_true_iff. intros [H1 H2]. rewrite IH by exact H2.
  apply negb_true_iff in H1. rewrite Ascii.eqb_sym in H1. now rewrite H1.
Qed.

(** ** Text escaped for an attribute *)
Definition attr_piece (c : ascii) : piece := if Ascii.eqb c ">" || Ascii.eqb c "'" then Lit (s1 c) else Esc (s1 c).
Fixpoint attrP (s : string) : list piece := match s with "" => [] | String c s => attr_piece c :: attrP s end.
Lemma attrP_raw s : raws (attrP s) = escape_xml_attr s.
Proof.
  rewrite escape_xml_attr_map. induction s as [|c s IH]; [reflexivity|]. cbn [attrP smap]. unfold raws in *. cbn [map]. rewrite sconcat_cons, IH. f_equal.
  unfold attr_piece. destruct c as [[] [] [] [] [] [] [] []]; reflexivity.
Qed.
Lemma attrP_vals s : vals (attrP s) = s.
Proof.
  induction s as [|c s IH]; [reflexivity|]. cbn [attrP]. unfold vals in *. cbn [map]. rewrite sconcat_cons, IH. unfold attr_piece. now destruct (Ascii.eqb c ">" || Ascii.eqb c "'").
Qed.
Lemma attrP_ok s : attr_ok s = true -> forallb pv_ok (attrP s) = true.
Proof.
  induction s as [|c s IH]; [reflexivity|]. cbn [attr_ok attrP forallb]. rewrite !andb_true_iff. intros [[H1 H3] H2]. split; [|now apply IH].
  unfold attr_piece. destruct (Ascii.eqb c ">" || Ascii.eqb c "'") eqn:E; cbn [pv_ok s1 sforall].
  - apply orb_true_iff in E. destruct E as [E|E]; apply Ascii.eqb_eq in E; subst c; reflexivity.
  - unfold s1. cbn [attr_ok]. now rewrite H1, H3.
Qed.
Lemma no_lt_escape s : sforall (fun d => negb (Ascii.eqb d "<")) (escape_xml_attr s) = true.
Proof.
  rewrite escape_xml_attr_map. induction s as [|c s IH]; [reflexivity|]. cbn [smap]. rewrite sforall_app, IH, andb_true_r. destruct c as [[] [] [] [] [] [] [] []]; reflexivity.
Qed.
(** The pieces of office_theme.xml that no theme changes. *)
Definition majRest : string := "<a:ea typeface=""""/><a:cs typeface=""""/><a:font script=""Jpan"" typeface=""ＭＳ Ｐゴシック""/><a:font script=""Hang"" typeface=""맑은 고딕""/><a:font script=""Hans"" typeface=""宋体""/><a:font script=""Hant"" typeface=""新細明體""/><a:font script=""Arab"" typeface=""Times New Roman""/><a:font script=""Hebr"" typeface=""Times New Roman""/><a:font script=""Thai"" typeface=""Angsana New""/><a:font script=""Ethi"" typeface=""Nyala""/><a:font script=""Beng"" typeface=""Vrinda""/><a:font script=""Gujr"" typeface=""Shruti""/><a:font script=""Khmr"" typeface=""MoolBoran""/><a:font script=""Knda"" typeface=""Tunga""/><a:font script=""Guru"" typeface=""Raavi""/><a:font script=""Cans"" typeface=""Euphemia""/><a:font script=""Cher"" typeface=""Plantagenet Cherokee""/><a:font script=""Yiii"" typeface=""Microsoft Yi Baiti""/><a:font script=""Tibt"" typeface=""Microsoft Himalaya""/><a:font script=""Thaa"" typeface=""MV Boli""/><a:font script=""Deva"" typeface=""Mangal""/><a:font script=""Telu"" typeface=""Gautami""/><a:font script=""Taml"" typeface=""Latha""/><a:font script=""Syrc"" typeface=""Estrangelo Edessa""/><a:font script=""Orya"" typeface=""Kalinga""/><a:font script=""Mlym"" typeface=""Kartika""/><a:font script=""Laoo"" typeface=""DokChampa""/><a:font script=""Sinh"" typeface=""Iskoola Pota""/><a:font script=""Mong"" typeface=""Mongolian Baiti""/><a:font script=""Viet"" typeface=""Times New Roman""/><a:font script=""Uigh"" typeface=""Microsoft Uighur""/><a:font script=""Geor"" typeface=""Sylfaen""/>".
Definition minRest : string := "<a:ea typeface=""""/><a:cs typeface=""""/><a:font script=""Jpan"" typeface=""ＭＳ Ｐゴシック""/><a:font script=""Hang"" typeface=""맑은 고딕""/><a:font script=""Hans"" typeface=""宋体""/><a:font script=""Hant"" typeface=""新細明體""/><a:font script=""Arab"" typeface=""Arial""/><a:font script=""Hebr"" typeface=""Arial""/><a:font script=""Thai"" typeface=""Cordia New""/><a:font script=""Ethi"" typeface=""Nyala""/><a:font script=""Beng"" typeface=""Vrinda""/><a:font script=""Gujr"" typeface=""Shruti""/><a:font script=""Khmr"" typeface=""DaunPenh""/><a:font script=""Knda"" typeface=""Tunga""/><a:font script=""Guru"" typeface=""Raavi""/><a:font script=""Cans"" typeface=""Euphemia""/><a:font script=""Cher"" typeface=""Plantagenet Cherokee""/><a:font script=""Yiii"" typeface=""Microsoft Yi Baiti""/><a:font script=""Tibt"" typeface=""Microsoft Himalaya""/><a:font script=""Thaa"" typeface=""MV Boli""/><a:font script=""Deva"" typeface=""Mangal""/><a:font script=""Telu"" typeface=""Gautami""/><a:font script=""Taml"" typeface=""Latha""/><a:font script=""Syrc"" typeface=""Estrangelo Edessa""/><a:font script=""Orya"" typeface=""Kalinga""/><a:font script=""Mlym"" typeface=""Kartika""/><a:font script=""Laoo"" typeface=""DokChampa""/><a:font script=""Sinh"" typeface=""Iskoola Pota""/><a:font script=""Mong"" typeface=""Mongolian Baiti""/><a:font script=""Viet"" typeface=""Arial""/><a:font script=""Uigh"" typeface=""Microsoft Uighur""/><a:font script=""Geor"" typeface=""Sylfaen""/>".
Definition fmtLit : string := "<a:fmtScheme name=""Office""><a:fillStyleLst><a:solidFill><a:schemeClr val=""phClr""/></a:solidFill><a:gradFill rotWithShape=""1""><a:gsLst><a:gs pos=""0""><a:schemeClr val=""phClr""><a:tint val=""50000""/><a:satMod val=""300000""/></a:schemeClr></a:gs><a:gs pos=""35000""><a:schemeClr val=""phClr""><a:tint val=""37000""/><a:satMod val=""300000""/></a:schemeClr></a:gs><a:gs pos=""100000""><a:schemeClr val=""phClr""><a:tint val=""15000""/><a:satMod val=""350000""/></a:schemeClr></a:gs></a:gsLst><a:lin ang=""16200000"" scaled=""1""/></a:gradFill><a:gradFill rotWithShape=""1""><a:gsLst><a:gs pos=""0""><a:schemeClr val=""phClr""><a:tint val=""100000""/><a:shade val=""100000""/><a:satMod val=""130000""/></a:schemeClr></a:gs><a:gs pos=""100000""><a:schemeClr val=""phClr""><a:tint val=""50000""/><a:shade val=""100000""/><a:satMod val=""350000""/></a:schemeClr></a:gs></a:gsLst><a:lin ang=""16200000"" scaled=""0""/></a:gradFill></a:fillStyleLst><a:lnStyleLst><a:ln w=""9525"" cap=""flat"" cmpd=""sng"" algn=""ctr""><a:solidFill><a:schemeClr val=""phClr""><a:shade val=""95000""/><a:satMod val=""105000""/></a:schemeClr></a:solidFill><a:prstDash val=""solid""/></a:ln><a:ln w=""25400"" cap=""flat"" cmpd=""sng"" algn=""ctr""><a:solidFill><a:schemeClr val=""phClr""/></a:solidFill><a:prstDash val=""solid""/></a:ln><a:ln w=""38100"" cap=""flat"" cmpd=""sng"" algn=""ctr""><a:solidFill><a:schemeClr val=""phClr""/></a:solidFill><a:prstDash val=""solid""/></a:ln></a:lnStyleLst><a:effectStyleLst><a:effectStyle><a:effectLst><a:outerShdw blurRad=""40000"" dist=""20000"" dir=""5400000"" rotWithShape=""0""><a:srgbClr val=""000000""><a:alpha val=""38000""/></a:srgbClr></a:outerShdw></a:effectLst></a:effectStyle><a:effectStyle><a:effectLst><a:outerShdw blurRad=""40000"" dist=""23000"" dir=""5400000"" rotWithShape=""0""><a:srgbClr val=""000000""><a:alpha val=""35000""/></a:srgbClr></a:outerShdw></a:effectLst></a:effectStyle><a:effectStyle><a:effectLst><a:outerShdw blurRad=""40000"" dist=""23000"" dir=""5400000"" rotWithShape=""0""><a:srgbClr val=""000000""><a:alpha val=""35000""/></a:srgbClr></a:outerShdw></a:effectLst><a:scene3d><a:camera prst=""orthographicFront""><a:rot lat=""0"" lon=""0"" rev=""0""/></a:camera><a:lightRig rig=""threePt"" dir=""t""><a:rot lat=""0"" lon=""0"" rev=""1200000""/></a:lightRig></a:scene3d><a:sp3d><a:bevelT w=""63500"" h=""25400""/></a:sp3d></a:effectStyle></a:effectStyleLst><a:bgFillStyleLst><a:solidFill><a:schemeClr val=""phClr""/></a:solidFill><a:gradFill rotWithShape=""1""><a:gsLst><a:gs pos=""0""><a:schemeClr val=""phClr""><a:tint val=""40000""/><a:satMod val=""350000""/></a:schemeClr></a:gs><a:gs pos=""40000""><a:schemeClr val=""phClr""><a:tint val=""45000""/><a:shade val=""99000""/><a:satMod val=""350000""/></a:schemeClr></a:gs><a:gs pos=""100000""><a:schemeClr val=""phClr""><a:shade val=""20000""/><a:satMod val=""255000""/></a:schemeClr></a:gs></a:gsLst><a:path path=""circle""><a:fillToRect l=""50000"" t=""-80000"" r=""50000"" b=""180000""/></a:path></a:gradFill><a:gradFill rotWithShape=""1""><a:gsLst><a:gs pos=""0""><a:schemeClr val=""phClr""><a:tint val=""80000""/><a:satMod val=""300000""/></a:schemeClr></a:gs><a:gs pos=""100000""><a:schemeClr val=""phClr""><a:shade val=""30000""/><a:satMod val=""200000""/></a:schemeClr></a:gs></a:gsLst><a:path path=""circle""><a:fillToRect l=""50000"" t=""50000"" r=""50000"" b=""50000""/></a:path></a:gradFill></a:bgFillStyleLst></a:fmtScheme>".
Definition tailLit : string := "<a:objectDefaults><a:spDef><a:spPr/><a:bodyPr/><a:lstStyle/><a:style><a:lnRef idx=""1""><a:schemeClr val=""accent1""/></a:lnRef><a:fillRef idx=""3""><a:schemeClr val=""accent1""/></a:fillRef><a:effectRef idx=""2""><a:schemeClr val=""accent1""/></a:effectRef><a:fontRef idx=""minor""><a:schemeClr val=""lt1""/></a:fontRef></a:style></a:spDef><a:lnDef><a:spPr/><a:bodyPr/><a:lstStyle/><a:style><a:lnRef idx=""2""><a:schemeClr val=""accent1""/></a:lnRef><a:fillRef idx=""0""><a:schemeClr val=""accent1""/></a:fillRef><a:effectRef idx=""1""><a:schemeClr val=""accent1""/></a:effectRef><a:fontRef idx=""minor""><a:schemeClr val=""tx1""/></a:fontRef></a:style></a:lnDef></a:objectDefaults><a:extraClrSchemeLst/>".
Definition officeScheme : string := "<a:clrScheme name=""Office""><a:dk1><a:sysClr val=""windowText"" lastClr=""000000""/></a:dk1><a:lt1><a:sysClr val=""window"" lastClr=""FFFFFF""/></a:lt1><a:dk2><a:srgbClr val=""1F497D""/></a:dk2><a:lt2><a:srgbClr val=""EEECE1""/></a:lt2><a:accent1><a:srgbClr val=""4F81BD""/></a:accent1><a:accent2><a:srgbClr val=""C0504D""/></a:accent2><a:accent3><a:srgbClr val=""9BBB59""/></a:accent3><a:accent4><a:srgbClr val=""8064A2""/></a:accent4><a:accent5><a:srgbClr val=""4BACC6""/></a:accent5><a:accent6><a:srgbClr val=""F79646""/></a:accent6><a:hlink><a:srgbClr val=""0000FF""/></a:hlink><a:folHlink><a:srgbClr val=""800080""/></a:folHlink></a:clrScheme>".
Definition p1 : string := "<?xml version=""1.0"" encoding=""UTF-8"" standalone=""yes""?>
<a:theme xmlns:a=""http://schemas.openxmlformats.org/drawingml/2006/main"" name=""".
Definition p2 : string := """><a:themeElements>".
Definition p3 : string := "<a:fontScheme name=""Office""><a:majorFont><a:latin typeface=""".
Definition p4 : string := """/>" ++ majRest ++ "</a:majorFont><a:minorFont><a:latin typeface=""".
Definition p5 : string := """/>" ++ minRest ++ "</a:minorFont></a:fontScheme>" ++ fmtLit ++ "</a:themeElements>" ++ tailLit ++ "</a:theme>".

Lemma office_pieces : office_theme_xml = p1 ++ "Office Theme" ++ p2 ++ officeScheme ++ p3 ++ "Calibri" ++ p4 ++ "Calibri" ++ p5.
Proof. vm_compute. reflexivity. Qed.
Definition theme_text (t : theme) : string :=
  p1 ++ escape_xml_attr (th_name t) ++ p2 ++ clr_scheme t ++ p3 ++ escape_xml_attr (th_major t) ++ p4 ++ escape_xml_attr (th_minor t) ++ p5.
Lemma scheme_replaced new : replace_scheme office_theme_xml new = p1 ++ "Office Theme" ++ p2 ++ new ++ p3 ++ "Calibri" ++ p4 ++ "Calibri" ++ p5.
Proof.
  unfold replace_scheme.
  assert (A : exists z, split_once "<a:clrScheme" office_theme_xml = Some (p1 ++ "Office Theme" ++ p2, z)) by (eexists; vm_compute; reflexivity).
  assert (B : exists z, split_once "</a:clrScheme>" office_theme_xml = Some (z, p3 ++ "Calibri" ++ p4 ++ "Calibri" ++ p5)) by (eexists; vm_compute; reflexivity).
  destruct A as [z1 A], B as [z2 B]. rewrite A, B. generalize p1, p2, (p3 ++ "Calibri" ++ p4 ++ "Calibri" ++ p5). intros. now rewrite !sapp_assoc.
Qed.
Definition name_pat : string := "name=""".
Lemma name_replaced a old w new : nostart name_pat a = true -> sforall (fun d => negb (Ascii.eqb d DQ)) old = true ->
  replace_first_name (a ++ name_pat ++ old ++ """" ++ w) new = a ++ name_pat ++ new ++ """" ++ w.
Proof.
  intros A O. unfold replace_first_name. fold name_pat. rewrite split_found by (discriminate || exact A).
  rewrite split_found; [reflexivity|discriminate|now apply nostart_char].
Qed.
Lemma latin_replaced a tag old w face : nostart ("<a:" ++ tag ++ ">") a = true -> nostart latin_prefix ("<a:" ++ tag ++ ">") = true -> sforall (fun d => negb (Ascii.eqb d DQ)) old = true ->
  replace_font_latin (a ++ ("<a:" ++ tag ++ ">") ++ latin_prefix ++ old ++ """" ++ w) tag face
  = a ++ ("<a:" ++ tag ++ ">") ++ latin_prefix ++ escape_xml_attr face ++ """" ++ w.
Proof.
  intros A B O. unfold replace_font_latin. rewrite split_found by (discriminate || exact A). rewrite split_found by (discriminate || exact B).
  rewrite split_found; [|discriminate|now apply nostart_char]. reflexivity.
Qed.
Definition lt_free (s : string) : bool := sforall (fun d => negb (Ascii.eqb d "<")) s.
Definition scheme_lt (t : theme) : bool := forallb lt_free (color_list (th_colors t)).
Lemma slot_nostart tag n h : lt_free h = true -> nostart (String "<" tag) ("<a:" ++ n ++ "><a:srgbClr val=""") = true -> nostart (String "<" tag) ("""/></a:" ++ n ++ ">") = true ->
  nostart (String "<" tag) (color_slot n h) = true.
Proof.
  intros L A B. unfold color_slot.
  replace (_ ++ _) with (("<a:" ++ n ++ "><a:srgbClr val=""") ++ h ++ ("""/></a:" ++ n ++ ">")) by (rewrite ?sapp_assoc; reflexivity).
  apply nostart_app; [exact A|]. apply nostart_app; [now apply nostart_char|exact B].
Qed.
Lemma clr_nostart tag t : scheme_lt t = true -> nostart (String "<" tag) "<a:clrScheme name=""" = true -> nostart (String "<" tag) """>" = true -> nostart (String "<" tag) "</a:clrScheme>" = true ->
  (forall n, In n ["dk1"; "lt1"; "dk2"; "lt2"; "accent1"; "accent2"; "accent3"; "accent4"; "accent5"; "accent6"; "hlink"; "folHlink"] ->
     nostart (String "<" tag) ("<a:" ++ n ++ "><a:srgbClr val=""") = true /\ nostart (String "<" tag) ("""/></a:" ++ n ++ ">") = true) ->
  nostart (String "<" tag) (clr_scheme t) = true.
Proof.
  intros L A B C N. unfold clr_scheme. apply nostart_app; [exact A|]. apply nostart_app; [apply nostart_char, no_lt_escape|]. apply nostart_app; [exact B|].
  apply nostart_app; [|exact C]. unfold colors_xml. cbn [color_list] in L. unfold scheme_lt in L. cbn [color_list forallb] in L.
  assert (S : forall n h, lt_free h = true -> In n ["dk1"; "lt1"; "dk2"; "lt2"; "accent1"; "accent2"; "accent3"; "accent4"; "accent5"; "accent6"; "hlink"; "folHlink"] -> nostart (String "<" tag) (color_slot n h) = true).
  { intros n h H I. destruct (N n I). now apply slot_nostart. }
  repeat (apply andb_true_iff in L; let X := fresh "H" in destruct L as [X L]).
  repeat (apply nostart_app; [apply S; [assumption|cbn; tauto]|]). apply S; [assumption|cbn; tauto].
Qed.
Lemma theme_eq t : scheme_lt t = true -> (String.eqb (th_name t) "Office Theme" && colors_eqb (th_colors t) office_colors)%bool = false -> theme_xml t = theme_text t.
Proof.
  intros L N. unfold theme_xml. rewrite N. clear N. cbv zeta. rewrite scheme_replaced.
  set (x1 := srev (substring 6 1000 (srev p1))).
  assert (P1 : p1 = x1 ++ name_pat) by (vm_compute; reflexivity).
  set (x2 := "><a:themeElements>"). assert (P2 : p2 = """" ++ x2) by (vm_compute; reflexivity).
  set (x3 := "<a:fontScheme name=""Office"">"). assert (P3 : p3 = x3 ++ "<a:majorFont>" ++ latin_prefix) by (vm_compute; reflexivity).
  set (x4 := "/>" ++ majRest ++ "</a:majorFont>"). assert (P4 : p4 = """" ++ x4 ++ "<a:minorFont>" ++ latin_prefix) by (vm_compute; reflexivity).
  set (x5 := "/>" ++ minRest ++ "</a:minorFont></a:fontScheme>" ++ fmtLit ++ "</a:themeElements>" ++ tailLit ++ "</a:theme>"). assert (P5 : p5 = """" ++ x5) by (vm_compute; reflexivity).
  set (name := escape_xml_attr (th_name t)). set (q := """").
  assert (LT : forall tag, nostart (String "<" tag) name = true) by (intros; apply nostart_char, no_lt_escape).
  assert (E1 : replace_first_name (p1 ++ "Office Theme" ++ p2 ++ clr_scheme t ++ p3 ++ "Calibri" ++ p4 ++ "Calibri" ++ p5) name
    = p1 ++ name ++ p2 ++ clr_scheme t ++ p3 ++ "Calibri" ++ p4 ++ "Calibri" ++ p5).
  { rewrite P1, P2. generalize (clr_scheme t ++ p3 ++ "Calibri" ++ p4 ++ "Calibri" ++ p5). intros w.
    replace ((x1 ++ name_pat) ++ "Office Theme" ++ ("""" ++ x2) ++ w) with (x1 ++ name_pat ++ "Office Theme" ++ """" ++ (x2 ++ w)) by (rewrite ?sapp_assoc; reflexivity).
    rewrite name_replaced; [rewrite ?sapp_assoc; reflexivity| |reflexivity]. vm_compute. reflexivity. }
  rewrite E1. clear E1.
  assert (E2 : replace_font_latin (p1 ++ name ++ p2 ++ clr_scheme t ++ p3 ++ "Calibri" ++ p4 ++ "Calibri" ++ p5) "majorFont" (th_major t)
    = p1 ++ name ++ p2 ++ clr_scheme t ++ p3 ++ escape_xml_attr (th_major t) ++ p4 ++ "Calibri" ++ p5).
  { rewrite P3, P4. generalize p5. intros w.
    replace (p1 ++ name ++ p2 ++ clr_scheme t ++ (x3 ++ "<a:majorFont>" ++ latin_prefix) ++ "Calibri" ++ ("""" ++ x4 ++ "<a:minorFont>" ++ latin_prefix) ++ "Calibri" ++ w)
      with ((p1 ++ name ++ p2 ++ clr_scheme t ++ x3) ++ ("<a:" ++ "majorFont" ++ ">") ++ latin_prefix ++ "Calibri" ++ """" ++ (x4 ++ "<a:minorFont>" ++ latin_prefix ++ "Calibri" ++ w)) by (rewrite ?sapp_assoc; reflexivity).
    rewrite latin_replaced; [rewrite ?sapp_assoc; reflexivity| |vm_compute; reflexivity|reflexivity].
    change ("<a:" ++ "majorFont" ++ ">") with (String "<" "a:majorFont>").
    apply nostart_app; [vm_compute; reflexivity|]. apply nostart_app; [apply LT|]. apply nostart_app; [vm_compute; reflexivity|]. apply nostart_app; [|vm_compute; reflexivity].
    apply clr_nostart; [exact L|reflexivity..|]. intros n I. cbn [In] in I. repeat (destruct I as [<-|I]; [split; vm_compute; reflexivity|]). destruct I. }
  rewrite E2. clear E2. unfold theme_text. fold name. set (major := escape_xml_attr (th_major t)).
  rewrite P4, P5.
  replace (p1 ++ name ++ p2 ++ clr_scheme t ++ p3 ++ major ++ ("""" ++ x4 ++ "<a:minorFont>" ++ latin_prefix) ++ "Calibri" ++ ("""" ++ x5))
    with ((p1 ++ name ++ p2 ++ clr_scheme t ++ p3 ++ major ++ ("""" ++ x4)) ++ ("<a:" ++ "minorFont" ++ ">") ++ latin_prefix ++ "Calibri" ++ """" ++ x5) by (rewrite ?sapp_assoc; reflexivity).
  rewrite latin_replaced; [rewrite ?sapp_assoc; reflexivity| |vm_compute; reflexivity|reflexivity].
  change ("<a:" ++ "minorFont" ++ ">") with (String "<" "a:minorFont>").
  apply nostart_app; [vm_compute; reflexivity|]. apply nostart_app; [apply LT|]. apply nostart_app; [vm_compute; reflexivity|]. apply nostart_app.
  { apply clr_nostart; [exact L|reflexivity..|]. intros n I. cbn [In] in I. repeat (destruct I as [<-|I]; [split; vm_compute; reflexivity|]). destruct I. }
  apply nostart_app; [vm_compute; reflexivity|]. apply nostart_app; [apply nostart_char, no_lt_escape|]. vm_compute. reflexivity.
Qed.

(** ** The theme as a document *)
Definition slotT (n h : string) : tpl := TE ("a:" ++ n) [] [TS "a:srgbClr" [("val", [Lit h])]].
Definition slotsT (c : colors) : list tpl :=
  [slotT "dk1" (tc_dk1 c); slotT "lt1" (tc_lt1 c); slotT "dk2" (tc_dk2 c); slotT "lt2" (tc_lt2 c); slotT "accent1" (tc_accent1 c); slotT "accent2" (tc_accent2 c);
   slotT "accent3" (tc_accent3 c); slotT "accent4" (tc_accent4 c); slotT "accent5" (tc_accent5 c); slotT "accent6" (tc_accent6 c); slotT "hlink" (tc_hlink c); slotT "folHlink" (tc_fol c)].
Definition lit (s : string) : tpl := TC s (lit_nodes s).
Definition themeF (t : theme) (maj min fmt tail : list tpl) : tpl :=
  TE "a:theme" [("xmlns:a", [Lit "http://schemas.openxmlformats.org/drawingml/2006/main"]); ("name", attrP (th_name t))]
    ([TE "a:themeElements" []
       ([TE "a:clrScheme" [("name", attrP (th_name t))] (slotsT (th_colors t));
         TE "a:fontScheme" [("name", [Lit "Office"])]
           [TE "a:majorFont" [] ([TS "a:latin" [("typeface", attrP (th_major t))]] ++ maj)%list;
            TE "a:minorFont" [] ([TS "a:latin" [("typeface", attrP (th_minor t))]] ++ min)%list]] ++ fmt)%list] ++ tail)%list.
Definition themeT (t : theme) : tpl := themeF t [lit majRest] [lit minRest] [lit fmtLit] [lit tailLit].
Lemma slotsT_str c : tstrs (slotsT c) = colors_xml c.
Proof. unfold slotsT, colors_xml, color_slot, slotT. tstr_eq. Qed.
Lemma themeT_str t : decl ++ nl ++ tstr (themeT t) = theme_text t.
Proof.
  unfold theme_text, clr_scheme, p4, p5, themeT, themeF, lit. rewrite <- slotsT_str, <- !attrP_raw. cbn [app tstr]. unfold tstrs.
  repeat (unfold attrs_raw, araw; cbn [map sconcat fold_right tstr fst snd]).
  generalize (map tstr (slotsT (th_colors t))) (raws (attrP (th_name t))) (raws (attrP (th_major t))) (raws (attrP (th_minor t))) majRest minRest fmtLit tailLit.
  intros. unfold p1, p2, p3, raws. cbn [map sconcat fold_right praw]. unfold sconcat. str_refl.
Qed.
Definition theme_ok (t : theme) : bool :=
  attr_ok (th_name t) && attr_ok (th_major t) && attr_ok (th_minor t) && forallb (sforall plain_val) (color_list (th_colors t)).
Lemma attrs_one k s : is_name k = true -> attr_ok s = true -> tattrs_ok [(k, attrP s)] = true.
Proof. intros K H. unfold tattrs_ok. cbn [nodup_keys forallb fst snd map existsb]. now rewrite K, attrP_ok. Qed.
Lemma slotsT_toks c : forallb (sforall plain_val) (color_list c) = true -> toks (slotsT c).
Proof.
  intros L. cbn [color_list forallb] in L. unfold slotsT, slotT. repeat (apply andb_true_iff in L; let X := fresh "H" in destruct L as [X L]). toks_solve.
Qed.
Lemma lit_tok s : lit_ok s = true -> tok (lit s).
Proof. intros H. cbn [lit tok]. now apply lit_frag. Qed.
Lemma themeT_tok t : theme_ok t = true -> tok (themeT t).
Proof.
  unfold theme_ok. rewrite !andb_true_iff. intros [[[N M] I] C]. unfold themeT, themeF. apply tok_TE; [reflexivity| |].
  { unfold tattrs_ok. cbn [nodup_keys forallb fst snd map existsb]. rewrite attrP_ok by exact N. reflexivity. }
  cbn [app]. apply toks_app_i with (l1 := [_]) (l2 := [_]); (split; [|exact Logic.I]); [|apply lit_tok; vm_compute; reflexivity].
  apply tok_TE; [reflexivity..|]. split; [|split; [|split; [apply lit_tok; vm_compute; reflexivity|exact Logic.I]]].
  - apply tok_TE; [reflexivity|now apply attrs_one|]. now apply slotsT_toks.
  - apply tok_TE; [reflexivity..|].
    split; [|split; [|exact Logic.I]]; (apply tok_TE; [reflexivity..|]; split; [split; [reflexivity|now apply attrs_one]|split; [apply lit_tok; vm_compute; reflexivity|exact Logic.I]]).
Qed.
Lemma theme_read t : theme_ok t = true -> (String.eqb (th_name t) "Office Theme" && colors_eqb (th_colors t) office_colors)%bool = false ->
  xml_read (theme_xml t) = Some (tnode (themeT t)).
Proof.
  intros H N. rewrite theme_eq, <- themeT_str; [apply read_node; [reflexivity..|now apply themeT_tok]| |exact N].
  unfold theme_ok in H. apply andb_true_iff in H. destruct H as [_ H]. unfold scheme_lt. rewrite forallb_forall in *. intros c C. specialize (H c C).
  revert H. apply sforall_weaken. intros d. unfold plain_val. destruct (Ascii.eqb d "<") eqn:E; [apply Ascii.eqb_eq in E; subst d; discriminate|reflexivity].
Qed.
Section READ.
  Context (t : theme) (maj min fmt tail : list tpl).
  Context (T : named "a:themeElements" (tsnodes tail) = []) (F1 : named "a:clrScheme" (tsnodes fmt) = []) (F2 : named "a:fontScheme" (tsnodes fmt) = []).
  Context (A : named "a:latin" (tsnodes maj) = []) (B : named "a:latin" (tsnodes min) = []).
  Notation x := (tnode (themeF t maj min fmt tail)).
  Lemma elements p : at_path ("a:themeElements" :: p) x = at_path p (tnode (TE "a:themeElements" []
       ([TE "a:clrScheme" [("name", attrP (th_name t))] (slotsT (th_colors t));
         TE "a:fontScheme" [("name", [Lit "Office"])]
           [TE "a:majorFont" [] ([TS "a:latin" [("typeface", attrP (th_major t))]] ++ maj)%list;
            TE "a:minorFont" [] ([TS "a:latin" [("typeface", attrP (th_minor t))]] ++ min)%list]] ++ fmt)%list)).
  Proof.
    rewrite path_step, named_children. unfold themeF. cbn [tbody]. rewrite tsnodes_named_app, T, app_nil_r, named_list by reflexivity.
    cbn [filter called tname String.eqb Ascii.eqb Bool.eqb map flat_map]. apply app_nil_r.
  Qed.
  Lemma scheme_slot p : at_path ("a:themeElements" :: "a:clrScheme" :: p) x = at_path p (tnode (TE "a:clrScheme" [("name", attrP (th_name t))] (slotsT (th_colors t)))).
  Proof.
    rewrite elements, path_step, named_children. cbn [tbody]. rewrite tsnodes_named_app, F1, app_nil_r, named_list by reflexivity.
    cbn [filter called tname String.eqb Ascii.eqb Bool.eqb map flat_map]. apply app_nil_r.
  Qed.
  Lemma font_part p : at_path ("a:themeElements" :: "a:fontScheme" :: p) x = at_path p (tnode (TE "a:fontScheme" [("name", [Lit "Office"])]
           [TE "a:majorFont" [] ([TS "a:latin" [("typeface", attrP (th_major t))]] ++ maj)%list;
            TE "a:minorFont" [] ([TS "a:latin" [("typeface", attrP (th_minor t))]] ++ min)%list])).
  Proof.
    rewrite elements, path_step, named_children. cbn [tbody]. rewrite tsnodes_named_app, F2, app_nil_r, named_list by reflexivity.
    cbn [filter called tname String.eqb Ascii.eqb Bool.eqb map flat_map]. apply app_nil_r.
  Qed.
  Lemma faces : latin_face x "a:majorFont" = [th_major t] /\ latin_face x "a:minorFont" = [th_minor t].
  Proof.
    unfold latin_face. rewrite !font_part.
    split; pstep; rewrite path_one, named_children; cbn [tbody].
    - rewrite (named_cons _ _ maj "a:latin"), A by reflexivity. exact (f_equal (fun v => [v]) (attrP_vals _)).
    - rewrite (named_cons _ _ min "a:latin"), B by reflexivity. exact (f_equal (fun v => [v]) (attrP_vals _)).
  Qed.
  Lemma slot_read n h : filter (called ("a:" ++ n)) (slotsT (th_colors t)) = [slotT n h] -> slot_color x ("a:" ++ n) = [h].
  Proof.
    intros S. unfold slot_color. rewrite !scheme_slot, !(path_list ("a:" ++ n)) by reflexivity. cbn [tbody]. rewrite S. cbn [map flat_map]. rewrite !app_nil_r. unfold slotT. pread. cbn. now rewrite sapp_nil_r.
  Qed.
  Lemma palette : theme_colors x = map (fun c => [c]) (color_list (th_colors t)).
  Proof.
    unfold theme_colors, slots, color_list. cbn [map].
    apply (f_equal2 (@cons (list string))); [exact (slot_read "dk1" _ eq_refl)|].
    apply (f_equal2 (@cons (list string))); [exact (slot_read "lt1" _ eq_refl)|].
    apply (f_equal2 (@cons (list string))); [exact (slot_read "dk2" _ eq_refl)|].
    apply (f_equal2 (@cons (list string))); [exact (slot_read "lt2" _ eq_refl)|].
    apply (f_equal2 (@cons (list string))); [exact (slot_read "accent1" _ eq_refl)|].
    apply (f_equal2 (@cons (list string))); [exact (slot_read "accent2" _ eq_refl)|].
    apply (f_equal2 (@cons (list string))); [exact (slot_read "accent3" _ eq_refl)|].
    apply (f_equal2 (@cons (list string))); [exact (slot_read "accent4" _ eq_refl)|].
    apply (f_equal2 (@cons (list string))); [exact (slot_read "accent5" _ eq_refl)|].
    apply (f_equal2 (@cons (list string))); [exact (slot_read "accent6" _ eq_refl)|].
    apply (f_equal2 (@cons (list string))); [exact (slot_read "hlink" _ eq_refl)|].
    apply (f_equal2 (@cons (list string))); [exact (slot_read "folHlink" _ eq_refl)|].
    reflexivity.
  Qed.
  Lemma theme_name : attr "name" x = th_name t.
  Proof. exact (attrP_vals _). Qed.
End READ.

Lemma theme_says t : attr "name" (tnode (themeT t)) = th_name t /\ theme_colors (tnode (themeT t)) = map (fun c => [c]) (color_list (th_colors t))
  /\ latin_face (tnode (themeT t)) "a:majorFont" = [th_major t] /\ latin_face (tnode (themeT t)) "a:minorFont" = [th_minor t].
Proof.
  unfold themeT. split; [apply theme_name|]. split; [apply palette; vm_compute; reflexivity|]. apply faces; vm_compute; reflexivity.
Qed.
Lemma office_reads : exists x, xml_read office_theme_xml = Some x /\ attr "name" x = "Office Theme" /\ theme_colors x = map (fun c => [c]) (color_list office_colors)
  /\ latin_face x "a:majorFont" = ["Calibri"] /\ latin_face x "a:minorFont" = ["Calibri"].
Proof. eexists. split; [vm_compute; reflexivity|]. repeat split; vm_compute; reflexivity. Qed.
Lemma eq_all_eq a b : eq_all a b = true -> a = b.
Proof. revert b. induction a as [|x a IH]; intros [|y b] H; try discriminate; [reflexivity|]. cbn in H. apply andb_true_iff in H. destruct H as [H1 H2]. apply String.eqb_eq in H1. subst. f_equal. now apply IH. Qed.
Lemma colors_list_inj c d : color_list c = color_list d -> c = d.
Proof. destruct c, d. cbn. intros H. now injection H as -> -> -> -> -> -> -> -> -> -> -> ->. Qed.
Lemma any_theme_reads t : theme_ok t = true -> (th_name t = "Office Theme" -> th_colors t = office_colors -> th_major t = "Calibri" /\ th_minor t = "Calibri") ->
  exists x, xml_read (theme_xml t) = Some x /\ attr "name" x = th_name t /\ theme_colors x = map (fun c => [c]) (color_list (th_colors t))
  /\ latin_face x "a:majorFont" = [th_major t] /\ latin_face x "a:minorFont" = [th_minor t].
Proof.
  intros H O. destruct (String.eqb (th_name t) "Office Theme" && colors_eqb (th_colors t) office_colors)%bool eqn:E.
  - unfold theme_xml. rewrite E. apply andb_true_iff in E. destruct E as [E1 E2]. apply String.eqb_eq in E1. apply eq_all_eq, colors_list_inj in E2.
    destruct (O E1 E2) as [-> ->]. rewrite E1, E2. exact office_reads.
  - exists (tnode (themeT t)). split; [now apply theme_read|]. apply theme_says.
Qed.
