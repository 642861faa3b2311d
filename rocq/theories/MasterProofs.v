(** Proofs about the slide master and the layouts. *)
From Coq Require Import String Ascii List Bool Arith NArith Lia.
From Verif Require Import Str StrRefl Num EscapeModel EscapeProofs XmlSpec XmlProofs XmlTpl OpcSpec GenModel GenProofs PresProofs TplRead XmlPath PathRead SlideModel DeckModel DeckSpec DeckParts DeckWhole SettingsModel SettingsSpec ShowProofs PrintProofs.
Import ListNotations.
Open Scope nat_scope.
Open Scope string_scope.

(** ** The slide master *)
Definition mhdrT (id : nat) : list tpl := ([TE "p:sp" [] [TE "p:nvSpPr" [] [TS "p:cNvPr" [("id", [Lit (decn id)]); ("name", [Lit "Header Placeholder"])]; TE "p:cNvSpPr" [] [TS "a:spLocks" [("noGrp", [Lit "1"])]]; TE "p:nvPr" [] [TS "p:ph" [("type", [Lit "hdr"])]]]; TE "p:spPr" [] [TE "a:xfrm" [] [TS "a:off" [("x", [Lit "312420"]); ("y", [Lit "213360"])]; TS "a:ext" [("cx", [Lit "8519760"]); ("cy", [Lit "365125"])]]; TE "a:prstGeom" [("prst", [Lit "rect"])] [TS "a:avLst" []]; TS "a:noFill" []]; TE "p:txBody" [] [TS "a:bodyPr" []; TS "a:lstStyle" []; TE "a:p" [] [TS "a:endParaRPr" [("lang", [Lit "en-US"])]]]]]).
Definition mftrT (id : nat) (f : string) : list tpl := ([TE "p:sp" [] [TE "p:nvSpPr" [] [TS "p:cNvPr" [("id", [Lit (decn id)]); ("name", [Lit "Footer Placeholder"])]; TE "p:cNvSpPr" [] [TS "a:spLocks" [("noGrp", [Lit "1"])]]; TE "p:nvPr" [] [TS "p:ph" [("type", [Lit "ftr"]); ("sz", [Lit "quarter"])]]]; TE "p:spPr" [] [TE "a:xfrm" [] [TS "a:off" [("x", [Lit "3124200"]); ("y", [Lit "6356350"])]; TS "a:ext" [("cx", [Lit "2895600"]); ("cy", [Lit "365125"])]]; TE "a:prstGeom" [("prst", [Lit "rect"])] [TS "a:avLst" []]; TS "a:noFill" []]; TE "p:txBody" [] [TS "a:bodyPr" []; TS "a:lstStyle" []; TE "a:p" [] [TE "a:r" [] [TS "a:rPr" [("lang", [Lit "en-US"]); ("sz", [Lit "1200"])]; TE "a:t" [] [TT [Esc f]]]]]]]).
Definition mdtT (id : nat) : list tpl := ([TE "p:sp" [] [TE "p:nvSpPr" [] [TS "p:cNvPr" [("id", [Lit (decn id)]); ("name", [Lit "Date Placeholder"])]; TE "p:cNvSpPr" [] [TS "a:spLocks" [("noGrp", [Lit "1"])]]; TE "p:nvPr" [] [TS "p:ph" [("type", [Lit "dt"]); ("sz", [Lit "half"])]]]; TE "p:spPr" [] [TE "a:xfrm" [] [TS "a:off" [("x", [Lit "457200"]); ("y", [Lit "6356350"])]; TS "a:ext" [("cx", [Lit "2133600"]); ("cy", [Lit "365125"])]]; TE "a:prstGeom" [("prst", [Lit "rect"])] [TS "a:avLst" []]; TS "a:noFill" []]; TE "p:txBody" [] [TS "a:bodyPr" []; TS "a:lstStyle" []; TE "a:p" [] [TE "a:fld" [("id", [Lit "{B6F15528-F159-4107-2D14-000000000000}"]); ("type", [Lit "datetimeFigureOut"])] [TS "a:rPr" [("lang", [Lit "en-US"]); ("sz", [Lit "1200"])]; TE "a:t" [] [TT [Lit "6/1/2026"]]]; TS "a:endParaRPr" [("lang", [Lit "en-US"]); ("sz", [Lit "1200"])]]]]]).
Definition mnumT (id : nat) : list tpl := ([TE "p:sp" [] [TE "p:nvSpPr" [] [TS "p:cNvPr" [("id", [Lit (decn id)]); ("name", [Lit "Slide Number Placeholder"])]; TE "p:cNvSpPr" [] [TS "a:spLocks" [("noGrp", [Lit "1"])]]; TE "p:nvPr" [] [TS "p:ph" [("type", [Lit "sldNum"]); ("sz", [Lit "quarter"])]]]; TE "p:spPr" [] [TE "a:xfrm" [] [TS "a:off" [("x", [Lit "8610600"]); ("y", [Lit "6356350"])]; TS "a:ext" [("cx", [Lit "533400"]); ("cy", [Lit "365125"])]]; TE "a:prstGeom" [("prst", [Lit "rect"])] [TS "a:avLst" []]; TS "a:noFill" []]; TE "p:txBody" [] [TS "a:bodyPr" []; TS "a:lstStyle" []; TE "a:p" [] [TE "a:fld" [("id", [Lit "{B6F15528-F159-4107-2D14-000000000001}"]); ("type", [Lit "slidenum"])] [TS "a:rPr" [("lang", [Lit "en-US"]); ("sz", [Lit "1200"])]; TE "a:t" [] [TT [Lit "‹#›"]]]; TS "a:endParaRPr" [("lang", [Lit "en-US"]); ("sz", [Lit "1200"])]]]]]).
Lemma mhdr_str id : tstrs (mhdrT id) = placeholder id "Header Placeholder" "hdr" None 312420 213360 8519760 365125.
Proof. unfold mhdrT, placeholder. cbv zeta iota. 
  change (dec 312420) with "312420". change (dec 213360) with "213360". change (dec 8519760) with "8519760". change (dec 365125) with "365125". tstr_eq. Qed.
Lemma mftr_str id f : tstrs (mftrT id f) = ("<p:sp><p:nvSpPr><p:cNvPr id=""" ++ decn id ++ """ name=""Footer Placeholder""/><p:cNvSpPr><a:spLocks noGrp=""1""/></p:cNvSpPr><p:nvPr><p:ph type=""ftr"" sz=""quarter""/></p:nvPr></p:nvSpPr><p:spPr><a:xfrm><a:off x=""3124200"" y=""6356350""/><a:ext cx=""2895600"" cy=""365125""/></a:xfrm><a:prstGeom prst=""rect""><a:avLst/></a:prstGeom><a:noFill/></p:spPr><p:txBody><a:bodyPr/><a:lstStyle/><a:p><a:r><a:rPr lang=""en-US"" sz=""1200""/><a:t>" ++ escape_xml f ++ "</a:t></a:r></a:p></p:txBody></p:sp>").
Proof. unfold mftrT. tstr_eq. Qed.
Lemma mdt_str id : tstrs (mdtT id) = ("<p:sp><p:nvSpPr><p:cNvPr id=""" ++ decn id ++ """ name=""Date Placeholder""/><p:cNvSpPr><a:spLocks noGrp=""1""/></p:cNvSpPr><p:nvPr><p:ph type=""dt"" sz=""half""/></p:nvPr></p:nvSpPr><p:spPr><a:xfrm><a:off x=""457200"" y=""6356350""/><a:ext cx=""2133600"" cy=""365125""/></a:xfrm><a:prstGeom prst=""rect""><a:avLst/></a:prstGeom><a:noFill/></p:spPr><p:txBody><a:bodyPr/><a:lstStyle/><a:p><a:fld id=""{B6F15528-F159-4107-2D14-000000000000}"" type=""datetimeFigureOut""><a:rPr lang=""en-US"" sz=""1200""/><a:t>6/1/2026</a:t></a:fld><a:endParaRPr lang=""en-US"" sz=""1200""/></a:p></p:txBody></p:sp>").
Proof. unfold mdtT. tstr_eq. Qed.
Lemma mnum_str id : tstrs (mnumT id) = ("<p:sp><p:nvSpPr><p:cNvPr id=""" ++ decn id ++ """ name=""Slide Number Placeholder""/><p:cNvSpPr><a:spLocks noGrp=""1""/></p:cNvSpPr><p:nvPr><p:ph type=""sldNum"" sz=""quarter""/></p:nvPr></p:nvSpPr><p:spPr><a:xfrm><a:off x=""8610600"" y=""6356350""/><a:ext cx=""533400"" cy=""365125""/></a:xfrm><a:prstGeom prst=""rect""><a:avLst/></a:prstGeom><a:noFill/></p:spPr><p:txBody><a:bodyPr/><a:lstStyle/><a:p><a:fld id=""{B6F15528-F159-4107-2D14-000000000001}"" type=""slidenum""><a:rPr lang=""en-US"" sz=""1200""/><a:t>‹#›</a:t></a:fld><a:endParaRPr lang=""en-US"" sz=""1200""/></a:p></p:txBody></p:sp>").
Proof. unfold mnumT. tstr_eq. Qed.
Definition n1 (p : print_settings) : nat := if is_some (pr_header p) then 3 else 2.
Definition n2 (p : print_settings) : nat := if is_some (pr_footer p) then n1 p + 1 else n1 p.
Definition n3 (p : print_settings) : nat := if pr_date p then n2 p + 1 else n2 p.
Definition master_pages (o : option print_settings) : list tpl :=
  match o with
  | Some p => (opt (pr_header p) (fun _ => mhdrT 2) ++ opt (pr_footer p) (mftrT (n1 p)) ++ when (pr_date p) (mdtT (n2 p)) ++ when (pr_numbers p) (mnumT (n3 p)))%list
  | None => []
  end.
Lemma mh p : master_header p 2 = (tstrs (opt (pr_header p) (fun _ => mhdrT 2)), n1 p).
Proof. unfold master_header, n1. destruct (pr_header p); cbn [opt is_some]; [now rewrite mhdr_str|reflexivity]. Qed.
Lemma mf p n : master_footer p n = (tstrs (opt (pr_footer p) (mftrT n)), if is_some (pr_footer p) then n + 1 else n).
Proof. unfold master_footer. destruct (pr_footer p); cbn [opt is_some]; [now rewrite mftr_str|reflexivity]. Qed.
Lemma md p n : master_date p n = (tstrs (when (pr_date p) (mdtT n)), if pr_date p then n + 1 else n).
Proof. unfold master_date. destruct (pr_date p); cbn [when]; [now rewrite mdt_str|reflexivity]. Qed.
Lemma mn p n : master_number p n = tstrs (when (pr_numbers p) (mnumT n)).
Proof. unfold master_number. destruct (pr_numbers p); cbn [when]; [now rewrite mnum_str|reflexivity]. Qed.
Lemma pages_str o : tstrs (master_pages o) = master_footer_shapes o.
Proof. destruct o as [p|]; [|reflexivity]. unfold master_pages, master_footer_shapes. now rewrite !tstrs_app, mh, mf, md, mn. Qed.
Definition layoutE (i : nat) : list tpl := [nlT; TS "p:sldLayoutId" [("id", [Lit (dec (slide_layout_id + N.of_nat i))]); ("r:id", [Lit "rId"; Lit (decn (i + 1))])]].
Lemma layoutE_str l : sconcat (map layout_id_entry l) = tstrs (flat_map layoutE l).
Proof. induction l as [|i l IH]; [reflexivity|]. cbn [map flat_map]. rewrite sconcat_cons, IH, tstrs_app. f_equal. unfold layout_id_entry, layoutE, nlT. tstr_eq. Qed.
Definition masterF (l k z : list tpl) : tpl := (TE "p:sldMaster" [("xmlns:a", [Lit "http://schemas.openxmlformats.org/drawingml/2006/main"]); ("xmlns:r", [Lit "http://schemas.openxmlformats.org/officeDocument/2006/relationships"]); ("xmlns:p", [Lit "http://schemas.openxmlformats.org/presentationml/2006/main"])] ([TT [Lit "
"]; TE "p:cSld" [] [TT [Lit "
"]; TE "p:bg" [] [TT [Lit "
"]; TE "p:bgRef" [("idx", [Lit "1001"])] [TT [Lit "
"]; TS "a:schemeClr" [("val", [Lit "bg1"])]; TT [Lit "
"]]; TT [Lit "
"]]; TT [Lit "
"]; TE "p:spTree" [] ([TT [Lit "
"]; TE "p:nvGrpSpPr" [] [TT [Lit "
"]; TS "p:cNvPr" [("id", [Lit "1"]); ("name", [])]; TT [Lit "
"]; TS "p:cNvGrpSpPr" []; TT [Lit "
"]; TS "p:nvPr" []; TT [Lit "
"]]; TT [Lit "
"]; TE "p:grpSpPr" [] [TT [Lit "
"]; TE "a:xfrm" [] [TT [Lit "
"]; TS "a:off" [("x", [Lit "0"]); ("y", [Lit "0"])]; TT [Lit "
"]; TS "a:ext" [("cx", [Lit "0"]); ("cy", [Lit "0"])]; TT [Lit "
"]; TS "a:chOff" [("x", [Lit "0"]); ("y", [Lit "0"])]; TT [Lit "
"]; TS "a:chExt" [("cx", [Lit "0"]); ("cy", [Lit "0"])]; TT [Lit "
"]]; TT [Lit "
"]]; TT [Lit "
"]] ++ (l) ++ [TT [Lit "
"]])%list; TT [Lit "
"]]; TT [Lit "
"]; TS "p:clrMap" [("bg1", [Lit "lt1"]); ("tx1", [Lit "dk1"]); ("bg2", [Lit "lt2"]); ("tx2", [Lit "dk2"]); ("accent1", [Lit "accent1"]); ("accent2", [Lit "accent2"]); ("accent3", [Lit "accent3"]); ("accent4", [Lit "accent4"]); ("accent5", [Lit "accent5"]); ("accent6", [Lit "accent6"]); ("hlink", [Lit "hlink"]); ("folHlink", [Lit "folHlink"])]; TT [Lit "
"]; TE "p:sldLayoutIdLst" [] ((k) ++ [TT [Lit "
"]])%list; TT [Lit "
"]] ++ (z) ++ [TT [Lit "
"]])%list).
Lemma masterF_str l k z : decl ++ nl ++ tstr (masterF l k z) = ("<?xml version=""1.0"" encoding=""UTF-8"" standalone=""yes""?>
<p:sldMaster xmlns:a=""http://schemas.openxmlformats.org/drawingml/2006/main"" xmlns:r=""http://schemas.openxmlformats.org/officeDocument/2006/relationships"" xmlns:p=""http://schemas.openxmlformats.org/presentationml/2006/main"">
<p:cSld>
<p:bg>
<p:bgRef idx=""1001"">
<a:schemeClr val=""bg1""/>
</p:bgRef>
</p:bg>
<p:spTree>
<p:nvGrpSpPr>
<p:cNvPr id=""1"" name=""""/>
<p:cNvGrpSpPr/>
<p:nvPr/>
</p:nvGrpSpPr>
<p:grpSpPr>
<a:xfrm>
<a:off x=""0"" y=""0""/>
<a:ext cx=""0"" cy=""0""/>
<a:chOff x=""0"" y=""0""/>
<a:chExt cx=""0"" cy=""0""/>
</a:xfrm>
</p:grpSpPr>
" ++ tstrs l ++ "
</p:spTree>
</p:cSld>
<p:clrMap bg1=""lt1"" tx1=""dk1"" bg2=""lt2"" tx2=""dk2"" accent1=""accent1"" accent2=""accent2"" accent3=""accent3"" accent4=""accent4"" accent5=""accent5"" accent6=""accent6"" hlink=""hlink"" folHlink=""folHlink""/>
<p:sldLayoutIdLst>" ++ tstrs k ++ "
</p:sldLayoutIdLst>
" ++ tstrs z ++ "
</p:sldMaster>").
Proof. unfold masterF. cbn [app tstr]. unfold tstrs. tflat. generalize (sconcat (map tstr l)) (sconcat (map tstr k)) (sconcat (map tstr z)). intros x y w. tstr_eq. Qed.
Definition txT : list tpl := [TC tx_styles (lit_nodes tx_styles)].
Definition masterT (o : option print_settings) : tpl := masterF (master_pages o) (flat_map layoutE (seq 0 7)) txT.
Lemma masterT_str o : decl ++ nl ++ tstr (masterT o) = slide_master_xml o.
Proof.
  unfold masterT. rewrite masterF_str, pages_str, <- layoutE_str. change (tstrs txT) with (tx_styles ++ ""). rewrite sapp_nil_r. reflexivity.
Qed.
Definition footer_ok (p : print_settings) : bool := match pr_footer p with Some f => text_ok f | None => true end.
Lemma masterF_tok l k z : toks l -> toks k -> toks z -> tok (masterF l k z).
Proof. intros L K Z. unfold masterF. cbn [app]. toks_solve; rewrite ?toks_app. all: try (split; [assumption|]). all: toks_solve; assumption. Qed.

Lemma layoutE_toks l : toks (flat_map layoutE l).
Proof.
  induction l as [|i l IH]; [exact I|]. cbn [flat_map]. apply toks_app_i; [|exact IH]. unfold layoutE. cbn [toks]. split; [apply nlT_tok|]. toks_solve.
Qed.
Lemma masterT_tok o : match o with Some p => footer_ok p | None => true end = true -> tok (masterT o).
Proof.
  intros H. apply masterF_tok; [|apply layoutE_toks|unfold txT; toks_solve].
  destruct o as [p|]; [|exact I]. unfold master_pages. repeat apply toks_app_i.
  - apply (opt_toks _ (fun _ => true)); [|now destruct (pr_header p)]. intros h _. unfold mhdrT. toks_solve.
  - apply (opt_toks _ text_ok); [|exact H]. intros h Hh. unfold mftrT. toks_solve.
  - apply when_toks. unfold mdtT. toks_solve.
  - apply when_toks. unfold mnumT. toks_solve.
Qed.
(** The shortcut of keeping a master without footers for settings that ask for none. *)
Lemma written_master_eq o : written_master o = slide_master_xml o.
Proof.
  unfold written_master. destruct (print_affects_theme_parts o) eqn:E; [reflexivity|]. destruct o as [p|]; [|reflexivity]. unfold print_affects_theme_parts in E.
  assert (N : master_footer_shapes (Some p) = "").
  { unfold master_footer_shapes, master_header, master_footer, master_date, master_number.
    destruct (pr_header p); [discriminate E|]. destruct (pr_footer p); [discriminate E|]. destruct (pr_date p); [discriminate E|]. destruct (pr_numbers p); [discriminate E|reflexivity]. }
  unfold slide_master_xml. now rewrite N.
Qed.
Lemma master_read o : match o with Some p => footer_ok p | None => true end = true -> xml_read (written_master o) = Some (tnode (masterT o)).
Proof. intros H. rewrite written_master_eq, <- masterT_str. apply read_node; [reflexivity..|]. now apply masterT_tok. Qed.
Section READ.
  Context (l k z : list tpl) (L : forallb elemT l = true) (K : forallb elemT k = true).
  Context (Z : named "p:cSld" (tsnodes z) = [] /\ named "p:sldLayoutIdLst" (tsnodes z) = []).
  Ltac root := rewrite path_step, named_children; unfold masterF; cbn [tbody]; rewrite !tsnodes_named_app; first [rewrite (proj1 Z) | rewrite (proj2 Z)];
    rewrite !named_list by reflexivity; cbn [filter called tname String.eqb Ascii.eqb Bool.eqb map flat_map app]; rewrite ?app_nil_r.
  Lemma master_shapes : shapes_of (tnode (masterF l k z)) = map tnode (filter (called "p:sp") l).
  Proof.
    unfold shapes_of. root. pstep. cbn [app]. rewrite path_list by (cbn; rewrite forallb_app, L; reflexivity). cbn [tbody filter called tname String.eqb Ascii.eqb Bool.eqb].
    rewrite filter_app. cbn [filter called tname String.eqb Ascii.eqb Bool.eqb]. rewrite app_nil_r. exact (flat_map_self _).
  Qed.
  Lemma master_group : filter (called "p:nvGrpSpPr") l = [] -> map (attr "id") (at_path ["p:cSld"; "p:spTree"; "p:nvGrpSpPr"; "p:cNvPr"] (tnode (masterF l k z))) = ["1"].
  Proof.
    intros G. root. pstep. cbn [app]. rewrite path_list by (cbn; rewrite forallb_app, L; reflexivity). cbn [tbody filter called tname String.eqb Ascii.eqb Bool.eqb].
    rewrite filter_app, G. cbn [filter called tname String.eqb Ascii.eqb Bool.eqb app map flat_map]. pread. reflexivity.
  Qed.
  Lemma master_ids : at_path ["p:sldLayoutIdLst"; "p:sldLayoutId"] (tnode (masterF l k z)) = map tnode (filter (called "p:sldLayoutId") k).
  Proof.
    root. rewrite path_list by (cbn; rewrite forallb_app, K; reflexivity). cbn [tbody]. rewrite filter_app. cbn [filter called tname String.eqb Ascii.eqb Bool.eqb]. rewrite app_nil_r.
    exact (flat_map_self _).
  Qed.
End READ.
Lemma txT_none : named "p:cSld" (tsnodes txT) = [] /\ named "p:sldLayoutIdLst" (tsnodes txT) = [].
Proof. split; vm_compute; reflexivity. Qed.
Lemma pages_elems o : forallb elemT (master_pages o) = true.
Proof. destruct o as [p|]; [|reflexivity]. unfold master_pages. rewrite !forallb_app, !opt_elem, !when_elem by reflexivity. reflexivity. Qed.
Lemma layoutE_elems l : forallb elemT (flat_map layoutE l) = true.
Proof. induction l as [|i l IH]; [reflexivity|]. cbn [flat_map]. now rewrite forallb_app, IH. Qed.
Lemma pages_called o : filter (called "p:nvGrpSpPr") (master_pages o) = [].
Proof. destruct o as [p|]; [|reflexivity]. unfold master_pages. rewrite !filter_app. destruct (pr_header p), (pr_footer p), (pr_date p), (pr_numbers p); reflexivity. Qed.
Lemma master_says p : page_says (option_map (fun _ => []) (pr_header p)) (pr_footer p) (pr_date p) (pr_numbers p) (tnode (masterT (Some p))).
Proof.
  apply (page_says_facts p _ _ "2" (decn (n1 p)) (decn (n2 p)) (decn (n3 p))).
  - unfold masterT. apply master_group; [apply pages_elems|apply txT_none|apply pages_called].
  - unfold masterT. rewrite master_shapes by (apply pages_elems || apply txT_none). unfold master_pages, page_facts. rewrite !filter_app, !map_app.
    repeat apply Forall2_app.
    + destruct (pr_header p) as [h|]; cbn [opt option_map]; [unfold mhdrT; meet|constructor].
    + apply meets_opt. intros f. unfold mftrT. meet.
    + apply meets_when. unfold mdtT. meet.
    + apply meets_when. unfold mnumT. meet.
  - unfold page_facts, n3, n2, n1. destruct (pr_header p), (pr_footer p), (pr_date p), (pr_numbers p); cbn; apply nodupb_NoDup; reflexivity.
Qed.
Lemma master_none : shapes_of (tnode (masterT None)) = [].
Proof. unfold masterT. rewrite master_shapes by (apply pages_elems || apply txT_none). reflexivity. Qed.
Lemma master_list o : map (fun x => (attr "id" x, attr "r:id" x)) (at_path ["p:sldLayoutIdLst"; "p:sldLayoutId"] (tnode (masterT o)))
  = [("2147483649", "rId1"); ("2147483650", "rId2"); ("2147483651", "rId3"); ("2147483652", "rId4"); ("2147483653", "rId5"); ("2147483654", "rId6"); ("2147483655", "rId7")].
Proof. unfold masterT. rewrite master_ids by (apply layoutE_elems || apply txT_none). vm_compute. reflexivity. Qed.
