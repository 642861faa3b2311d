From Coq Require Import String Ascii List Bool Arith NArith ZArith Lia.
From Verif Require Import Str StrRefl Num EscapeModel EscapeProofs XmlSpec XmlProofs XmlTpl OpcSpec GenProofs TplRead XmlPath PathRead ColorModel LookSpec ShapeModel ShapeProofs TableModel TableSpec TableProofs TableLook PartsProofs TpartModel TpartSpec.
Import ListNotations.
Open Scope nat_scope.
Open Scope string_scope.
Local Arguments String.append _ _ : simpl nomatch.

Definition ws (s : string) : tpl := TT [Lit s].
Definition nl8 : string := "
        ".
Definition nl10 : string := "
          ".
Definition nl12 : string := "
            ".
Definition nl14 : string := "
              ".
Definition nl16 : string := "
                ".
(** ** Templates *)
Definition lineT (tag : string) (b : border) : list tpl :=
  match bo_style b with
  | BNone => [TS tag []; TT [Lit nl]]
  | st => [TE tag [("w", [Lit (zdec (bo_width b))]); ("cap", [Lit "flat"]); ("cmpd", [Lit "sng"]); ("algn", [Lit "ctr"])]
      [TT [Lit nl14]; TE "a:solidFill" [] [TS "a:srgbClr" [("val", [Lit (unhashed (bo_color b))])]]; TT [Lit nl14]; TS "a:prstDash" [("val", [Lit (bstyle_value st)])]; TT [Lit nl12]]]
  end.
Definition optT {A} (f : A -> list tpl) (o : option A) : list tpl := match o with Some x => f x | None => [] end.
Definition optAt {A} (f : A -> list (string * list piece)) (o : option A) : list (string * list piece) := match o with Some x => f x | None => [] end.
Definition linesT (b : borders) : list tpl := (optT (lineT "a:lnL") (b_left b) ++ optT (lineT "a:lnR") (b_right b) ++ optT (lineT "a:lnT") (b_top b) ++ optT (lineT "a:lnB") (b_bottom b))%list.
Definition fillT (c : string) : list tpl := [TE "a:solidFill" [] [TS "a:srgbClr" [("val", [Lit (unhashed c)])]]].
Definition faceT (f : string) : list tpl := [TS "a:latin" [("typeface", [Lit f])]].
Definition flag (b : bool) (n v : string) : list (string * list piece) := if b then [(n, [Lit v])] else [].
Definition spanA2 (n : N) (k : string) : list (string * list piece) := if (1 <? n)%N then [(k, [Lit (dec n)])] else [].
Definition tcA (c : pcell) := (spanA2 (pc_rows c) "rowSpan" ++ spanA2 (pc_cols c) "gridSpan")%list.
Definition rA (c : pcell) := (("lang", [Lit "en-US"]) :: flag (pc_bold c) "b" "1" ++ flag (pc_italic c) "i" "1" ++ flag (pc_underline c) "u" "sng" ++ flag (pc_strike c) "strike" "sngStrike"
  ++ optAt (fun n => [("sz", [Lit (dec (wmul u32_max n 100))])]) (pc_size c))%list.
Definition pA (c : pcell) := (("anchor", [Lit (valign_value (pc_valign c))]) ::
  optAt (fun m => [("marL", [Lit (zdec (m_left m))]); ("marR", [Lit (zdec (m_right m))]); ("marT", [Lit (zdec (m_top m))]); ("marB", [Lit (zdec (m_bottom m))])]) (pc_margins c))%list.
Definition algnT (c : pcell) : list tpl := match pc_halign c with HCenter => [] | a => [TS "a:pPr" [("algn", [Lit (halign_value a)])]] end.
Definition rprT (c : pcell) : tpl := TE "a:rPr" (rA c) (optT fillT (pc_color c) ++ optT faceT (pc_font c))%list.
Definition runT2 (c : pcell) : tpl := TE "a:r" [] [TT [Lit nl16]; rprT c; TT [Lit nl16]; TE "a:t" [] [TT [Esc (pc_text c)]]; TT [Lit nl14]].
Definition parT (c : pcell) : tpl := TE "a:p" [] ([TT [Lit nl14]] ++ algnT c ++ [TT [Lit nl14]; runT2 c; TT [Lit nl12]])%list.
Definition bodyT (c : pcell) : tpl := TE "a:txBody" [] [TT [Lit nl12]; TS "a:bodyPr" []; TT [Lit nl12]; TS "a:lstStyle" []; TT [Lit nl12]; parT c; TT [Lit nl10]].
Definition propT (c : pcell) : tpl := TE "a:tcPr" (pA c) (optT linesT (pc_borders c) ++ optT fillT (pc_background c))%list.
Definition pcellT (c : pcell) : tpl :=
  if pc_merged c then TE "a:tc" [("hMerge", [Lit "1"])] [TE "a:txBody" [] [TS "a:bodyPr" []; TS "a:lstStyle" []; TE "a:p" [] [TS "a:endParaRPr" []]]; TS "a:tcPr" []]
  else TE "a:tc" (tcA c) [TT [Lit nl10]; bodyT c; TT [Lit nl10]; propT c; TT [Lit nl8]].
Definition prowT (r : prow) : tpl := TE "a:tr" (optAt (fun h => [("h", [Lit (zdec h)])]) (pr_height r)) ([TT [Lit nl8]] ++ joinT nl8 (map pcellT (pr_cells r)) ++ [TT [Lit "
      "]])%list.
Definition pcolT (w : Z) : tpl := TS "a:gridCol" [("w", [Lit (zdec w)])].
Definition frameT (x y w h : string) (id : N) (cols rws : list tpl) : tpl :=
  TE "p:graphicFrame" [] [TT [Lit "
  "];
    TE "p:nvGraphicFramePr" [] [TT [Lit "
    "]; TS "p:cNvPr" [("id", [Lit (dec id)]); ("name", [Lit "Table "; Lit (dec id)])]; TT [Lit "
    "]; TE "p:cNvGraphicFramePr" [] [TS "a:graphicFrameLocks" [("noGrp", [Lit "1"])]]; TT [Lit "
    "]; TS "p:nvPr" []; TT [Lit "
  "]]; TT [Lit "
  "];
    TE "p:xfrm" [] [TT [Lit "
    "]; TS "a:off" [("x", [Lit x]); ("y", [Lit y])]; TT [Lit "
    "]; TS "a:ext" [("cx", [Lit w]); ("cy", [Lit h])]; TT [Lit "
  "]]; TT [Lit "
  "];
    TE "a:graphic" [] [TT [Lit "
    "]; TE "a:graphicData" [("uri", [Lit "http://schemas.openxmlformats.org/drawingml/2006/table"])] [TT [Lit "
      "];
      TE "a:tbl" [] ([TT [Lit nl8]; TE "a:tblPr" [("firstRow", [Lit "1"]); ("bandRow", [Lit "1"])] [TT [Lit nl10]; TE "a:tableStyleId" [] [TT [Lit "{5C22544A-7EE6-4342-B048-85BDC9FD1C3A}"]]; TT [Lit nl8]]; TT [Lit nl8];
        TE "a:tblGrid" [] ([TT [Lit nl8]] ++ cols ++ [TT [Lit nl8]])%list; TT [Lit "
      "]] ++ rws ++ [TT [Lit "
      "]])%list; TT [Lit "
    "]]; TT [Lit "
  "]]; TT [Lit nl]].
Definition tpartT (t : tpart) (id : N) : tpl := frameT (zdec (tp_x t)) (zdec (tp_y t)) (zdec (tp_width t)) (zdec (tp_height t)) id (joinT nl8 (map pcolT (tp_widths t))) (joinT "
      " (map prowT (tp_rows t))).
(** ** The text of the templates *)
Ltac unws := unfold nl8, nl10, nl12, nl14, nl16.
Lemma line_str tag b : border_xml tag b = tstrs (lineT ("a:" ++ tag) b).
Proof.
  unfold border_xml, lineT. unws. generalize (zdec (bo_width b)) (unhashed (bo_color b)). intros u v.
  destruct (bo_style b); cbn [bstyle_value]; tstr_eq.
Qed.
Lemma opt_str_T {A} (f : A -> string) (g : A -> list tpl) o : (forall x, f x = tstrs (g x)) -> opt_str f o = tstrs (optT g o).
Proof. intros H. destruct o as [x|]; [apply H|reflexivity]. Qed.
Lemma opt_str_A {A} (f : A -> string) (g : A -> list (string * list piece)) o : (forall x, f x = attrs_raw (g x)) -> opt_str f o = attrs_raw (optAt g o).
Proof. intros H. destruct o as [x|]; [apply H|reflexivity]. Qed.
Lemma lines_str b : borders_xml b = tstrs (linesT b).
Proof.
  unfold borders_xml, linesT. rewrite !tstrs_app. unfold opt_border.
  assert (H : forall tag o, match o with Some b => border_xml tag b | None => "" end = tstrs (optT (lineT ("a:" ++ tag)) o)).
  { intros tag o. destruct o as [x|]; [apply line_str|reflexivity]. }
  rewrite !H. reflexivity.
Qed.
Lemma fill_str c : pfill c = tstrs (fillT c).
Proof. unfold pfill, fillT. generalize (unhashed c). intros u. tstr_eq. Qed.
Lemma attrs_raw_app a b : attrs_raw (a ++ b) = attrs_raw a ++ attrs_raw b.
Proof. unfold attrs_raw. now rewrite map_app, sconcat_app. Qed.
Lemma tcA_str c : (if (1 <? pc_rows c)%N then (" rowSpan=""" ++ dec (pc_rows c) ++ """") else "")
      ++ (if (1 <? pc_cols c)%N then (" gridSpan=""" ++ dec (pc_cols c) ++ """") else "") = attrs_raw (tcA c).
Proof. unfold tcA, spanA2. destruct (1 <? pc_rows c)%N, (1 <? pc_cols c)%N; tstr_eq. Qed.
Lemma rA_str c : (" lang=""en-US""") ++ (if pc_bold c then " b=""1""" else "") ++ (if pc_italic c then " i=""1""" else "") ++ (if pc_underline c then " u=""sng""" else "")
      ++ (if pc_strike c then " strike=""sngStrike""" else "") ++ opt_str (fun n => (" sz=""" ++ dec (wmul u32_max n 100) ++ """")) (pc_size c) = attrs_raw (rA c).
Proof. unfold rA, flag. destruct (pc_bold c), (pc_italic c), (pc_underline c), (pc_strike c), (pc_size c) as [n|]; cbn [opt_str optAt app]; try (generalize (dec (wmul u32_max n 100)); intros u); tstr_eq. Qed.
Lemma pA_str c : (" anchor=""" ++ valign_value (pc_valign c) ++ """")
      ++ opt_str (fun m => (" marL=""" ++ zdec (m_left m) ++ """ marR=""" ++ zdec (m_right m) ++ """ marT=""" ++ zdec (m_top m) ++ """ marB=""" ++ zdec (m_bottom m) ++ """")) (pc_margins c) = attrs_raw (pA c).
Proof. unfold pA. generalize (valign_value (pc_valign c)). intros v. destruct (pc_margins c) as [m|]; cbn [opt_str optAt app]; [generalize (zdec (m_left m)) (zdec (m_right m)) (zdec (m_top m)) (zdec (m_bottom m)); intros|]; tstr_eq. Qed.
Lemma algn_str c : match pc_halign c with HCenter => "" | a => ("<a:pPr algn=""" ++ halign_value a ++ """/>") end = tstrs (algnT c).
Proof. unfold algnT. destruct (pc_halign c); reflexivity. Qed.
Lemma pcell_str c : pcell_xml c = tstr (pcellT c).
Proof.
  unfold pcell_xml, pcellT. destruct (pc_merged c); [tstr_eq|]. cbv zeta. rewrite tcA_str, algn_str, pA_str.
  rewrite !(opt_str_T pfill fillT) by apply fill_str. rewrite (opt_str_T borders_xml linesT) by apply lines_str.
  rewrite (opt_str_T (fun f => ("<a:latin typeface=""" ++ f ++ """/>")) faceT) by (intros f; unfold faceT; tstr_eq).
  pose proof (rA_str c) as R.
  unfold bodyT, propT, parT, runT2, rprT. unws. tflat. rewrite <- R. clear R.
  repeat match goal with |- context [sconcat (map tstr ?A)] => progress fold (tstrs A) end.
  generalize (attrs_raw (tcA c)) (attrs_raw (pA c)) (tstrs (algnT c)) (tstrs (optT fillT (pc_color c))) (tstrs (optT faceT (pc_font c))) (tstrs (optT linesT (pc_borders c))) (tstrs (optT fillT (pc_background c))).
  match goal with |- context [opt_str ?f (pc_size c)] => generalize (opt_str f (pc_size c)) end. generalize (if pc_bold c then " b=""1""" else "") (if pc_italic c then " i=""1""" else "") (if pc_underline c then " u=""sng""" else "") (if pc_strike c then " strike=""sngStrike""" else "").
  intros. tstr_eq.
Qed.
Lemma prow_str r : prow_xml r = tstr (prowT r).
Proof.
  unfold prow_xml, prowT. cbv zeta. replace (map pcell_xml (pr_cells r)) with (map tstr (map pcellT (pr_cells r))).
  2:{ rewrite map_map. apply map_ext. intros c. symmetry. apply pcell_str. }
  change "
        " with nl8. rewrite <- join_str. rewrite (opt_str_A height_attr (fun h => [("h", [Lit (zdec h)])])) by (intros h; unfold height_attr; tstr_eq).
  generalize (optAt (fun h => [("h", [Lit (zdec h)])]) (pr_height r)) (joinT nl8 (map pcellT (pr_cells r))). intros a l. unws. tflat. fold (tstrs l).
  generalize (attrs_raw a) (tstrs l). intros. tstr_eq.
Qed.
Lemma tpart_str t id : tpart_xml t id = tstr (tpartT t id).
Proof.
  unfold tpart_xml, tpartT. cbv zeta. replace (map prow_xml (tp_rows t)) with (map tstr (map prowT (tp_rows t))).
  2:{ rewrite map_map. apply map_ext. intros c. symmetry. apply prow_str. }
  replace (map pcol_xml (tp_widths t)) with (map tstr (map pcolT (tp_widths t))).
  2:{ rewrite map_map. apply map_ext. intros w. unfold pcol_xml, pcolT. symmetry. tstr_eq. }
  rewrite <- !join_str. fold nl8. generalize (zdec (tp_x t)) (zdec (tp_y t)) (zdec (tp_width t)) (zdec (tp_height t)) (joinT nl8 (map pcolT (tp_widths t))) (joinT "
      " (map prowT (tp_rows t))).
  intros x y w h cols rws. unfold frameT. unws. tflat. repeat match goal with |- context [sconcat (map tstr ?A)] => progress fold (tstrs A) end.
  generalize (tstrs cols) (tstrs rws). intros. tstr_eq.
Qed.
