From Coq Require Import String Ascii List Bool Arith NArith Lia.
From Verif Require Import Str StrRefl EscapeModel EscapeProofs XmlSpec XmlProofs XmlTpl OpcSpec GenProofs TplRead XmlPath PathRead ChartModel ChartSpec.
Import ListNotations.
Open Scope string_scope.

(** ** Templates *)
Fixpoint pushT {A} (f : nat -> A -> list tpl) (k : nat) (l : list A) : list tpl :=
  match l with [] => [] | x :: l => (f k x ++ pushT f (S k) l)%list end.
Lemma push_str {A} (f : nat -> A -> string) (g : nat -> A -> list tpl) : (forall k x, f k x = tstrs (g k x)) ->
  forall l k, pushes f k l = tstrs (pushT g k l).
Proof. intros H. induction l as [|x l IH]; intros k; [reflexivity|]. cbn [pushes pushT]. now rewrite tstrs_app, H, IH. Qed.
Lemma push_toks {A} (P : A -> Prop) (g : nat -> A -> list tpl) : (forall k x, P x -> toks (g k x)) ->
  forall l k, Forall P l -> toks (pushT g k l).
Proof. intros H. induction l as [|x l IH]; intros k F; [exact I|]. inversion F; subst. cbn [pushT]. apply toks_app_i; auto. Qed.
Lemma push_named {A B} m (g : nat -> A -> list tpl) (h : node -> B) (e : nat * A -> B) :
  (forall k x, map h (named m (tsnodes (g k x))) = [e (k, x)]) ->
  forall l k, map h (named m (tsnodes (pushT g k l))) = map e (numbered k l).
Proof.
  intros H. induction l as [|x l IH]; intros k; [reflexivity|]. cbn [pushT numbered map]. rewrite tsnodes_named_app, map_app, H, IH. reflexivity.
Qed.
Lemma push_none {A} m (g : nat -> A -> list tpl) : (forall k x, named m (tsnodes (g k x)) = []) ->
  forall l k, named m (tsnodes (pushT g k l)) = [].
Proof. intros H. induction l as [|x l IH]; intros k; [reflexivity|]. cbn [pushT]. now rewrite tsnodes_named_app, H, IH. Qed.

Definition pointT (i : nat) (p : piece) : list tpl := [nlT; TE "c:pt" [("idx", [Lit (decn i)])] [nlT; TE "c:v" [] [TT [p]]; nlT]].
Lemma point_str i p : point i (praw p) = tstrs (pointT i p).
Proof. unfold point, pointT, nlT. tstr_eq. Qed.
Definition valueT (v : value) : list tpl := [nlT; TE "c:pt" [("idx", [Lit "0"])] [nlT; TE "c:v" [] [TT [Lit (shown v)]]; nlT]].

Definition serE (idx : nat) (s : series) (vals : list tpl) : tpl :=
  (TE "c:ser" [] [TT [Lit "
"]; TS "c:idx" [("val", [Lit (decn idx)])]; TT [Lit "
"]; TS "c:order" [("val", [Lit (decn idx)])]; TT [Lit "
"]; TE "c:title" [] [TT [Lit "
"]; TE "c:tx" [] [TT [Lit "
"]; TE "c:rich" [] [TT [Lit "
"]; TS "a:bodyPr" []; TT [Lit "
"]; TS "a:lstStyle" []; TT [Lit "
"]; TE "a:p" [] [TT [Lit "
"]; TE "a:r" [] [TT [Lit "
"]; TS "a:rPr" [("lang", [Lit "en-US"]); ("sz", [Lit "1000"])]; TT [Lit "
"]; TE "a:t" [] [TT [Esc (ser_name s)]]; TT [Lit "
"]]; TT [Lit "
"]]; TT [Lit "
"]]; TT [Lit "
"]]; TT [Lit "
"]]; TT [Lit "
"]; TE "c:dLbls" [] [TT [Lit "
"]; TS "c:showVal" [("val", [Lit "0"])]; TT [Lit "
"]]; TT [Lit "
"]; TE "c:val" [] [TT [Lit "
"]; TE "c:numRef" [] [TT [Lit "
"]; TE "c:f" [] [TT [Lit "Sheet1!$B$"; Lit (decn (2 + idx)); Lit ":$B$"; Lit (decn (2 + idx + length (values s)))]]; TT [Lit "
"]; TE "c:numCache" [] ([TT [Lit "
"]; TE "c:formatCode" [] [TT [Lit "General"]]] ++ (vals) ++ [TT [Lit "
"]])%list; TT [Lit "
"]]; TT [Lit "
"]]; TT [Lit "
"]]).
Definition seriesT (idx : nat) (s : series) : list tpl := [nlT; serE idx s (flat_map valueT (values s))].

(** Strings of templates with block holes: flatten, then replace the blocks. *)
Ltac tblock := tflat; repeat match goal with |- context [sconcat (map tstr ?A)] => progress fold (tstrs A) end.

Lemma ser_str idx s vs : ("
<c:ser>
<c:idx val=""" ++ decn idx ++ """/>
<c:order val=""" ++ decn idx ++ """/>
<c:title>
<c:tx>
<c:rich>
<a:bodyPr/>
<a:lstStyle/>
<a:p>
<a:r>
<a:rPr lang=""en-US"" sz=""1000""/>
<a:t>" ++ escape_xml (ser_name s) ++ "</a:t>
</a:r>
</a:p>
</c:rich>
</c:tx>
</c:title>
<c:dLbls>
<c:showVal val=""0""/>
</c:dLbls>
<c:val>
<c:numRef>
<c:f>Sheet1!$B$" ++ decn (2 + idx) ++ ":$B$" ++ decn (2 + idx + length (values s)) ++ "</c:f>
<c:numCache>
<c:formatCode>General</c:formatCode>")
  ++ tstrs vs ++ "
</c:numCache>
</c:numRef>
</c:val>
</c:ser>" = tstrs [nlT; serE idx s vs].
Proof. unfold serE, nlT, tstrs at 2. tblock. generalize (tstrs vs). intros x. tstr_eq. Qed.
Lemma values_str l : sconcat (map (fun v => ("
<c:pt idx=""0"">
<c:v>" ++ shown v ++ "</c:v>
</c:pt>")) l) = tstrs (flat_map valueT l).
Proof.
  induction l as [|v l IH]; [reflexivity|]. cbn [map flat_map]. rewrite tstrs_app, <- IH, sconcat_cons. f_equal. unfold valueT, nlT. tstr_eq.
Qed.
Lemma series_str idx s : series_data idx s = tstrs (seriesT idx s).
Proof. unfold series_data, seriesT. rewrite values_str. apply ser_str. Qed.

Definition catsT (c : chart) : list tpl := pushT (fun i cat => pointT i (Esc cat)) 0 (categories c).
Definition catE (c : chart) (pos : string) (pts : list tpl) : tpl :=
  (TE "c:catAx" [] [TT [Lit "
"]; TS "c:axId" [("val", [Lit "1"])]; TT [Lit "
"]; TE "c:scaling" [] [TT [Lit "
"]; TS "c:orientation" [("val", [Lit "minMax"])]; TT [Lit "
"]]; TT [Lit "
"]; TS "c:delete" [("val", [Lit "0"])]; TT [Lit "
"]; TS "c:axPos" [("val", [Lit pos])]; TT [Lit "
"]; TS "c:majorGridlines" []; TT [Lit "
"]; TS "c:numFmt" [("formatCode", [Lit "General"]); ("sourceLinked", [Lit "1"])]; TT [Lit "
"]; TS "c:tickLblPos" [("val", [Lit "low"])]; TT [Lit "
"]; TS "c:crossAx" [("val", [Lit "2"])]; TT [Lit "
"]; TS "c:crosses" [("val", [Lit "autoZero"])]; TT [Lit "
"]; TE "c:strRef" [] [TT [Lit "
"]; TE "c:f" [] [TT [Lit "Sheet1!$A$2:$A$"; Lit (decn (1 + length (categories c)))]]; TT [Lit "
"]; TE "c:strCache" [] ([TT [Lit "
"]; TS "c:ptCount" [("val", [Lit (decn (length (categories c)))])]] ++ (pts) ++ [TT [Lit "
"]])%list; TT [Lit "
"]]; TT [Lit "
"]]).
Lemma cat_str c pos : category_axis c pos = tstrs [nlT; catE c pos (catsT c)].
Proof.
  unfold category_axis. rewrite (push_str _ (fun i cat => pointT i (Esc cat))) by (intros; apply (point_str k (Esc x))). fold (catsT c).
  unfold catE, nlT, tstrs at 2. tblock. generalize (tstrs (catsT c)). intros x. tstr_eq.
Qed.
Definition valE (pos : string) : tpl := (TE "c:valAx" [] [TT [Lit "
"]; TS "c:axId" [("val", [Lit "2"])]; TT [Lit "
"]; TE "c:scaling" [] [TT [Lit "
"]; TS "c:orientation" [("val", [Lit "minMax"])]; TT [Lit "
"]]; TT [Lit "
"]; TS "c:delete" [("val", [Lit "0"])]; TT [Lit "
"]; TS "c:axPos" [("val", [Lit pos])]; TT [Lit "
"]; TS "c:majorGridlines" []; TT [Lit "
"]; TS "c:numFmt" [("formatCode", [Lit "General"]); ("sourceLinked", [Lit "1"])]; TT [Lit "
"]; TS "c:tickLblPos" [("val", [Lit "low"])]; TT [Lit "
"]; TS "c:crossAx" [("val", [Lit "1"])]; TT [Lit "
"]; TS "c:crosses" [("val", [Lit "autoZero"])]; TT [Lit "
"]]).
Lemma val_str pos : value_axis pos = tstrs [nlT; valE pos].
Proof. unfold value_axis, valE, nlT. tstr_eq. Qed.

Definition docT (c : chart) (plots : list tpl) : tpl := (TE "c:chartSpace" [("xmlns:c", [Lit "http://schemas.openxmlformats.org/drawingml/2006/chart"]); ("xmlns:a", [Lit "http://schemas.openxmlformats.org/drawingml/2006/main"]); ("xmlns:r", [Lit "http://schemas.openxmlformats.org/officeDocument/2006/relationships"])] [TT [Lit "
"]; TS "c:date1904" [("val", [Lit "0"])]; TT [Lit "
"]; TS "c:lang" [("val", [Lit "en-US"])]; TT [Lit "
"]; TS "c:roundedCorners" [("val", [Lit "0"])]; TT [Lit "
"]; TE "c:chart" [] [TT [Lit "
"]; TE "c:title" [] [TT [Lit "
"]; TE "c:tx" [] [TT [Lit "
"]; TE "c:rich" [] [TT [Lit "
"]; TS "a:bodyPr" []; TT [Lit "
"]; TS "a:lstStyle" []; TT [Lit "
"]; TE "a:p" [] [TT [Lit "
"]; TE "a:pPr" [] [TT [Lit "
"]; TS "a:defRPr" []; TT [Lit "
"]]; TT [Lit "
"]; TE "a:r" [] [TT [Lit "
"]; TE "a:rPr" [("lang", [Lit "en-US"]); ("sz", [Lit "1800"]); ("b", [Lit "0"]); ("i", [Lit "0"]); ("u", [Lit "none"]); ("strike", [Lit "noStrike"])] [TT [Lit "
"]; TE "a:solidFill" [] [TT [Lit "
"]; TS "a:srgbClr" [("val", [Lit "595959"])]; TT [Lit "
"]]; TT [Lit "
"]; TS "a:latin" [("typeface", [Lit "Calibri"])]; TT [Lit "
"]]; TT [Lit "
"]; TE "a:t" [] [TT [Esc (title c)]]; TT [Lit "
"]]; TT [Lit "
"]]; TT [Lit "
"]]; TT [Lit "
"]]; TT [Lit "
"]; TS "c:layout" []; TT [Lit "
"]; TS "c:overlay" [("val", [Lit "0"])]; TT [Lit "
"]]; TT [Lit "
"]; TS "c:autoTitleDeleted" [("val", [Lit "0"])]; TT [Lit "
"]; TE "c:plotArea" [] ([TT [Lit "
"]; TS "c:layout" []] ++ (plots))%list; TT [Lit "
"]; TE "c:legend" [] [TT [Lit "
"]; TS "c:legendPos" [("val", [Lit "r"])]; TT [Lit "
"]; TS "c:layout" []; TT [Lit "
"]; TS "c:overlay" [("val", [Lit "0"])]; TT [Lit "
"]]; TT [Lit "
"]; TS "c:plotVisOnly" [("val", [Lit "1"])]; TT [Lit "
"]; TS "c:dispBlanksAs" [("val", [Lit "gap"])]; TT [Lit "
"]; TS "c:showDLblsOverMax" [("val", [Lit "0"])]; TT [Lit "
"]]; TT [Lit "
"]; TE "c:externalData" [("r:id", [Lit "rId1"])] [TT [Lit "
"]; TS "c:autoUpdate" [("val", [Lit "0"])]; TT [Lit "
"]]; TT [Lit "
"]]).
Lemma doc_str c plots : header c ++ tstrs plots ++ footer = decl ++ nl ++ tstr (docT c plots).
Proof. unfold header, footer, docT. tblock. generalize (tstrs plots). intros x. tstr_eq. Qed.

(** The one series of pie and doughnut charts, and the series of scatter and bubble charts. *)
Definition valsT (s : series) : list tpl := pushT (fun i v => pointT i (Lit (shown v))) 0 (values s).
Definition xsT (s : series) : list tpl := pushT (fun i (_ : value) => pointT i (Lit (decn (i + 1)))) 0 (values s).
Definition absT (s : series) : list tpl := pushT (fun i v => pointT i (Lit (shown_abs v))) 0 (values s).
Lemma vals_str s : pushes (fun i v => point i (shown v)) 0 (values s) = tstrs (valsT s).
Proof. apply push_str. intros k x. apply (point_str k (Lit (shown x))). Qed.
Lemma xs_str s : pushes (fun i _ => point i (decn (i + 1))) 0 (values s) = tstrs (xsT s).
Proof. apply push_str. intros k x. apply (point_str k (Lit (decn (k + 1)))). Qed.
Lemma abs_str s : pushes (fun i v => point i (shown_abs v)) 0 (values s) = tstrs (absT s).
Proof. apply push_str. intros k x. apply (point_str k (Lit (shown_abs x))). Qed.
Lemma cats_str c : pushes (fun i cat => point i (escape_xml cat)) 0 (categories c) = tstrs (catsT c).
Proof. apply push_str. intros k x. apply (point_str k (Esc x)). Qed.

Definition pieE (c : chart) (s : series) (vs cs : list tpl) : tpl :=
  (TE "c:ser" [] [TT [Lit "
"]; TS "c:idx" [("val", [Lit "0"])]; TT [Lit "
"]; TS "c:order" [("val", [Lit "0"])]; TT [Lit "
"]; TE "c:title" [] [TT [Lit "
"]; TE "c:tx" [] [TT [Lit "
"]; TE "c:rich" [] [TT [Lit "
"]; TS "a:bodyPr" []; TT [Lit "
"]; TS "a:lstStyle" []; TT [Lit "
"]; TE "a:p" [] [TT [Lit "
"]; TE "a:r" [] [TT [Lit "
"]; TS "a:rPr" [("lang", [Lit "en-US"]); ("sz", [Lit "1000"])]; TT [Lit "
"]; TE "a:t" [] [TT [Esc (ser_name s)]]; TT [Lit "
"]]; TT [Lit "
"]]; TT [Lit "
"]]; TT [Lit "
"]]; TT [Lit "
"]]; TT [Lit "
"]; TE "c:dLbls" [] [TT [Lit "
"]; TS "c:showCatName" [("val", [Lit "1"])]; TT [Lit "
"]; TS "c:showPercent" [("val", [Lit "1"])]; TT [Lit "
"]]; TT [Lit "
"]; TE "c:val" [] [TT [Lit "
"]; TE "c:numRef" [] [TT [Lit "
"]; TE "c:f" [] [TT [Lit "Sheet1!$B$2:$B$"; Lit (decn (1 + length (values s)))]]; TT [Lit "
"]; TE "c:numCache" [] ([TT [Lit "
"]; TE "c:formatCode" [] [TT [Lit "General"]]] ++ (vs) ++ [TT [Lit "
"]])%list; TT [Lit "
"]]; TT [Lit "
"]]; TT [Lit "
"]; TE "c:cat" [] [TT [Lit "
"]; TE "c:strRef" [] [TT [Lit "
"]; TE "c:f" [] [TT [Lit "Sheet1!$A$2:$A$"; Lit (decn (1 + length (categories c)))]]; TT [Lit "
"]; TE "c:strCache" [] ([TT [Lit "
"]; TS "c:ptCount" [("val", [Lit (decn (length (categories c)))])]] ++ (cs) ++ [TT [Lit "
"]])%list; TT [Lit "
"]]; TT [Lit "
"]]; TT [Lit "
"]]).
Lemma pie_str c s vs cs : ("
<c:ser>
<c:idx val=""0""/>
<c:order val=""0""/>
<c:title>
<c:tx>
<c:rich>
<a:bodyPr/>
<a:lstStyle/>
<a:p>
<a:r>
<a:rPr lang=""en-US"" sz=""1000""/>
<a:t>" ++ escape_xml (ser_name s) ++ "</a:t>
</a:r>
</a:p>
</c:rich>
</c:tx>
</c:title>
<c:dLbls>
<c:showCatName val=""1""/>
<c:showPercent val=""1""/>
</c:dLbls>
<c:val>
<c:numRef>
<c:f>Sheet1!$B$2:$B$" ++ decn (1 + length (values s)) ++ "</c:f>
<c:numCache>
<c:formatCode>General</c:formatCode>")
  ++ tstrs vs ++ ("
</c:numCache>
</c:numRef>
</c:val>
<c:cat>
<c:strRef>
<c:f>Sheet1!$A$2:$A$" ++ decn (1 + length (categories c)) ++ "</c:f>
<c:strCache>
<c:ptCount val=""" ++ decn (length (categories c)) ++ """/>")
  ++ tstrs cs ++ "
</c:strCache>
</c:strRef>
</c:cat>
</c:ser>" = tstrs [nlT; pieE c s vs cs].
Proof. unfold pieE, nlT, tstrs at 3. tblock. generalize (tstrs vs) (tstrs cs). intros x y. tstr_eq. Qed.
Definition doughE (c : chart) (s : series) (vs cs : list tpl) : tpl :=
  (TE "c:ser" [] [TT [Lit "
"]; TS "c:idx" [("val", [Lit "0"])]; TT [Lit "
"]; TS "c:order" [("val", [Lit "0"])]; TT [Lit "
"]; TE "c:tx" [] [TT [Lit "
"]; TE "c:strRef" [] [TT [Lit "
"]; TE "c:f" [] [TT [Lit "Sheet1!$B$1"]]; TT [Lit "
"]; TE "c:strCache" [] [TT [Lit "
"]; TS "c:ptCount" [("val", [Lit "1"])]; TT [Lit "
"]; TE "c:pt" [("idx", [Lit "0"])] [TE "c:v" [] [TT [Esc (ser_name s)]]]; TT [Lit "
"]]; TT [Lit "
"]]; TT [Lit "
"]]; TT [Lit "
"]; TE "c:dLbls" [] [TT [Lit "
"]; TS "c:showCatName" [("val", [Lit "1"])]; TT [Lit "
"]; TS "c:showPercent" [("val", [Lit "1"])]; TT [Lit "
"]]; TT [Lit "
"]; TE "c:val" [] [TT [Lit "
"]; TE "c:numRef" [] [TT [Lit "
"]; TE "c:f" [] [TT [Lit "Sheet1!$B$2:$B$"; Lit (decn (1 + length (values s)))]]; TT [Lit "
"]; TE "c:numCache" [] ([TT [Lit "
"]; TE "c:formatCode" [] [TT [Lit "General"]]] ++ (vs) ++ [TT [Lit "
"]])%list; TT [Lit "
"]]; TT [Lit "
"]]; TT [Lit "
"]; TE "c:cat" [] [TT [Lit "
"]; TE "c:strRef" [] [TT [Lit "
"]; TE "c:f" [] [TT [Lit "Sheet1!$A$2:$A$"; Lit (decn (1 + length (categories c)))]]; TT [Lit "
"]; TE "c:strCache" [] ([TT [Lit "
"]; TS "c:ptCount" [("val", [Lit (decn (length (categories c)))])]] ++ (cs) ++ [TT [Lit "
"]])%list; TT [Lit "
"]]; TT [Lit "
"]]; TT [Lit "
"]]).
Lemma dough_str c s vs cs : ("
<c:ser>
<c:idx val=""0""/>
<c:order val=""0""/>
<c:tx>
<c:strRef>
<c:f>Sheet1!$B$1</c:f>
<c:strCache>
<c:ptCount val=""1""/>
<c:pt idx=""0""><c:v>" ++ escape_xml (ser_name s) ++ "</c:v></c:pt>
</c:strCache>
</c:strRef>
</c:tx>
<c:dLbls>
<c:showCatName val=""1""/>
<c:showPercent val=""1""/>
</c:dLbls>
<c:val>
<c:numRef>
<c:f>Sheet1!$B$2:$B$" ++ decn (1 + length (values s)) ++ "</c:f>
<c:numCache>
<c:formatCode>General</c:formatCode>")
  ++ tstrs vs ++ ("
</c:numCache>
</c:numRef>
</c:val>
<c:cat>
<c:strRef>
<c:f>Sheet1!$A$2:$A$" ++ decn (1 + length (categories c)) ++ "</c:f>
<c:strCache>
<c:ptCount val=""" ++ decn (length (categories c)) ++ """/>")
  ++ tstrs cs ++ "
</c:strCache>
</c:strRef>
</c:cat>
</c:ser>" = tstrs [nlT; doughE c s vs cs].
Proof. unfold doughE, nlT, tstrs at 3. tblock. generalize (tstrs vs) (tstrs cs). intros x y. tstr_eq. Qed.
Definition scatE (idx : nat) (s : series) (xs vs : list tpl) : tpl :=
  (TE "c:ser" [] [TT [Lit "
"]; TS "c:idx" [("val", [Lit (decn idx)])]; TT [Lit "
"]; TS "c:order" [("val", [Lit (decn idx)])]; TT [Lit "
"]; TE "c:tx" [] [TT [Lit "
"]; TE "c:strRef" [] [TT [Lit "
"]; TE "c:f" [] [TT [Lit "Sheet1!$B$1"]]; TT [Lit "
"]; TE "c:strCache" [] [TT [Lit "
"]; TS "c:ptCount" [("val", [Lit "1"])]; TT [Lit "
"]; TE "c:pt" [("idx", [Lit "0"])] [TE "c:v" [] [TT [Esc (ser_name s)]]]; TT [Lit "
"]]; TT [Lit "
"]]; TT [Lit "
"]]; TT [Lit "
"]; TE "c:xVal" [] [TT [Lit "
"]; TE "c:numRef" [] [TT [Lit "
"]; TE "c:f" [] [TT [Lit "Sheet1!$A$2:$A$"; Lit (decn (1 + length (values s)))]]; TT [Lit "
"]; TE "c:numCache" [] ([TT [Lit "
"]; TE "c:formatCode" [] [TT [Lit "General"]]] ++ (xs) ++ [TT [Lit "
"]])%list; TT [Lit "
"]]; TT [Lit "
"]]; TT [Lit "
"]; TE "c:yVal" [] [TT [Lit "
"]; TE "c:numRef" [] [TT [Lit "
"]; TE "c:f" [] [TT [Lit "Sheet1!$B$2:$B$"; Lit (decn (1 + length (values s)))]]; TT [Lit "
"]; TE "c:numCache" [] ([TT [Lit "
"]; TE "c:formatCode" [] [TT [Lit "General"]]] ++ (vs) ++ [TT [Lit "
"]])%list; TT [Lit "
"]]; TT [Lit "
"]]; TT [Lit "
"]]).
Lemma scat_str idx s xs vs : ("
<c:ser>
<c:idx val=""" ++ decn idx ++ """/>
<c:order val=""" ++ decn idx ++ """/>
<c:tx>
<c:strRef>
<c:f>Sheet1!$B$1</c:f>
<c:strCache>
<c:ptCount val=""1""/>
<c:pt idx=""0""><c:v>" ++ escape_xml (ser_name s) ++ "</c:v></c:pt>
</c:strCache>
</c:strRef>
</c:tx>
<c:xVal>
<c:numRef>
<c:f>Sheet1!$A$2:$A$" ++ decn (1 + length (values s)) ++ "</c:f>
<c:numCache>
<c:formatCode>General</c:formatCode>")
  ++ tstrs xs ++ ("
</c:numCache>
</c:numRef>
</c:xVal>
<c:yVal>
<c:numRef>
<c:f>Sheet1!$B$2:$B$" ++ decn (1 + length (values s)) ++ "</c:f>
<c:numCache>
<c:formatCode>General</c:formatCode>")
  ++ tstrs vs ++ "
</c:numCache>
</c:numRef>
</c:yVal>
</c:ser>" = tstrs [nlT; scatE idx s xs vs].
Proof. unfold scatE, nlT, tstrs at 3. tblock. generalize (tstrs vs) (tstrs xs). intros x y. tstr_eq. Qed.
Definition bubE (idx : nat) (s : series) (xs vs bs : list tpl) : tpl :=
  (TE "c:ser" [] [TT [Lit "
"]; TS "c:idx" [("val", [Lit (decn idx)])]; TT [Lit "
"]; TS "c:order" [("val", [Lit (decn idx)])]; TT [Lit "
"]; TE "c:tx" [] [TT [Lit "
"]; TE "c:strRef" [] [TT [Lit "
"]; TE "c:f" [] [TT [Lit "Sheet1!$B$1"]]; TT [Lit "
"]; TE "c:strCache" [] [TT [Lit "
"]; TS "c:ptCount" [("val", [Lit "1"])]; TT [Lit "
"]; TE "c:pt" [("idx", [Lit "0"])] [TE "c:v" [] [TT [Esc (ser_name s)]]]; TT [Lit "
"]]; TT [Lit "
"]]; TT [Lit "
"]]; TT [Lit "
"]; TE "c:xVal" [] [TT [Lit "
"]; TE "c:numRef" [] [TT [Lit "
"]; TE "c:f" [] [TT [Lit "Sheet1!$A$2:$A$"; Lit (decn (1 + length (values s)))]]; TT [Lit "
"]; TE "c:numCache" [] ([TT [Lit "
"]; TE "c:formatCode" [] [TT [Lit "General"]]] ++ (xs) ++ [TT [Lit "
"]])%list; TT [Lit "
"]]; TT [Lit "
"]]; TT [Lit "
"]; TE "c:yVal" [] [TT [Lit "
"]; TE "c:numRef" [] [TT [Lit "
"]; TE "c:f" [] [TT [Lit "Sheet1!$B$2:$B$"; Lit (decn (1 + length (values s)))]]; TT [Lit "
"]; TE "c:numCache" [] ([TT [Lit "
"]; TE "c:formatCode" [] [TT [Lit "General"]]] ++ (vs) ++ [TT [Lit "
"]])%list; TT [Lit "
"]]; TT [Lit "
"]]; TT [Lit "
"]; TE "c:bubbleSize" [] [TT [Lit "
"]; TE "c:numRef" [] [TT [Lit "
"]; TE "c:f" [] [TT [Lit "Sheet1!$C$2:$C$"; Lit (decn (1 + length (values s)))]]; TT [Lit "
"]; TE "c:numCache" [] ([TT [Lit "
"]; TE "c:formatCode" [] [TT [Lit "General"]]] ++ (bs) ++ [TT [Lit "
"]])%list; TT [Lit "
"]]; TT [Lit "
"]]; TT [Lit "
"]]).
Lemma bub_str idx s xs vs bs : ("
<c:ser>
<c:idx val=""" ++ decn idx ++ """/>
<c:order val=""" ++ decn idx ++ """/>
<c:tx>
<c:strRef>
<c:f>Sheet1!$B$1</c:f>
<c:strCache>
<c:ptCount val=""1""/>
<c:pt idx=""0""><c:v>" ++ escape_xml (ser_name s) ++ "</c:v></c:pt>
</c:strCache>
</c:strRef>
</c:tx>
<c:xVal>
<c:numRef>
<c:f>Sheet1!$A$2:$A$" ++ decn (1 + length (values s)) ++ "</c:f>
<c:numCache>
<c:formatCode>General</c:formatCode>")
  ++ tstrs xs ++ ("
</c:numCache>
</c:numRef>
</c:xVal>
<c:yVal>
<c:numRef>
<c:f>Sheet1!$B$2:$B$" ++ decn (1 + length (values s)) ++ "</c:f>
<c:numCache>
<c:formatCode>General</c:formatCode>")
  ++ tstrs vs ++ ("
</c:numCache>
</c:numRef>
</c:yVal>
<c:bubbleSize>
<c:numRef>
<c:f>Sheet1!$C$2:$C$" ++ decn (1 + length (values s)) ++ "</c:f>
<c:numCache>
<c:formatCode>General</c:formatCode>")
  ++ tstrs bs ++ "
</c:numCache>
</c:numRef>
</c:bubbleSize>
</c:ser>" = tstrs [nlT; bubE idx s xs vs bs].
Proof. unfold bubE, nlT, tstrs at 4. tblock. generalize (tstrs vs) (tstrs xs) (tstrs bs). intros x y z. tstr_eq. Qed.
Definition scatT idx s : list tpl := [nlT; scatE idx s (xsT s) (valsT s)].
Definition bubT idx s : list tpl := [nlT; bubE idx s (xsT s) (valsT s) (absT s)].
Lemma scatter_str idx s : scatter_series idx s = tstrs (scatT idx s).
Proof. unfold scatter_series, scatT. rewrite vals_str, xs_str. apply scat_str. Qed.
Lemma bubble_str idx s : bubble_series idx s = tstrs (bubT idx s).
Proof. unfold bubble_series, bubT. rewrite vals_str, xs_str, abs_str. apply bub_str. Qed.

(** ** Plots *)
Definition plotE (n : string) (pre ss axes : list tpl) : tpl := TE n [] (pre ++ ss ++ axes)%list.
Lemma plot_str n pre ss axes : "<" ++ n ++ ">" ++ tstrs pre ++ tstrs ss ++ tstrs axes ++ "</" ++ n ++ ">" = tstr (plotE n pre ss axes).
Proof.
  unfold plotE. cbn [tstr]. rewrite !map_app, !sconcat_app. fold (tstrs pre) (tstrs ss) (tstrs axes).
  generalize (tstrs pre) (tstrs ss) (tstrs axes). intros. unfold attrs_raw. cbn [map sconcat fold_right]. str_refl.
Qed.
Definition preT (l : list (string * string)) : list tpl := flat_map (fun p => [nlT; TS (fst p) [("val", [Lit (snd p)])]]) l.
Definition axesT (c : chart) (p1 p2 : string) : list tpl := [nlT; catE c p1 (catsT c); nlT; valE p2].
Definition vaxesT : list tpl := [nlT; valE "b"; nlT; valE "l"].
Lemma axes_str c p1 p2 : category_axis c p1 ++ value_axis p2 = tstrs (axesT c p1 p2).
Proof. rewrite cat_str, val_str, <- tstrs_app. reflexivity. Qed.
Lemma vaxes_str : value_axis "b" ++ value_axis "l" = tstrs vaxesT.
Proof. rewrite !val_str, <- tstrs_app. reflexivity. Qed.
Definition allT (f : nat -> series -> list tpl) (c : chart) : list tpl := pushT f 0 (sers c).
Definition firstT (f : series -> list tpl) (c : chart) : list tpl := match sers c with s :: _ => f s | [] => [] end.
Definition combo_bars (c : chart) : list tpl := pushT seriesT 0 (firstn (Nat.max (length (sers c) / 2) 1) (sers c)).
Definition combo_lines (c : chart) : list tpl :=
  pushT (fun i s => seriesT (length (sers c) / 2 + i) s) 0 (skipn (Nat.max (length (sers c) / 2) 1) (sers c)).
Definition plotsT (c : chart) : list tpl :=
  match ctype c with
  | Bar | BarHorizontal | BarStacked | BarStacked100 =>
      [plotE "c:barChart" (preT [("c:barDir", "bar"); ("c:grouping", "clustered")]) (allT seriesT c) (axesT c "l" "b")]
  | Line | LineMarkers | LineStacked => [plotE "c:lineChart" (preT [("c:grouping", "lineMarkers")]) (allT seriesT c) (axesT c "b" "l")]
  | Pie => [plotE "c:pieChart" (preT [("c:varyColors", "1")]) (firstT (fun s => [nlT; pieE c s (valsT s) (catsT c)]) c) []]
  | Doughnut => [plotE "c:doughnutChart" (preT [("c:varyColors", "1"); ("c:holeSize", "50")])
                       (firstT (fun s => [nlT; doughE c s (valsT s) (catsT c)]) c) []]
  | Area | AreaStacked | AreaStacked100 =>
      [plotE "c:areaChart" (preT [("c:grouping", unwrap_or (grouping (ctype c)) "standard")]) (allT seriesT c) (axesT c "b" "l")]
  | Scatter | ScatterLines | ScatterSmooth =>
      [plotE "c:scatterChart" (preT [("c:scatterStyle", unwrap_or (scatter_style (ctype c)) "lineMarker")]) (allT scatT c) vaxesT]
  | Bubble => [plotE "c:bubbleChart" (preT [("c:varyColors", "0"); ("c:bubbleScale", "100")]) (allT bubT c) vaxesT]
  | Radar | RadarFilled =>
      [plotE "c:radarChart" (preT [("c:radarStyle", unwrap_or (radar_style (ctype c)) "marker")]) (allT seriesT c) (axesT c "b" "l")]
  | StockHLC | StockOHLC => [plotE "c:stockChart" [] (allT seriesT c) (axesT c "b" "l")]
  | Combo =>
      plotE "c:barChart" (preT [("c:barDir", "col"); ("c:grouping", "clustered")]) (combo_bars c) (axesT c "b" "l")
      :: (if Nat.ltb 1 (length (sers c)) then [plotE "c:lineChart" (preT [("c:grouping", "standard")]) (combo_lines c) []] else [])
  end.
Lemma all_series_str c : pushes series_data 0 (sers c) = tstrs (allT seriesT c).
Proof. apply push_str. intros. apply series_str. Qed.
Lemma one_str t : tstrs [t] = tstr t.
Proof. unfold tstrs. cbn [map sconcat fold_right]. apply sapp_nil_r. Qed.
Lemma plots_head c plots pre ss axes n hd : hd = "<" ++ n ++ ">" ++ tstrs pre -> plots = [plotE n pre ss axes] ->
  header c ++ hd ++ tstrs ss ++ tstrs axes ++ ("</" ++ n ++ ">") ++ footer = decl ++ nl ++ tstr (docT c plots).
Proof. intros -> ->. rewrite <- doc_str, one_str, <- plot_str, !sapp_assoc. reflexivity. Qed.
Lemma sapp_assoc' a b c : a ++ b ++ c = (a ++ b) ++ c.
Proof. symmetry. apply sapp_assoc. Qed.
Lemma series_plot_str c n pre p1 p2 hd : hd = "<" ++ n ++ ">" ++ tstrs pre ->
  header c ++ hd ++ pushes series_data 0 (sers c) ++ category_axis c p1 ++ value_axis p2 ++ ("</" ++ n ++ ">") ++ footer
  = decl ++ nl ++ tstr (docT c [plotE n pre (allT seriesT c) (axesT c p1 p2)]).
Proof. intros H. rewrite all_series_str, (sapp_assoc' (category_axis c p1)), axes_str. apply (plots_head c _ pre _ _ n hd H eq_refl). Qed.
Lemma scat_plot_str c n pre f ft hd : hd = "<" ++ n ++ ">" ++ tstrs pre -> (forall k x, f k x = tstrs (ft k x)) ->
  header c ++ hd ++ pushes f 0 (sers c) ++ value_axis "b" ++ value_axis "l" ++ ("</" ++ n ++ ">") ++ footer
  = decl ++ nl ++ tstr (docT c [plotE n pre (allT ft c) vaxesT]).
Proof. intros H E. rewrite (push_str f ft E), (sapp_assoc' (value_axis "b")), vaxes_str. apply (plots_head c _ pre _ _ n hd H eq_refl). Qed.
Lemma chart_part_str c : chart_part_xml c = decl ++ nl ++ tstr (docT c (plotsT c)).
Proof.
  unfold chart_part_xml, plotsT. destruct (ctype c) eqn:T.
  1-4: exact (series_plot_str c "c:barChart" (preT [("c:barDir", "bar"); ("c:grouping", "clustered")]) "l" "b" _ eq_refl).
  1-3: exact (series_plot_str c "c:lineChart" (preT [("c:grouping", "lineMarkers")]) "b" "l" _ eq_refl).
  - unfold pie_xml. rewrite <- (plots_head c _ (preT [("c:varyColors", "1")]) (firstT (fun s => [nlT; pieE c s (valsT s) (catsT c)]) c) [] "c:pieChart" _ eq_refl eq_refl).
    unfold firstT. destruct (sers c) as [|s l]; [reflexivity|]. rewrite vals_str, cats_str, pie_str. reflexivity.
  - unfold doughnut_xml. rewrite <- (plots_head c _ (preT [("c:varyColors", "1"); ("c:holeSize", "50")]) (firstT (fun s => [nlT; doughE c s (valsT s) (catsT c)]) c) [] "c:doughnutChart" _ eq_refl eq_refl).
    unfold firstT. destruct (sers c) as [|s l]; [reflexivity|]. rewrite vals_str, cats_str, dough_str. reflexivity.
  - unfold area_xml. rewrite T. exact (series_plot_str c "c:areaChart" (preT [("c:grouping", "standard")]) "b" "l" _ eq_refl).
  - unfold area_xml. rewrite T. exact (series_plot_str c "c:areaChart" (preT [("c:grouping", "stacked")]) "b" "l" _ eq_refl).
  - unfold area_xml. rewrite T. exact (series_plot_str c "c:areaChart" (preT [("c:grouping", "percentStacked")]) "b" "l" _ eq_refl).
  - unfold scatter_xml. rewrite T. exact (scat_plot_str c "c:scatterChart" (preT [("c:scatterStyle", "marker")]) _ _ _ eq_refl scatter_str).
  - unfold scatter_xml. rewrite T. exact (scat_plot_str c "c:scatterChart" (preT [("c:scatterStyle", "lineMarker")]) _ _ _ eq_refl scatter_str).
  - unfold scatter_xml. rewrite T. exact (scat_plot_str c "c:scatterChart" (preT [("c:scatterStyle", "smoothMarker")]) _ _ _ eq_refl scatter_str).
  - unfold bubble_xml. exact (scat_plot_str c "c:bubbleChart" (preT [("c:varyColors", "0"); ("c:bubbleScale", "100")]) _ _ _ eq_refl bubble_str).
  - unfold radar_xml. rewrite T. exact (series_plot_str c "c:radarChart" (preT [("c:radarStyle", "marker")]) "b" "l" _ eq_refl).
  - unfold radar_xml. rewrite T. exact (series_plot_str c "c:radarChart" (preT [("c:radarStyle", "filled")]) "b" "l" _ eq_refl).
  - exact (series_plot_str c "c:stockChart" [] "b" "l" _ eq_refl).
  - exact (series_plot_str c "c:stockChart" [] "b" "l" _ eq_refl).
  - unfold combo_xml. cbv zeta. rewrite (push_str _ seriesT) by (intros; apply series_str).
    rewrite (push_str (fun i s => series_data (length (sers c) / 2 + i) s) (fun i s => seriesT (length (sers c) / 2 + i) s)) by (intros; apply series_str).
    fold (combo_bars c) (combo_lines c). rewrite (sapp_assoc' (category_axis c _)), axes_str, <- doc_str, tstrs_cons, <- plot_str.
    destruct (Nat.ltb 1 (length (sers c))).
    + rewrite one_str, <- plot_str. rewrite !sapp_assoc. reflexivity.
    + rewrite !sapp_assoc. reflexivity.
Qed.
