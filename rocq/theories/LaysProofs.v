(** Proofs about the stand-alone layouts. *)
From Coq Require Import String Ascii List Bool Arith NArith ZArith Lia FinFun.
From Verif Require Import Str StrRefl Num EscapeModel EscapeProofs XmlSpec XmlProofs XmlTpl OpcSpec GenProofs TplRead XmlPath PathRead ColorModel DocPropsProofs LookSpec TableModel TableSpec TableProofs TableLook ConnectorModel ConnectorSpec ConnectorProofs ChartModel ChartTpl ChartProofs ShapeModel SlideModel SlideSpec SlideInput SlideWant ElemRead ShapeProofs SlideProofs SlideRead SlideShow SlideIds GeomSpec GeomProofs SlideThms LaysModel LaysSpec.
Import ListNotations.
Open Scope nat_scope.
Open Scope string_scope.

(** ** Templates *)
Definition ltitleE (x y w h : N) (pr : tpl) (t : string) : tpl :=
  (TE "p:sp" [] [TT [Lit "
"]; TE "p:nvSpPr" [] [TT [Lit "
"]; TS "p:cNvPr" [("id", [Lit "2"]); ("name", [Lit "Title"])]; TT [Lit "
"]; TE "p:cNvSpPr" [] [TS "a:spLocks" [("noGrp", [Lit "1"])]]; TT [Lit "
"]; TE "p:nvPr" [] [TS "p:ph" [("type", [Lit "title"])]]; TT [Lit "
"]]; TT [Lit "
"]; TE "p:spPr" [] [TT [Lit "
"]; TE "a:xfrm" [] [TS "a:off" [("x", [Lit ((dec x))]); ("y", [Lit ((dec y))])]; TS "a:ext" [("cx", [Lit ((dec w))]); ("cy", [Lit ((dec h))])]]; TT [Lit "
"]; TE "a:prstGeom" [("prst", [Lit "rect"])] [TS "a:avLst" []]; TT [Lit "
"]; TS "a:noFill" []; TT [Lit "
"]]; TT [Lit "
"]; TE "p:txBody" [] [TT [Lit "
"]; TS "a:bodyPr" []; TT [Lit "
"]; TS "a:lstStyle" []; TT [Lit "
"]; TE "a:p" [] [TT [Lit "
"]; TE "a:r" [] ([TT [Lit "
"]] ++ ([pr]) ++ [TT [Lit "
"]; TE "a:t" [] [TT [Esc t]]; TT [Lit "
"]])%list; TT [Lit "
"]]; TT [Lit "
"]]; TT [Lit "
"]]).
Definition lcenterE (x y w h : N) (pr : tpl) (t : string) : tpl :=
  (TE "p:sp" [] [TT [Lit "
"]; TE "p:nvSpPr" [] [TT [Lit "
"]; TS "p:cNvPr" [("id", [Lit "2"]); ("name", [Lit "Title"])]; TT [Lit "
"]; TE "p:cNvSpPr" [] [TS "a:spLocks" [("noGrp", [Lit "1"])]]; TT [Lit "
"]; TE "p:nvPr" [] [TS "p:ph" [("type", [Lit "ctrTitle"])]]; TT [Lit "
"]]; TT [Lit "
"]; TE "p:spPr" [] [TT [Lit "
"]; TE "a:xfrm" [] [TS "a:off" [("x", [Lit ((dec x))]); ("y", [Lit ((dec y))])]; TS "a:ext" [("cx", [Lit ((dec w))]); ("cy", [Lit ((dec h))])]]; TT [Lit "
"]; TE "a:prstGeom" [("prst", [Lit "rect"])] [TS "a:avLst" []]; TT [Lit "
"]; TS "a:noFill" []; TT [Lit "
"]]; TT [Lit "
"]; TE "p:txBody" [] [TT [Lit "
"]; TS "a:bodyPr" []; TT [Lit "
"]; TS "a:lstStyle" []; TT [Lit "
"]; TE "a:p" [] [TT [Lit "
"]; TS "a:pPr" [("algn", [Lit "ctr"])]; TT [Lit "
"]; TE "a:r" [] ([TT [Lit "
"]] ++ ([pr]) ++ [TT [Lit "
"]; TE "a:t" [] [TT [Esc t]]; TT [Lit "
"]])%list; TT [Lit "
"]]; TT [Lit "
"]]; TT [Lit "
"]]).
Definition lbodyE (x y w h : N) (ps : list tpl) : tpl :=
  (TE "p:sp" [] [TT [Lit "
"]; TE "p:nvSpPr" [] [TT [Lit "
"]; TS "p:cNvPr" [("id", [Lit "3"]); ("name", [Lit "Content"])]; TT [Lit "
"]; TE "p:cNvSpPr" [] [TS "a:spLocks" [("noGrp", [Lit "1"])]]; TT [Lit "
"]; TE "p:nvPr" [] [TS "p:ph" [("type", [Lit "body"]); ("idx", [Lit "1"])]]; TT [Lit "
"]]; TT [Lit "
"]; TE "p:spPr" [] [TT [Lit "
"]; TE "a:xfrm" [] [TS "a:off" [("x", [Lit ((dec x))]); ("y", [Lit ((dec y))])]; TS "a:ext" [("cx", [Lit ((dec w))]); ("cy", [Lit ((dec h))])]]; TT [Lit "
"]; TE "a:prstGeom" [("prst", [Lit "rect"])] [TS "a:avLst" []]; TT [Lit "
"]; TS "a:noFill" []; TT [Lit "
"]]; TT [Lit "
"]; TE "p:txBody" [] ([TT [Lit "
"]; TS "a:bodyPr" []; TT [Lit "
"]; TS "a:lstStyle" []; TT [Lit "
"]] ++ (ps))%list; TT [Lit "
"]]).
Definition lcolE (id name idx x : string) (ps : list tpl) : tpl :=
  (TE "p:sp" [] [TT [Lit "
"]; TE "p:nvSpPr" [] [TT [Lit "
"]; TS "p:cNvPr" [("id", [Lit id]); ("name", [Lit name])]; TT [Lit "
"]; TE "p:cNvSpPr" [] [TS "a:spLocks" [("noGrp", [Lit "1"])]]; TT [Lit "
"]; TE "p:nvPr" [] [TS "p:ph" [("type", [Lit "body"]); ("idx", [Lit idx])]]; TT [Lit "
"]]; TT [Lit "
"]; TE "p:spPr" [] [TT [Lit "
"]; TE "a:xfrm" [] [TT [Lit "
"]; TS "a:off" [("x", [Lit x]); ("y", [Lit "1189200"])]; TT [Lit "
"]; TS "a:ext" [("cx", [Lit "4115100"]); ("cy", [Lit "5668800"])]; TT [Lit "
"]]; TT [Lit "
"]; TE "a:prstGeom" [("prst", [Lit "rect"])] [TS "a:avLst" []]; TT [Lit "
"]; TS "a:noFill" []; TT [Lit "
"]]; TT [Lit "
"]; TE "p:txBody" [] ([TT [Lit "
"]; TS "a:bodyPr" []; TT [Lit "
"]; TS "a:lstStyle" []; TT [Lit "
"]] ++ (ps))%list; TT [Lit "
"]]).
Definition limageE (id x y w h name : string) : tpl :=
  (TE "p:sp" [] [TT [Lit "
"]; TE "p:nvSpPr" [] [TT [Lit "
"]; TS "p:cNvPr" [("id", [Lit id]); ("name", [Lit "Image Placeholder: "; Esc name])]; TT [Lit "
"]; TS "p:cNvSpPr" []; TT [Lit "
"]; TS "p:nvPr" []; TT [Lit "
"]]; TT [Lit "
"]; TE "p:spPr" [] [TT [Lit "
"]; TE "a:xfrm" [] [TT [Lit "
"]; TS "a:off" [("x", [Lit x]); ("y", [Lit y])]; TT [Lit "
"]; TS "a:ext" [("cx", [Lit w]); ("cy", [Lit h])]; TT [Lit "
"]]; TT [Lit "
"]; TE "a:prstGeom" [("prst", [Lit "rect"])] [TS "a:avLst" []]; TT [Lit "
"]; TE "a:solidFill" [] [TS "a:srgbClr" [("val", [Lit "E0E0E0"])]]; TT [Lit "
"]; TE "a:ln" [("w", [Lit "12700"])] [TE "a:solidFill" [] [TS "a:srgbClr" [("val", [Lit "808080"])]]]; TT [Lit "
"]]; TT [Lit "
"]; TE "p:txBody" [] [TT [Lit "
"]; TS "a:bodyPr" [("wrap", [Lit "square"]); ("rtlCol", [Lit "0"]); ("anchor", [Lit "ctr"])]; TT [Lit "
"]; TS "a:lstStyle" []; TT [Lit "
"]; TE "a:p" [] [TT [Lit "
"]; TS "a:pPr" [("algn", [Lit "ctr"])]; TT [Lit "
"]; TE "a:r" [] [TT [Lit "
"]; TS "a:rPr" [("lang", [Lit "en-US"]); ("sz", [Lit "1400"])]; TT [Lit "
"]; TE "a:t" [] [TT [Lit "📷 "; Esc name]]; TT [Lit "
"]]; TT [Lit "
"]]; TT [Lit "
"]]; TT [Lit "
"]]).
Definition lrootE (its : list tpl) : tpl :=
  (TE "p:sld" [("xmlns:a", [Lit "http://schemas.openxmlformats.org/drawingml/2006/main"]); ("xmlns:r", [Lit "http://schemas.openxmlformats.org/officeDocument/2006/relationships"]); ("xmlns:p", [Lit "http://schemas.openxmlformats.org/presentationml/2006/main"])] [TT [Lit "
"]; TE "p:cSld" [] [TT [Lit "
"]; TE "p:bg" [] [TE "p:bgRef" [("idx", [Lit "1001"])] [TS "a:schemeClr" [("val", [Lit "bg1"])]]]; TT [Lit "
"]; TE "p:spTree" [] ([TT [Lit "
"]; TE "p:nvGrpSpPr" [] [TS "p:cNvPr" [("id", [Lit "1"]); ("name", [])]; TS "p:cNvGrpSpPr" []; TS "p:nvPr" []]; TT [Lit "
"]; TE "p:grpSpPr" [] [TE "a:xfrm" [] [TS "a:off" [("x", [Lit "0"]); ("y", [Lit "0"])]; TS "a:ext" [("cx", [Lit "9144000"]); ("cy", [Lit "6858000"])]; TS "a:chOff" [("x", [Lit "0"]); ("y", [Lit "0"])]; TS "a:chExt" [("cx", [Lit "9144000"]); ("cy", [Lit "6858000"])]]]; TT [Lit "
"]] ++ (its))%list; TT [Lit "
"]]; TT [Lit "
"]; TE "p:clrMapOvr" [] [TS "a:masterClrMapping" []]; TT [Lit "
"]]).

(** ** The text of the templates *)
Definition basic (b : bullet) : bullet := BulletPoint (b_text b) (b_level b) (b_style b) None.
Definition nlz (l : list tpl) : list tpl := flat_map (fun t => [t; nlT]) l.
Lemma nlT_str : tstr nlT = nl.
Proof. reflexivity. Qed.
Lemma nlz_map_str {A} (f : A -> string) (g : A -> tpl) l : (forall x, f x = tstr (g x) ++ nl) -> sconcat (map f l) = tstrs (nlz (map g l)).
Proof.
  intros H. induction l as [|x l IH]; [reflexivity|]. cbn [map nlz flat_map app]. fold (nlz (map g l)). unfold tstrs. cbn [map]. rewrite !sconcat_cons. fold (tstrs (nlz (map g l))).
  rewrite <- IH, H, nlT_str. now rewrite sapp_assoc.
Qed.
Lemma nlz_toks l : toks l -> toks (nlz l).
Proof. induction l as [|t l IH]; [trivial|]. intros [A B]. cbn [nlz flat_map app]. split; [exact A|]. split; [apply nlT_tok|now apply IH]. Qed.
Definition lparas (d : props) (l : list bullet) : list tpl := nlz (map (fun b => paraT d (basic b)) l).
Lemma lbullet_str d b : lay_bullet (props_xml d) b = tstr (paraT d (basic b)) ++ nl.
Proof.
  unfold lay_bullet, paraT, basic. cbv zeta. cbn [b_text b_level b_style b_format merged]. rewrite props_str, bu_str.
  change (indent_of (BulletPoint (b_text b) (b_level b) (b_style b) None)) with (indent_of b). fold (indent_of b).
  generalize (propsT d) (buT (b_style b)) (dec (indent_of b)) (dec (wadd u32_max (wmul u32_max (b_level b) 457200) (indent_of b))) (dec (b_level b)).
  intros x y m i l. unfold paraE. tblock. generalize (tstr x) (tstr y). intros u v. tstr_eq.
Qed.
Lemma lbullets_str d l : lay_bullets (props_xml d) l = tstrs (lparas d l).
Proof. unfold lay_bullets, lparas. apply nlz_map_str. apply lbullet_str. Qed.
Lemma ltitle_str x y w h t pr : lay_title x y w h t (tstr pr) = tstr (ltitleE x y w h pr t) ++ nl.
Proof. unfold lay_title, ltitleE. tblock. generalize (tstr pr). intros u. tstr_eq. Qed.
Lemma lcenter_str x y w h t pr : lay_centered x y w h t (tstr pr) = tstr (lcenterE x y w h pr t) ++ nl.
Proof. unfold lay_centered, lcenterE. tblock. generalize (tstr pr). intros u. tstr_eq. Qed.
Lemma lbody_str x y w h ps : lay_body x y w h ++ tstrs ps ++ lay_end = tstr (lbodyE x y w h ps) ++ nl.
Proof. unfold lay_body, lay_end, lbodyE. tblock. generalize (tstrs ps). intros u. tstr_eq. Qed.
Lemma limage_str i id : lay_image i id = nl ++ tstr (limageE (dec id) (dec (im_x i)) (dec (im_y i)) (dec (im_w i)) (dec (im_h i)) (im_name i)).
Proof. unfold lay_image, limageE. tstr_eq. Qed.
Lemma lroot_str its : lay_head ++ tstrs its ++ lay_foot = decl ++ nl ++ tstr (lrootE its).
Proof. unfold lay_head, lay_foot, lrootE, decl. tblock. generalize (tstrs its). intros u. tstr_eq. Qed.
