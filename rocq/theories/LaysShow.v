(** The items of a stand-alone slide and what they show. *)
From Coq Require Import String Ascii List Bool Arith NArith ZArith Lia FinFun.
From Verif Require Import Str StrRefl Num EscapeModel EscapeProofs XmlSpec XmlProofs XmlTpl OpcSpec GenProofs TplRead XmlPath PathRead ColorModel DocPropsProofs LookSpec TableModel TableSpec TableProofs TableLook ConnectorModel ConnectorSpec ConnectorProofs ChartModel ChartTpl ChartProofs ShapeModel SlideModel SlideSpec SlideInput SlideWant ElemRead ShapeProofs SlideProofs SlideRead SlideShow SlideIds GeomSpec GeomProofs SlideThms LaysModel LaysSpec LaysProofs.
Import ListNotations.
Open Scope nat_scope.
Open Scope string_scope.

(** ** The items of a slide *)
Definition ltp (s : slide) : tpl := propsT (with_basic (lay_title_size s) (s_tbold s) (s_titalic s) (s_tunder s) (s_tcolor s)).
Definition lcp (s : slide) (cu : bool) : props := with_basic (lay_content_size s) (s_cbold s) (s_citalic s) cu (s_ccolor s).
Lemma ltp_str s : lay_tprops s = tstr (ltp s).
Proof. apply props_str. Qed.
Definition ltitles (s : slide) : list tpl :=
  match s_layout s with
  | Blank => []
  | TitleOnly | TitleAndContent => [ltitleE 457200 274638 8230200 1143000 (ltp s) (s_title s)]
  | CenteredTitle | SectionHeader => [lcenterE 457200 2743200 8230200 1371600 (ltp s) (s_title s)]
  | TitleAndBigContent | TwoColumn => [ltitleE 457200 274638 8230200 914400 (ltp s) (s_title s)]
  end.
Definition lboxes (s : slide) (cu : bool) : list tpl :=
  match s_layout s with
  | TitleAndContent => match s_table s with Some _ => [] | None => match bullets_of s with [] => [] | l => [lbodyE 457200 1600200 8230200 4572000 (lparas (lcp s cu) l)] end end
  | TitleAndBigContent => match bullets_of s with [] => [] | l => [lbodyE 457200 1189200 8230200 5668800 (lparas (lcp s cu) l)] end
  | TwoColumn =>
      let l := bullets_of s in
      if Nat.ltb 0 (length l) then
        lcolE "3" "Left Content" "1" "457200" (lparas (lcp s cu) (firstn (half l) l))
        :: (if Nat.ltb (half l) (length l) then [lcolE "4" "Right Content" "2" "4572300" (lparas (lcp s cu) (skipn (half l) l))] else [])
      else []
  | _ => []
  end.
Definition ltables (s : slide) : list tpl :=
  match s_layout s with TitleAndContent => match s_table s with Some t => [tableT t 3] | None => [] end | _ => [] end.
Definition lshapes (s : slide) : list tpl :=
  match s_layout s with TitleAndContent => eachT (fun i x => shapeT x (N.of_nat (i + 10) mod (u32_max + 1))%N) 0 (s_shapes s) | _ => [] end.
Definition limages (s : slide) : list tpl :=
  match s_layout s with
  | TitleAndContent => eachT (fun i x => limageE (dec (N.of_nat (20 + length (s_shapes s) + i))) (dec (im_x x)) (dec (im_y x)) (dec (im_w x)) (dec (im_h x)) (im_name x)) 0 (s_images s)
  | _ => []
  end.
(** The columns come after an empty line each. *)
Definition spaced (s : slide) (l : list tpl) : list tpl := match s_layout s with TwoColumn => flat_map (fun t => [nlT; t; nlT]) l | _ => nlz l end.
Definition litems (s : slide) (cu : bool) : list tpl :=
  (nlz (ltitles s) ++ ltables s ++ spaced s (lboxes s cu) ++ nls (lshapes s) ++ nls (limages s))%list.
Lemma tstrs2 t : tstrs (nlz [t]) = tstr t ++ nl.
Proof. unfold nlz, tstrs. cbn [flat_map app map]. rewrite !sconcat_cons. cbn [sconcat fold_right]. now rewrite nlT_str, sapp_nil_r. Qed.
Lemma tstrs1 t : tstrs [t] = tstr t.
Proof. unfold tstrs. cbn [map]. rewrite sconcat_cons. cbn [sconcat fold_right]. now rewrite sapp_nil_r. Qed.
Lemma tstrs3 t l : tstrs ([nlT; t; nlT] ++ l)%list = nl ++ tstr t ++ nl ++ tstrs l.
Proof. rewrite tstrs_app'. unfold tstrs at 1. cbn [map]. rewrite !sconcat_cons. cbn [sconcat fold_right]. rewrite nlT_str, sapp_nil_r. now rewrite !sapp_assoc. Qed.
Lemma limages_str s0 l : each_push (fun i x => lay_image x (N.of_nat (s0 + i))) 0 l
  = tstrs (nls (eachT (fun i x => limageE (dec (N.of_nat (s0 + i))) (dec (im_x x)) (dec (im_y x)) (dec (im_w x)) (dec (im_h x)) (im_name x)) 0 l)).
Proof.
  rewrite <- (nl_each_str (fun i x => tstr (limageE (dec (N.of_nat (s0 + i))) (dec (im_x x)) (dec (im_y x)) (dec (im_w x)) (dec (im_h x)) (im_name x)))) by reflexivity.
  unfold nl_each. generalize 0. induction l as [|x l IH]; intros k; [reflexivity|]. cbn [each_push]. now rewrite IH, limage_str.
Qed.
Lemma lcp_str s cu : lay_cprops s cu = props_xml (lcp s cu).
Proof. reflexivity. Qed.
Lemma lcol1_str ps : ("
<p:sp>
<p:nvSpPr>
<p:cNvPr id=""3"" name=""Left Content""/>
<p:cNvSpPr><a:spLocks noGrp=""1""/></p:cNvSpPr>
<p:nvPr><p:ph type=""body"" idx=""1""/></p:nvPr>
</p:nvSpPr>
<p:spPr>
<a:xfrm>
<a:off x=""457200"" y=""1189200""/>
<a:ext cx=""4115100"" cy=""5668800""/>
</a:xfrm>
<a:prstGeom prst=""rect""><a:avLst/></a:prstGeom>
<a:noFill/>
</p:spPr>
<p:txBody>
<a:bodyPr/>
<a:lstStyle/>
") ++ tstrs ps ++ lay_end = nl ++ tstr (lcolE "3" "Left Content" "1" "457200" ps) ++ nl.
Proof. unfold lcolE, lay_end. tblock. generalize (tstrs ps). intros u. tstr_eq. Qed.
Lemma lcol2_str ps : ("
<p:sp>
<p:nvSpPr>
<p:cNvPr id=""4"" name=""Right Content""/>
<p:cNvSpPr><a:spLocks noGrp=""1""/></p:cNvSpPr>
<p:nvPr><p:ph type=""body"" idx=""2""/></p:nvPr>
</p:nvSpPr>
<p:spPr>
<a:xfrm>
<a:off x=""4572300"" y=""1189200""/>
<a:ext cx=""4115100"" cy=""5668800""/>
</a:xfrm>
<a:prstGeom prst=""rect""><a:avLst/></a:prstGeom>
<a:noFill/>
</p:spPr>
<p:txBody>
<a:bodyPr/>
<a:lstStyle/>
") ++ tstrs ps ++ lay_end = nl ++ tstr (lcolE "4" "Right Content" "2" "4572300" ps) ++ nl.
Proof. unfold lcolE, lay_end. tblock. generalize (tstrs ps). intros u. tstr_eq. Qed.
Lemma inside_str s cu : lay_inside s cu = tstrs (litems s cu).
Proof.
  unfold lay_inside, litems. rewrite !tstrs_app'. unfold ltitles, ltables, lboxes, lshapes, limages, spaced.
  destruct (s_layout s) eqn:L; unfold lay_content_slide, lay_big_slide, lay_columns_slide; cbv zeta; rewrite ?ltp_str, ?lcp_str.
  all: try change (tstrs (nls [])) with ""; try change (tstrs (nlz [])) with ""; try change (tstrs []) with ""; rewrite ?tstrs2, ?ltitle_str, ?lcenter_str.
  - now rewrite ?sapp_nil_r.
  - now rewrite ?sapp_nil_r.
  - f_equal. rewrite <- (nl_each_str (fun i x => shape_xml x (N.of_nat (i + 10) mod (u32_max + 1))%N)) by (intros; apply shape_str).
    rewrite <- limages_str. destruct (s_table s) as [t|].
    + rewrite tstrs1, table_str. reflexivity.
    + change (tstrs []) with "". cbn [append]. destruct (bullets_of s) as [|b l]; [reflexivity|]. rewrite tstrs2, <- lbody_str, lbullets_str. now rewrite !sapp_assoc.
  - f_equal. rewrite ?sapp_nil_r. cbn [append]. destruct (bullets_of s) as [|b l]; [reflexivity|]. rewrite tstrs2, <- lbody_str, lbullets_str. reflexivity.
  - f_equal. rewrite ?sapp_nil_r. try match goal with |- _ = "" ++ ?x => change ("" ++ x) with x end. generalize (bullets_of s). intros l. fold (half l). destruct (Nat.ltb 0 (length l)); [|reflexivity].
    cbn [flat_map]. rewrite tstrs3, !lbullets_str. destruct (Nat.ltb (half l) (length l)).
    + rewrite lcol2_str. cbn [flat_map]. rewrite tstrs3. change (tstrs []) with "".
      rewrite sapp_nil_r. pose proof (lcol1_str (lparas (lcp s cu) (firstn (half l) l))) as E. rewrite <- (sapp_assoc (tstrs _) lay_end). rewrite <- sapp_assoc. rewrite E. now rewrite !sapp_assoc.
    + cbn [flat_map]. change (tstrs []) with "". rewrite ?sapp_nil_r. apply lcol1_str.
  - reflexivity.
  - now rewrite ?sapp_nil_r.
Qed.
