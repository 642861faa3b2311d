From Coq Require Import String Ascii List Bool Arith NArith ZArith Lia.
From Verif Require Import Str StrRefl Num EscapeModel EscapeProofs XmlSpec XmlProofs XmlTpl OpcSpec GenProofs TplRead XmlPath PathRead ColorModel DocPropsProofs TableModel TableSpec TableProofs ConnectorModel ConnectorSpec ConnectorProofs ChartModel ChartTpl ChartProofs ShapeModel SlideModel SlideSpec SlideInput ElemRead.
Import ListNotations.
Open Scope nat_scope.
Open Scope string_scope.

Ltac tstep :=
  lazymatch goal with
  | |- tok (TE _ _ _) => apply tok_TE; [vm_compute; reflexivity|first [assumption|aok]|]
  | |- tok (TS _ _) => split; [vm_compute; reflexivity|first [assumption|aok]]
  | |- tok (TT _) => cbn [tok]; pieces_ok
  | |- toks (_ ++ _)%list => apply toks_app_i
  | |- toks (_ :: _) => split
  | |- toks [] => exact I
  | |- tok ?x => assumption
  | |- toks ?x => assumption
  end.
Ltac twf := cbn [app]; repeat tstep.

(** ** Numbers *)
Lemma zdec_plain z : sforall plain_val (zdec z) = true.
Proof.
  assert (D : forall n, sforall plain_val (dec n) = true) by (intros n; apply dec_val).
  unfold zdec. destruct (z <? 0)%Z; [|apply D]. cbn [append sforall]. rewrite D. reflexivity.
Qed.

(** ** Hyperlinks *)
Definition hlinkA (h : hyperlink) (rid : string) : list (string * list piece) :=
  ((("r:id", [Lit rid]) :: match h_tooltip h with Some t => [("tooltip", [Esc t])] | None => [] end)
   ++ optA (h_highlight h) "highlightClick" "1"
   ++ match action_type (h_action h) with Some a => [("action", [Lit a])] | None => [] end)%list.
Definition hlinkT (h : hyperlink) (rid : string) : tpl := TS "a:hlinkClick" (hlinkA h rid).
Lemma hlink_str h rid : hyperlink_xml h rid = tstr (hlinkT h rid).
Proof.
  unfold hyperlink_xml, hlinkT, hlinkA, optA. cbn [tstr].
  destruct (h_tooltip h), (h_highlight h), (action_type (h_action h)); cbn [app]; tstr_eq.
Qed.
Lemma action_plain a t : action_type a = Some t -> sforall plain_val t = true.
Proof. destruct a; cbn [action_type]; intros E; inversion E; subst; vm_compute; reflexivity. Qed.
Lemma hlink_tok h rid : opt_ok attr_ok (h_tooltip h) = true -> sforall plain_val rid = true -> tok (hlinkT h rid).
Proof.
  intros A B. unfold hlinkT, hlinkA, optA. destruct (h_tooltip h) as [t|]; cbn [opt_ok] in A; destruct (h_highlight h);
  destruct (action_type (h_action h)) as [u|] eqn:E; try apply action_plain in E; cbn [app]; twf.
Qed.

(** ** Shapes *)
Definition alphaT (o : option N) : list tpl := match o with Some t => [TS "a:alpha" [("val", [Lit (dec t)])]] | None => [] end.
Lemma alpha_str o : alpha_xml o = tstrs (alphaT o).
Proof. destruct o; [|reflexivity]. unfold alpha_xml, alphaT. tstr_eq. Qed.
Definition fillT (o : option fill) : list tpl :=
  match o with Some f => ([TE "a:solidFill" [] [TT [Lit "
"]; TE "a:srgbClr" [("val", [Lit (fl_color f)])] (alphaT (fl_alpha f)); TT [Lit "
"]]]) | None => [] end.
Lemma fill_str o : fill_xml o = tstrs (fillT o).
Proof.
  destruct o as [f|]; [|reflexivity]. unfold fill_xml, fillT. rewrite alpha_str. unfold tstrs at 2. tblock. generalize (tstrs (alphaT (fl_alpha f))). intros x. tstr_eq.
Qed.
Definition stopT (s : stop) : tpl := (TE "a:gs" [("pos", [Lit (dec (st_pos s))])] [TT [Lit "
"]; TE "a:srgbClr" [("val", [Lit (st_color s)])] (alphaT (st_alpha s)); TT [Lit "
"]]).
Lemma stop_str s : stop_xml s = tstr (stopT s).
Proof. unfold stop_xml, stopT. rewrite alpha_str. tblock. generalize (tstrs (alphaT (st_alpha s))). intros x. tstr_eq. Qed.
Definition gradT (g : gradient) : tpl :=
  (TE "a:gradFill" [] [TT [Lit "
"]; TE "a:gsLst" [] ([TT [Lit "
"]] ++ (map stopT (stops g)) ++ [TT [Lit "
"]])%list; TT [Lit "
"]; TS "a:lin" [("ang", [Lit (dec (to_angle (g_dir g)))]); ("scaled", [Lit "1"])]; TT [Lit "
"]]).
Lemma grad_str g : gradient_xml g = tstr (gradT g).
Proof.
  unfold gradient_xml, gradT.
  replace (sconcat (map stop_xml (stops g))) with (tstrs (map stopT (stops g))).
  2:{ unfold tstrs. rewrite map_map. f_equal. apply map_ext. intros s. now rewrite stop_str. }
  tblock. generalize (tstrs (map stopT (stops g))). intros x. tstr_eq.
Qed.
Definition lineT (o : option line) : list tpl :=
  match o with Some l => ([TE "a:ln" [("w", [Lit (dec (ln_width l))])] [TT [Lit "
"]; TE "a:solidFill" [] [TT [Lit "
"]; TS "a:srgbClr" [("val", [Lit (ln_color l)])]; TT [Lit "
"]]; TT [Lit "
"]]]) | None => [] end.
Lemma line_str o : line_xml o = tstrs (lineT o).
Proof. destruct o as [l|]; [|reflexivity]. unfold line_xml, lineT. tstr_eq. Qed.
Definition anyfill (s : shape) : list tpl := match sh_gradient s with Some g => [gradT g] | None => fillT (sh_fill s) end.
Lemma anyfill_str s : match sh_gradient s with Some g => gradient_xml g | None => fill_xml (sh_fill s) end = tstrs (anyfill s).
Proof. unfold anyfill. destruct (sh_gradient s); [|apply fill_str]. rewrite grad_str. unfold tstrs. cbn [map sconcat fold_right]. now rewrite sapp_nil_r. Qed.

Definition codeLT (t : string) : tpl := (TE "a:p" [] [TT [Lit "
"]; TS "a:pPr" [("algn", [Lit "l"])]; TT [Lit "
"]; TE "a:r" [] [TT [Lit "
"]; TE "a:rPr" [("lang", [Lit "en-US"]); ("sz", [Lit "1200"]); ("dirty", [Lit "0"])] [TS "a:latin" [("typeface", [Lit "Consolas"])]; TE "a:solidFill" [] [TS "a:srgbClr" [("val", [Lit "FFFFFF"])]]]; TT [Lit "
"]; TE "a:t" [] [TT [Esc t]]; TT [Lit "
"]]; TT [Lit "
"]]).
Lemma codeL_str t : code_line_xml t = tstr (codeLT t).
Proof. unfold code_line_xml, codeLT. tstr_eq. Qed.
Definition codeTB (ls : list tpl) : tpl := (TE "p:txBody" [] ([TT [Lit "
"]; TS "a:bodyPr" [("wrap", [Lit "square"]); ("rtlCol", [Lit "0"]); ("anchor", [Lit "t"]); ("lIns", [Lit "91440"]); ("tIns", [Lit "45720"]); ("rIns", [Lit "91440"]); ("bIns", [Lit "45720"])]; TT [Lit "
"]; TS "a:lstStyle" []; TT [Lit "
"]] ++ (ls))%list).
Definition textTB (a b : string) (size : N) (color t : string) : tpl :=
  (TE "p:txBody" [] [TT [Lit "
"]; TE "a:bodyPr" [("wrap", [Lit "square"]); ("rtlCol", [Lit "0"]); ("anchor", [Lit a]); ("lIns", [Lit ("91440")]); ("tIns", [Lit ("45720")]); ("rIns", [Lit ("91440")]); ("bIns", [Lit ("45720")])] [TT [Lit "
"]; TS "a:normAutofit" []; TT [Lit "
"]]; TT [Lit "
"]; TS "a:lstStyle" []; TT [Lit "
"]; TE "a:p" [] [TT [Lit "
"]; TS "a:pPr" [("algn", [Lit b]); ("marL", [Lit "0"]); ("marR", [Lit "0"]); ("indent", [Lit "0"])]; TT [Lit "
"]; TE "a:r" [] [TT [Lit "
"]; TE "a:rPr" [("lang", [Lit "en-US"]); ("sz", [Lit (dec size)]); ("dirty", [Lit "0"])] [TE "a:solidFill" [] [TS "a:srgbClr" [("val", [Lit color])]]]; TT [Lit "
"]; TE "a:t" [] [TT [Esc t]]; TT [Lit "
"]]; TT [Lit "
"]]; TT [Lit "
"]]).
Definition emptyTB : tpl := (TE "p:txBody" [] [TT [Lit "
"]; TS "a:bodyPr" []; TT [Lit "
"]; TS "a:lstStyle" []; TT [Lit "
"]; TE "a:p" [] [TT [Lit "
"]; TS "a:endParaRPr" []; TT [Lit "
"]]; TT [Lit "
"]]).
Definition bodyT (s : shape) : tpl :=
  match sh_text s with
  | Some t => if is_code t then codeTB (map codeLT (lines t))
              else textTB (if contains nl t then "t" else "ctr") (if contains nl t then "l" else "ctr") (sh_autofit s) (text_color_of s) t
  | None => emptyTB
  end.
Lemma body_str s : text_xml s = tstr (bodyT s).
Proof.
  unfold text_xml, bodyT. destruct (sh_text s) as [t|]; [|unfold emptyTB; tstr_eq]. destruct (is_code t).
  - unfold codeTB. replace (sconcat (map code_line_xml (lines t))) with (tstrs (map codeLT (lines t))).
    2:{ unfold tstrs. rewrite map_map. f_equal. apply map_ext. intros u. now rewrite codeL_str. }
    tblock. generalize (tstrs (map codeLT (lines t))). intros x. tstr_eq.
  - cbv zeta. unfold textTB. destruct (contains nl t); tstr_eq.
Qed.
Definition nameA (id : N) : list (string * list piece) := [("id", [Lit (dec id)]); ("name", [Lit "Shape "; Lit (dec id)])].
Definition cnvT (s : shape) (id : N) : tpl :=
  match sh_link s with
  | Some h => match h_rid h with Some rid => TE "p:cNvPr" (nameA id) [hlinkT h rid] | None => TS "p:cNvPr" (nameA id) end
  | None => TS "p:cNvPr" (nameA id)
  end.
Lemma cnv_str s id : cnvpr_xml s id = tstr (cnvT s id).
Proof.
  unfold cnvpr_xml, cnvT, nameA. cbv zeta. destruct (sh_link s) as [h|]; [|tstr_eq]. destruct (h_rid h) as [rid|]; [|tstr_eq].
  rewrite hlink_str. cbn [tstr map]. generalize (tstr (hlinkT h rid)). intros x. tstr_eq.
Qed.
Definition rotA (o : option Z) : list (string * list piece) :=
  match o with Some r => [("rot", [Lit (zdec (i32 (r * 60000)))])] | None => [] end.
Definition shapeE (cnv : tpl) (rot : list (string * list piece)) (x y w h : N) (prst : string) (fl ln : list tpl) (body : tpl) : tpl :=
  (TE "p:sp" [] ([TT [Lit "
"]; TE "p:nvSpPr" [] ([TT [Lit "
"]] ++ ([cnv]) ++ [TT [Lit "
"]; TS "p:cNvSpPr" []; TT [Lit "
"]; TS "p:nvPr" []; TT [Lit "
"]])%list; TT [Lit "
"]; TE "p:spPr" [] ([TT [Lit "
"]; TE "a:xfrm" (rot) [TT [Lit "
"]; TS "a:off" [("x", [Lit (dec x)]); ("y", [Lit (dec y)])]; TT [Lit "
"]; TS "a:ext" [("cx", [Lit (dec w)]); ("cy", [Lit (dec h)])]; TT [Lit "
"]]; TT [Lit "
"]; TE "a:prstGeom" [("prst", [Lit prst])] [TT [Lit "
"]; TS "a:avLst" []; TT [Lit "
"]]; TT [Lit "
"]] ++ (fl) ++ (ln) ++ [TT [Lit "
"]])%list; TT [Lit "
"]] ++ ([body]) ++ [TT [Lit "
"]])%list).
Definition shapeT (s : shape) (id : N) : tpl :=
  shapeE (cnvT s id) (rotA (sh_rotation s)) (sh_x s) (sh_y s) (sh_w s) (sh_h s) (preset (sh_type s)) (anyfill s) (lineT (sh_line s)) (bodyT s).
Lemma shape_str s id : shape_xml s id = tstr (shapeT s id).
Proof.
  unfold shape_xml, shapeT. rewrite cnv_str, anyfill_str, line_str, body_str. cbv zeta.
  replace (match sh_rotation s with Some r => " rot=""" ++ zdec (i32 (r * 60000)) ++ """" | None => "" end) with (attrs_raw (rotA (sh_rotation s))).
  2:{ destruct (sh_rotation s); [|reflexivity]. unfold rotA, attrs_raw, araw, raws. cbn [map sconcat fold_right fst snd praw]. str_refl. }
  generalize (cnvT s id) (bodyT s) (anyfill s) (lineT (sh_line s)) (rotA (sh_rotation s)). intros a b c d e.
  unfold shapeE. tblock. generalize (tstr a) (tstr b) (tstrs c) (tstrs d) (attrs_raw e). intros x y z t u. tstr_eq.
Qed.

Lemma preset_plain t : sforall plain_val (preset t) = true.
Proof. destruct t; vm_compute; reflexivity. Qed.
Lemma alpha_toks o : toks (alphaT o).
Proof. destruct o; unfold alphaT; twf. Qed.
Lemma stop_tok s : stop_ok s = true -> tok (stopT s).
Proof. unfold stop_ok. intros H. pose proof (alpha_toks (st_alpha s)). unfold stopT. twf. Qed.
Lemma grad_tok g : forallb stop_ok (stops g) = true -> tok (gradT g).
Proof.
  intros H. assert (T : toks (map stopT (stops g))).
  { apply toks_map. intros s Hs. apply stop_tok. rewrite forallb_forall in H. now apply H. }
  unfold gradT. twf.
Qed.
Lemma code_lines_ok t : text_ok t = true -> Forall (fun l => text_ok l = true) (lines t).
Proof.
  intros H. assert (S : Forall (fun l => text_ok l = true) (split_char LF t)).
  { clear -H. induction t as [|c t IH]; [repeat constructor|]. cbn [text_ok] in H. rewrite !andb_true_iff in H. destruct H as [[A B] C]. specialize (IH C).
    cbn [split_char]. destruct (Ascii.eqb c LF); [constructor; [reflexivity|assumption]|].
    destruct (split_char LF t) as [|x l].
    - constructor; [|constructor]. cbn [text_ok s1]. rewrite A, B. reflexivity.
    - inversion IH as [|? ? Hx Hl]; subst. constructor; [|assumption]. cbn [text_ok]. rewrite A, B, Hx. reflexivity. }
  unfold lines. induction (split_char LF t) as [|x l IH]; [constructor|]. inversion S as [|? ? H0 H1]; subst. specialize (IH H1).
  cbn [chop_last]. destruct l as [|y l]; [destruct (String.eqb x ""); repeat constructor; assumption|]. constructor; [|assumption].
  assert (N : chop_cr x = x); [|now rewrite N].
  unfold chop_cr. destruct (srev x) as [|c r] eqn:E; [reflexivity|]. destruct (Ascii.eqb_spec c CR) as [->|]; [|reflexivity]. exfalso.
  assert (X : x = srev r ++ s1 CR) by (rewrite <- (srev_involutive x), E; apply srev_cons).
  rewrite X in H0. clear -H0. induction (srev r) as [|d u IH]; [discriminate|]. cbn [append text_ok] in H0. rewrite !andb_true_iff in H0. tauto.
Qed.
Lemma body_tok s : match sh_text s with Some t => text_ok t | None => true end = true -> tok (bodyT s).
Proof.
  unfold bodyT. destruct (sh_text s) as [t|]; intros H; [|unfold emptyTB; twf]. destruct (is_code t).
  - assert (C : toks (map codeLT (lines t))).
    { apply toks_map. intros l Hl. pose proof (code_lines_ok t H) as F. rewrite Forall_forall in F. specialize (F l Hl). unfold codeLT. twf. }
    unfold codeTB. twf.
  - assert (C : sforall plain_val (text_color_of s) = true) by (unfold text_color_of; destruct (sh_fill s), (sh_dark s); vm_compute; reflexivity).
    unfold textTB. destruct (contains nl t); twf.
Qed.
Lemma cnv_tok s id : match sh_link s with Some h => link_ok h | None => true end = true -> tok (cnvT s id).
Proof.
  unfold cnvT. destruct (sh_link s) as [h|]; [|intros _; unfold nameA; twf]. unfold link_ok. rewrite andb_true_iff. intros [A B].
  destruct (h_rid h) as [rid|]; [|unfold nameA; twf]. cbn [opt_ok] in B. pose proof (hlink_tok h rid A B). unfold nameA. twf.
Qed.
Lemma shape_tok s id : shape_ok s = true -> tok (shapeT s id).
Proof.
  unfold shape_ok. rewrite !andb_true_iff. intros [[[A B] C] D].
  pose proof (cnv_tok s id D) as T1. pose proof (body_tok s C) as T2. pose proof (preset_plain (sh_type s)) as P.
  assert (T3 : toks (anyfill s)).
  { unfold anyfill. destruct (sh_gradient s) as [g|]; [split; [now apply grad_tok|exact I]|]. destruct (sh_fill s) as [f|]; unfold fillT; [|exact I].
    pose proof (alpha_toks (fl_alpha f)). twf. }
  assert (T4 : toks (lineT (sh_line s))) by (unfold lineT; destruct (sh_line s); twf).
  assert (T5 : tattrs_ok (rotA (sh_rotation s)) = true).
  { unfold rotA. destruct (sh_rotation s) as [r|]; [|reflexivity]. pose proof (zdec_plain (i32 (r * 60000))). aok. }
  unfold shapeT, shapeE. twf.
Qed.

(** ** Images *)
Definition effectT (e : effect) : tpl :=
  match e with
  | Shadow => (TE "a:outerShdw" [("blurRad", [Lit "40000"]); ("dist", [Lit "20000"]); ("dir", [Lit "5400000"]); ("rotWithShape", [Lit "0"])] [TE "a:srgbClr" [("val", [Lit "000000"])] [TS "a:alpha" [("val", [Lit "40000"])]]])
  | Reflection => (TS "a:reflection" [("blurRad", [Lit "6350"]); ("stA", [Lit "50000"]); ("endA", [Lit "300"]); ("endPos", [Lit "35000"]); ("dir", [Lit "5400000"]); ("sy", [Lit "-100000"]); ("algn", [Lit "bl"]); ("rotWithShape", [Lit "0"])])
  | Glow => (TE "a:glow" [("rad", [Lit "50800"])] [TE "a:srgbClr" [("val", [Lit "FFD700"])] [TS "a:alpha" [("val", [Lit "60000"])]]])
  | SoftEdges => (TS "a:softEdge" [("rad", [Lit "50800"])])
  | InnerShadow => (TE "a:innerShdw" [("blurRad", [Lit "40000"]); ("dist", [Lit "20000"]); ("dir", [Lit "2700000"])] [TE "a:srgbClr" [("val", [Lit "000000"])] [TS "a:alpha" [("val", [Lit "50000"])]]])
  | Blur => (TS "a:blur" [("rad", [Lit "38100"])])
  end.
Definition effectsT (l : list effect) : list tpl := match l with [] => [] | _ => [TE "a:effectLst" [] (map effectT l)] end.
Lemma effect_str e : effect_xml e = tstr (effectT e).
Proof. destruct e; reflexivity. Qed.
Lemma effects_str l : effects_xml l = tstrs (effectsT l).
Proof.
  destruct l as [|e l]; [reflexivity|]. unfold effects_xml, effectsT.
  replace (sconcat (map effect_xml (e :: l))) with (tstrs (map effectT (e :: l))).
  2:{ unfold tstrs. rewrite map_map. f_equal. apply map_ext. intros u. now rewrite effect_str. }
  generalize (map effectT (e :: l)). intros k. unfold tstrs at 2. tblock. generalize (tstrs k). intros x. tstr_eq.
Qed.
Definition cropA (c : crop) : list (string * list piece) :=
  (optA (0 <? cr_l c)%N "l" (dec (cr_l c)) ++ optA (0 <? cr_t c)%N "t" (dec (cr_t c)) ++ optA (0 <? cr_r c)%N "r" (dec (cr_r c)) ++ optA (0 <? cr_b c)%N "b" (dec (cr_b c)))%list.
Definition blipT (rid : string) (o : option crop) : tpl :=
  match o with
  | Some c => (TE "p:blipFill" [] [TT [Lit "
"]; TS "a:blip" [("r:embed", [Lit rid])]; TT [Lit "
"]; TS "a:srcRect" (cropA c); TT [Lit "
"]; TE "a:stretch" [] [TT [Lit "
"]; TS "a:fillRect" []; TT [Lit "
"]]; TT [Lit "
"]])
  | None => (TE "p:blipFill" [] [TT [Lit "
"]; TS "a:blip" [("r:embed", [Lit rid])]; TT [Lit "
"]; TE "a:stretch" [] [TT [Lit "
"]; TS "a:fillRect" []; TT [Lit "
"]]; TT [Lit "
"]])
  end.
Lemma crop_raw c : attrs_raw (cropA c) = crop_attr "l" (cr_l c) ++ crop_attr "t" (cr_t c) ++ crop_attr "r" (cr_r c) ++ crop_attr "b" (cr_b c).
Proof.
  unfold cropA, optA, crop_attr. rewrite !attrs_app.
  destruct (0 <? cr_l c)%N, (0 <? cr_t c)%N, (0 <? cr_r c)%N, (0 <? cr_b c)%N; unfold attrs_raw, araw, raws; cbn [map sconcat fold_right fst snd praw]; str_refl.
Qed.
Lemma blip_str rid o : blip_fill_xml rid o = tstr (blipT rid o).
Proof.
  destruct o as [c|]; unfold blip_fill_xml, blipT; [|tstr_eq].
  assert (E := crop_raw c). cbn [tstr map]. rewrite E. generalize (crop_attr "l" (cr_l c)) (crop_attr "t" (cr_t c)) (crop_attr "r" (cr_r c)) (crop_attr "b" (cr_b c)).
  intros x y z t. tstr_eq.
Qed.
Definition descrA (o : option string) : list (string * list piece) := match o with Some a => [("descr", [Esc a])] | None => [] end.
Definition imageE (id : N) (name : string) (d : list (string * list piece)) (blip : tpl) (x y w h : N) (fx : list tpl) : tpl :=
  (TE "p:pic" [] ([TT [Lit "
"]; TE "p:nvPicPr" [] [TT [Lit "
"]; TS "p:cNvPr" ([("id", [Lit (dec id)]); ("name", [Esc name])] ++ d)%list; TT [Lit "
"]; TE "p:cNvPicPr" [] [TT [Lit "
"]; TS "a:picLocks" [("noChangeAspect", [Lit "1"])]; TT [Lit "
"]]; TT [Lit "
"]; TS "p:nvPr" []; TT [Lit "
"]]; TT [Lit "
"]] ++ ([blip]) ++ [TT [Lit "
"]; TE "p:spPr" [] ([TT [Lit "
"]; TE "a:xfrm" [] [TT [Lit "
"]; TS "a:off" [("x", [Lit (dec x)]); ("y", [Lit (dec y)])]; TT [Lit "
"]; TS "a:ext" [("cx", [Lit (dec w)]); ("cy", [Lit (dec h)])]; TT [Lit "
"]]; TT [Lit "
"]; TE "a:prstGeom" [("prst", [Lit "rect"])] [TT [Lit "
"]; TS "a:avLst" []; TT [Lit "
"]]; TT [Lit "
"]] ++ (fx) ++ [TT [Lit "
"]])%list; TT [Lit "
"]])%list).
Definition imageT (i : image) (id rid : N) : tpl :=
  imageE id (im_name i) (descrA (im_alt i)) (blipT ("rId" ++ dec rid) (im_crop i)) (im_x i) (im_y i) (im_w i) (im_h i) (effectsT (im_effects i)).
Lemma image_str i id rid : image_xml i id rid = tstr (imageT i id rid).
Proof.
  unfold image_xml, imageT. rewrite blip_str, effects_str.
  replace (descr_attr (im_alt i)) with (attrs_raw (descrA (im_alt i))).
  2:{ destruct (im_alt i); [|reflexivity]. unfold descrA, descr_attr, attrs_raw, araw, raws. cbn [map sconcat fold_right fst snd praw]. str_refl. }
  generalize (blipT ("rId" ++ dec rid) (im_crop i)) (effectsT (im_effects i)) (descrA (im_alt i)). intros a b c.
  unfold imageE. tblock. change (attrs_raw (("id", [Lit (dec id)]) :: ("name", [Esc (im_name i)]) :: c)) with (attrs_raw ([("id", [Lit (dec id)]); ("name", [Esc (im_name i)])] ++ c)%list).
  rewrite attrs_app. generalize (tstr a) (tstrs b) (attrs_raw c). intros x y z. tstr_eq.
Qed.
Lemma effects_toks l : toks (effectsT l).
Proof.
  destruct l as [|e l]; [exact I|]. unfold effectsT. assert (T : toks (map effectT (e :: l))).
  { apply toks_map. intros u _. destruct u; unfold effectT; twf. }
  twf.
Qed.
Lemma rid_plain n : sforall plain_val ("rId" ++ dec n) = true.
Proof. cbn [append sforall]. rewrite dec_val. reflexivity. Qed.
Lemma image_tok i id rid : image_ok i = true -> tok (imageT i id rid).
Proof.
  unfold image_ok. rewrite andb_true_iff. intros [A B]. pose proof (effects_toks (im_effects i)). pose proof (rid_plain rid).
  assert (T : tok (blipT ("rId" ++ dec rid) (im_crop i))).
  { generalize dependent ("rId" ++ dec rid). intros r Hr. unfold blipT. destruct (im_crop i) as [c|]; [|twf].
    assert (C : tattrs_ok (cropA c) = true) by (unfold cropA, optA; destruct (0 <? cr_l c)%N, (0 <? cr_t c)%N, (0 <? cr_r c)%N, (0 <? cr_b c)%N; cbn [app]; aok).
    twf. }
  unfold imageT, imageE, descrA. destruct (im_alt i) as [a|]; cbn [opt_ok] in B; twf.
Qed.

(** ** Code blocks: escape_code leaves quotes alone *)
Definition codeP (c : ascii) : piece := if Ascii.eqb c DQ || Ascii.eqb c SQ then Lit (s1 c) else Esc (s1 c).
Fixpoint codePs (s : string) : list piece := match s with "" => [] | String c s => codeP c :: codePs s end.
Lemma codePs_raw s : raws (codePs s) = escape_code s.
Proof.
  induction s as [|c s IH]; [reflexivity|]. unfold raws in *. cbn [codePs map]. rewrite sconcat_cons, IH. clear IH.
  assert (E : escape_code (String c s) = escape_code (s1 c) ++ escape_code s).
  { unfold escape_code, replace_char. change (String c s) with (s1 c ++ s). rewrite !smap_app. reflexivity. }
  rewrite E. f_equal. destruct c as [[] [] [] [] [] [] [] []]; vm_compute; reflexivity.
Qed.
Lemma codePs_val s : vals (codePs s) = s.
Proof.
  induction s as [|c s IH]; [reflexivity|]. unfold vals in *. cbn [codePs map]. rewrite sconcat_cons, IH. unfold codeP.
  destruct (Ascii.eqb c DQ || Ascii.eqb c SQ); reflexivity.
Qed.
Lemma codePs_ok s : text_ok s = true -> forallb pt_ok (codePs s) = true.
Proof.
  induction s as [|c s IH]; [reflexivity|]. cbn [text_ok codePs forallb]. rewrite !andb_true_iff. intros [[A B] C]. split; [|now apply IH].
  unfold codeP. destruct (Ascii.eqb c DQ || Ascii.eqb c SQ) eqn:E; cbn [pt_ok s1 text_ok]; [|now rewrite A, B].
  rewrite orb_true_iff, !Ascii.eqb_eq in E. destruct E as [->| ->]; reflexivity.
Qed.
Definition codeE (id : N) (x y w h : string) (t : list piece) : tpl :=
  (TE "p:sp" [] [TT [Lit "
"]; TE "p:nvSpPr" [] [TT [Lit "
"]; TS "p:cNvPr" [("id", [Lit (dec id)]); ("name", [Lit "Code Block"])]; TT [Lit "
"]; TS "p:cNvSpPr" [("txBox", [Lit "1"])]; TT [Lit "
"]; TS "p:nvPr" []; TT [Lit "
"]]; TT [Lit "
"]; TE "p:spPr" [] [TT [Lit "
"]; TE "a:xfrm" [] [TT [Lit "
"]; TS "a:off" [("x", [Lit x]); ("y", [Lit y])]; TT [Lit "
"]; TS "a:ext" [("cx", [Lit w]); ("cy", [Lit h])]; TT [Lit "
"]]; TT [Lit "
"]; TE "a:prstGeom" [("prst", [Lit "rect"])] [TS "a:avLst" []]; TT [Lit "
"]; TE "a:solidFill" [] [TS "a:srgbClr" [("val", [Lit "002B36"])]]; TT [Lit "
"]; TE "a:ln" [("w", [Lit "12700"])] [TE "a:solidFill" [] [TS "a:srgbClr" [("val", [Lit "073642"])]]]; TT [Lit "
"]]; TT [Lit "
"]; TE "p:txBody" [] ([TT [Lit "
"]; TS "a:bodyPr" [("wrap", [Lit "square"]); ("rtlCol", [Lit "0"]); ("anchor", [Lit "t"]); ("lIns", [Lit "91440"]); ("tIns", [Lit "45720"]); ("rIns", [Lit "91440"]); ("bIns", [Lit "45720"])]; TT [Lit "
"]; TS "a:lstStyle" []; TT [Lit "
"]] ++ ([TE "a:t" [] [TT t]]))%list; TT [Lit "
"]]).
Definition codeT (c : code_block) (id : N) : tpl := codeE id (zdec (cb_x c)) (zdec (cb_y c)) (zdec (cb_w c)) (zdec (cb_h c)) (codePs (cb_code c)).
Lemma code_str c id : code_xml c id = tstr (codeT c id).
Proof.
  unfold code_xml, codeT. rewrite <- codePs_raw. generalize (zdec (cb_x c)) (zdec (cb_y c)) (zdec (cb_w c)) (zdec (cb_h c)) (codePs (cb_code c)).
  intros x y w h p. unfold codeE. tblock. generalize (raws p). intros r. tstr_eq.
Qed.
Lemma code_tok c id : text_ok (cb_code c) = true -> tok (codeT c id).
Proof.
  intros H. pose proof (codePs_ok _ H). pose proof (zdec_plain (cb_x c)). pose proof (zdec_plain (cb_y c)). pose proof (zdec_plain (cb_w c)). pose proof (zdec_plain (cb_h c)).
  assert (T : tok (TT (codePs (cb_code c)))) by assumption.
  unfold codeT, codeE. twf.
Qed.

(** ** Charts on the slide *)
Definition chartE (c : chart) (id : N) (rid : string) : tpl :=
  (TE "p:graphicFrame" [] [TT [Lit "
"]; TE "p:nvGraphicFramePr" [] [TT [Lit "
"]; TS "p:cNvPr" [("id", [Lit (dec id)]); ("name", [Lit "Chart "; Lit (dec id)])]; TT [Lit "
"]; TS "p:cNvGraphicFramePr" []; TT [Lit "
"]; TS "p:nvPr" []; TT [Lit "
"]]; TT [Lit "
"]; TE "p:xfrm" [] [TT [Lit "
"]; TS "a:off" [("x", [Lit (dec (cx0 c))]); ("y", [Lit (dec (cy0 c))])]; TT [Lit "
"]; TS "a:ext" [("cx", [Lit (dec (cw c))]); ("cy", [Lit (dec (ch c))])]; TT [Lit "
"]]; TT [Lit "
"]; TE "a:graphic" [] [TT [Lit "
"]; TE "a:graphicData" [("uri", [Lit "http://schemas.openxmlformats.org/drawingml/2006/chart"])] [TT [Lit "
"]; TS "c:chart" [("xmlns:c", [Lit "http://schemas.openxmlformats.org/drawingml/2006/chart"]); ("xmlns:r", [Lit "http://schemas.openxmlformats.org/officeDocument/2006/relationships"]); ("r:id", [Lit rid])]; TT [Lit "
"]]; TT [Lit "
"]]; TT [Lit "
"]]).
Lemma chart_ref_str c rid id : chart_ref_xml c rid id = tstr (chartE c id rid).
Proof. unfold chart_ref_xml, chartE. tstr_eq. Qed.
Lemma chart_ref_tok c id rid : sforall plain_val rid = true -> tok (chartE c id rid).
Proof. intros H. unfold chartE. twf. Qed.
