From Coq Require Import String Ascii List Bool Arith NArith ZArith Lia FinFun.
From Verif Require Import Str StrRefl Num EscapeModel EscapeProofs XmlSpec XmlProofs XmlTpl OpcSpec GenProofs TplRead XmlPath PathRead ColorModel DocPropsProofs TableModel TableSpec TableProofs ConnectorModel ConnectorSpec ConnectorProofs ChartModel ChartTpl ChartProofs ShapeModel SlideModel SlideSpec LookSpec SlideInput ElemRead ShapeProofs SlideProofs SlideRead.
Import ListNotations.
Open Scope nat_scope.
Open Scope string_scope.

(** ** The items of the slide tree *)
Lemma nls_filter m l : filter (called m) (nls l) = filter (called m) l.
Proof. induction l as [|t l IH]; [reflexivity|]. cbn [nls flat_map app filter]. fold (nls l). rewrite IH. reflexivity. Qed.
Lemma nls_elem l : forallb elemT (nls l) = forallb elemT l.
Proof. induction l as [|t l IH]; [reflexivity|]. cbn [nls flat_map app forallb]. fold (nls l). rewrite IH. reflexivity. Qed.
Lemma trans_elem t : forallb elemT (transT t) = true /\ filter (called "p:cSld") (transT t) = [].
Proof. destruct t; split; reflexivity. Qed.
Lemma tree_read m its t : forallb elemT its = true -> m <> "p:nvGrpSpPr" -> m <> "p:grpSpPr" ->
  at_path ["p:cSld"; "p:spTree"; m] (tnode (rootE (nls its) (transT t))) = map tnode (filter (called m) its).
Proof.
  intros H N1 N2. destruct (trans_elem t) as [E F]. unfold rootE.
  rewrite path_list.
  2:{ cbn [tbody]. rewrite forallb_app, E. reflexivity. }
  cbn [tbody]. rewrite filter_app, F. cbn [filter called tname String.eqb Ascii.eqb Bool.eqb map flat_map app]. rewrite app_nil_r.
  rewrite path_list by reflexivity. cbn [tbody filter called tname String.eqb Ascii.eqb Bool.eqb map flat_map app]. rewrite app_nil_r.
  rewrite path_list.
  2:{ cbn [tbody app forallb elemT andb]. rewrite !forallb_app, nls_elem, H. reflexivity. }
  cbn [tbody].
  assert (C : forall n b, n <> m -> called m (TE n [] b) = false).
  { intros n b D. unfold called. cbn [tname]. now apply String.eqb_neq. }
  cbn [filter app]. rewrite !C by congruence. cbn [called tname app]. rewrite !filter_app, nls_filter. cbn [filter called tname]. rewrite app_nil_r. apply flat_map_self.
Qed.
Lemma each_name {A} m n (f : nat -> A -> tpl) l : (forall k x, tname (f k x) = Some n) -> forall k,
  filter (called m) (eachT f k l) = if String.eqb n m then eachT f k l else [].
Proof.
  intros H. induction l as [|x l IH]; intros k; [now destruct (String.eqb n m)|]. cbn [eachT filter]. unfold called at 1. rewrite H, IH. now destruct (String.eqb n m).
Qed.
Lemma each_elem' {A} n (f : nat -> A -> tpl) l : (forall k x, tname (f k x) = Some n) -> (forall k x, elemT (f k x) = true) -> forall k, forallb elemT (eachT f k l) = true.
Proof. intros _ H. now apply each_elem. Qed.
Lemma items_elem s rids ink : forallb elemT (items s rids ink) = true.
Proof.
  unfold items, extras. rewrite !forallb_app. repeat (apply andb_true_intro; split).
  - unfold titles. destruct (s_layout s); reflexivity.
  - unfold bodies. destruct (s_layout s); try reflexivity.
    + destruct (s_table s); [reflexivity|]. destruct (bullets_of s); reflexivity.
    + destruct (bullets_of s); reflexivity.
    + cbv zeta. destruct (Nat.ltb 0 _); [|reflexivity]. cbn [forallb]. destruct (Nat.ltb _ _); reflexivity.
  - apply each_elem. reflexivity.
  - apply each_elem. reflexivity.
  - apply each_elem. reflexivity.
  - apply each_elem. reflexivity.
  - apply each_elem. reflexivity.
  - unfold inkI. destruct ink; [|reflexivity]. destruct (s_ink s); reflexivity.
Qed.
(** The boxes of text of the layout, and its frames. *)
Definition boxes (s : slide) : list tpl := filter (called "p:sp") (bodies s).
Definition tframes (s : slide) : list tpl := filter (called "p:graphicFrame") (bodies s).
Lemma titles_sp s : filter (called "p:sp") (titles s) = titles s /\ filter (called "p:graphicFrame") (titles s) = []
  /\ filter (called "p:pic") (titles s) = [] /\ filter (called "p:cxnSp") (titles s) = [].
Proof. unfold titles. destruct (s_layout s); repeat split; reflexivity. Qed.
Lemma bodies_other s : filter (called "p:pic") (bodies s) = [] /\ filter (called "p:cxnSp") (bodies s) = [].
Proof.
  unfold bodies. destruct (s_layout s); split; try reflexivity; cbv zeta.
  1,2: destruct (s_table s); [reflexivity|]; destruct (bullets_of s); reflexivity.
  1,2: destruct (bullets_of s); reflexivity.
  all: destruct (Nat.ltb 0 _); [|reflexivity]; destruct (Nat.ltb _ _); reflexivity.
Qed.
Lemma items_named s rids ink m :
  filter (called m) (items s rids ink) =
  (filter (called m) (titles s) ++ filter (called m) (bodies s)
   ++ (if String.eqb "p:sp" m then shapesI s else []) ++ (if String.eqb "p:pic" m then imagesI s else [])
   ++ (if String.eqb "p:sp" m then codesI s else []) ++ (if String.eqb "p:cxnSp" m then connsI s else [])
   ++ (if String.eqb "p:graphicFrame" m then chartsI s rids else []) ++ filter (called m) (inkI s ink))%list.
Proof.
  unfold items, extras. rewrite !filter_app. unfold shapesI, imagesI, codesI, connsI, chartsI.
  rewrite (each_name m "p:sp") by reflexivity. rewrite (each_name m "p:pic") by reflexivity. rewrite (each_name m "p:sp") by reflexivity.
  rewrite (each_name m "p:cxnSp") by reflexivity. rewrite (each_name m "p:graphicFrame") by reflexivity. reflexivity.
Qed.
Lemma ink_none s ink m : String.eqb "mc:AlternateContent" m = false -> filter (called m) (inkI s ink) = [].
Proof. intros H. unfold inkI. destruct ink as [r|]; [|reflexivity]. destruct (s_ink s); [|reflexivity]. cbn [filter]. unfold called, inkE. cbn [tname]. now rewrite H. Qed.

Section READ.
  Context (s : slide) (rids : list string) (ink : option string).
  Let x := tnode (slideT s rids ink).
  Lemma shapes_read : slide_shapes x = (map tnode (titles s) ++ map tnode (boxes s) ++ map tnode (shapesI s) ++ map tnode (codesI s))%list.
  Proof.
    unfold slide_shapes, x, slideT. rewrite tree_read by (apply items_elem || discriminate). rewrite items_named.
    destruct (titles_sp s) as (-> & _). fold (boxes s). rewrite ink_none by reflexivity. cbn [String.eqb Ascii.eqb Bool.eqb app]. now rewrite app_nil_r, !map_app.
  Qed.
  Lemma pics_read : slide_pictures x = map tnode (imagesI s).
  Proof.
    unfold slide_pictures, x, slideT. rewrite tree_read by (apply items_elem || discriminate). rewrite items_named.
    destruct (titles_sp s) as (_ & _ & -> & _). destruct (bodies_other s) as [-> _]. rewrite ink_none by reflexivity. cbn [String.eqb Ascii.eqb Bool.eqb app]. now rewrite app_nil_r.
  Qed.
  Lemma conns_read : slide_connectors x = map tnode (connsI s).
  Proof.
    unfold slide_connectors, x, slideT. rewrite tree_read by (apply items_elem || discriminate). rewrite items_named.
    destruct (titles_sp s) as (_ & _ & _ & ->). destruct (bodies_other s) as [_ ->]. rewrite ink_none by reflexivity. cbn [String.eqb Ascii.eqb Bool.eqb app]. now rewrite app_nil_r.
  Qed.
  Lemma frames_read : slide_frames x = (map tnode (tframes s) ++ map tnode (chartsI s rids))%list.
  Proof.
    unfold slide_frames, x, slideT. rewrite tree_read by (apply items_elem || discriminate). rewrite items_named.
    destruct (titles_sp s) as (_ & -> & _). fold (tframes s). rewrite ink_none by reflexivity. cbn [String.eqb Ascii.eqb Bool.eqb app]. now rewrite app_nil_r, map_app.
  Qed.
End READ.

(** ** Names *)
Definition has_name (n : string) (t : tpl) : bool := match shape_name (tnode t) with [m] => String.eqb m n | _ => false end.
Lemma title_name a b c d e f g : shape_name (tnode (titleE a b c d e f g)) = ["Title"].
Proof. unfold shape_name, titleE. pread. reflexivity. Qed.
Lemma box_name id n a b c d ps : shape_name (tnode (boxE id n a b c d ps)) = [n].
Proof. unfold shape_name, boxE. pread. cbn. now rewrite sapp_nil_r. Qed.
Lemma body_form t : exists b, bodyT t = TE "p:txBody" [] b.
Proof. unfold bodyT. destruct (sh_text t) as [u|]; [|eexists; reflexivity]. destruct (is_code u); eexists; reflexivity. Qed.
Lemma shape_named t id : shape_name (tnode (shapeT t id)) = ["Shape " ++ dec id].
Proof.
  unfold shape_name, shapeT, shapeE. destruct (body_form t) as [bd ->]. pstep. unfold cnvT, nameA.
  destruct (sh_link t) as [h|]; [destruct (h_rid h)|]; pread; cbn; now rewrite sapp_nil_r.
Qed.
Lemma code_named c id : shape_name (tnode (codeT c id)) = ["Code Block"].
Proof. unfold shape_name, codeT, codeE. pread. reflexivity. Qed.
Lemma each_no_name {A} n (f : nat -> A -> tpl) l : (forall k x, has_name n (f k x) = false) -> forall k, filter (has_name n) (eachT f k l) = [].
Proof. intros H. induction l as [|x l IH]; intros k; [reflexivity|]. cbn [eachT filter]. now rewrite H, IH. Qed.
Lemma filter_tnode n l : filter (fun s => match shape_name s with [m] => String.eqb m n | _ => false end) (map tnode l) = map tnode (filter (has_name n) l).
Proof. induction l as [|t l IH]; [reflexivity|]. cbn [map filter]. rewrite IH. change (match shape_name (tnode t) with [m] => String.eqb m n | _ => false end) with (has_name n t). now destruct (has_name n t). Qed.
Lemma named_shapes s rids ink n : starts_with "Shape " n = false -> n <> "Code Block" ->
  shapes_named n (tnode (slideT s rids ink)) = map tnode (filter (has_name n) (titles s ++ boxes s)).
Proof.
  intros H D. unfold shapes_named. rewrite shapes_read. rewrite <- !map_app, filter_tnode. f_equal. rewrite !app_assoc, filter_app.
  unfold codesI. rewrite (each_no_name n). 
  - rewrite app_nil_r. rewrite (filter_app _ (titles s ++ boxes s) (shapesI s)). unfold shapesI. rewrite (each_no_name n); [now rewrite app_nil_r|].
    intros k t. unfold has_name. rewrite shape_named. destruct (String.eqb_spec ("Shape " ++ dec (shape_id_of k t)) n) as [E|E]; [|reflexivity].
    rewrite <- E in H. discriminate H.
  - intros k t. unfold has_name. rewrite code_named. apply String.eqb_neq. congruence.
Qed.

(** ** Texts *)
Lemma title_text a b c d e f g : (exists at_ k, f = TE "a:rPr" at_ k) -> shape_paragraphs (tnode (titleE a b c d e f g)) = [g].
Proof.
  intros (at_ & k & ->). unfold shape_paragraphs, titleE. do 2 pstep. rewrite path_end. cbn [map]. unfold run_texts. do 2 pstep. rewrite path_end. cbn [map].
  rewrite text_leaf. cbn [vals map sconcat fold_right pval]. now rewrite !sapp_nil_r.
Qed.
Definition mark_of (st : bullet_style) : list string * list string * nat :=
  match st with
  | Bullet => (["•"], [], 0) | Custom ch => ([ch], [], 0) | NoBullet => ([], [], 1)
  | Number => ([], ["arabicPeriod"], 0) | LetterLower => ([], ["alphaLcPeriod"], 0) | LetterUpper => ([], ["alphaUcPeriod"], 0)
  | RomanLower => ([], ["romanLcPeriod"], 0) | RomanUpper => ([], ["romanUcPeriod"], 0)
  end.
Definition view_of (p : props) (b : bullet) :=
  ([dec (b_level b)], b_text b, [(dec (p_size p), onezero (p_bold p), onezero (p_italic p))],
   [(if p_underline p then Some "sng" else None, if p_strike p then Some "sngStrike" else None,
     if p_sub p then Some "-25000" else if p_super p then Some "30000" else None)],
   (mark_of (b_style b), [(opt_list (option_map clean (p_color p)), opt_list (option_map clean (p_highlight p)), opt_list (p_font p))])).
Lemma bu_name st : called "a:rPr" (buT st) = false /\ elemT (buT st) = true.
Proof. destruct st; split; reflexivity. Qed.
Lemma para_read d b : para_view (tnode (paraT d b)) = view_of (merged d (b_format b)) b.
Proof.
  unfold paraT. set (p := merged d (b_format b)). clearbody p. unfold para_view, view_of, run_texts, paraE.
  f_equal; [f_equal; [f_equal; [f_equal|]|]|f_equal].
  - pread. cbn. now rewrite sapp_nil_r.
  - unfold propsT. pread. cbn [map]. rewrite text_leaf. cbn [vals map sconcat fold_right pval]. now rewrite !sapp_nil_r.
  - unfold propsT. pread. unfold propsA. cbn [map tnode attr attr_opt attrs_val app find fst snd String.eqb Ascii.eqb Bool.eqb]. cbn. now rewrite !sapp_nil_r.
  - unfold propsT. pread. unfold propsA, optA, baseA. destruct (p_underline p), (p_strike p), (p_sub p), (p_super p); reflexivity.
  - unfold para_mark. destruct (b_style b); unfold buT; pread; cbn; rewrite ?sapp_nil_r; reflexivity.
  - unfold propsT. pread. unfold run_colors, fills, faces. cbn [map].
    generalize (propsA p). intros A. destruct (p_color p) as [c|], (p_highlight p) as [h|], (p_font p) as [f|]; unfold ocolT, hiT, fontT, colorT; cbn [app option_map opt_list]; pread; cbn; rewrite ?sapp_nil_r; reflexivity.
Qed.
Lemma paras_read id n a b c d pr l : shape_bullets (tnode (boxE id n a b c d (parasT pr l))) = map (fun b => view_of (merged pr (b_format b)) b) l.
Proof.
  unfold shape_bullets, boxE. pstep. rewrite path_list.
  2:{ cbn [tbody app forallb elemT andb]. rewrite !forallb_app. unfold parasT. rewrite nls_elem. replace (forallb elemT (map (paraT pr) l)) with true; [reflexivity|].
      symmetry. apply forallb_forall. intros t Ht. apply in_map_iff in Ht. destruct Ht as (b0 & <- & _). reflexivity. }
  cbn [tbody filter called tname String.eqb Ascii.eqb Bool.eqb app]. rewrite !filter_app. unfold parasT. rewrite nls_filter. cbn [filter called tname String.eqb Ascii.eqb Bool.eqb app]. rewrite app_nil_r.
  replace (filter (called "a:p") (map (paraT pr) l)) with (map (paraT pr) l).
  2:{ symmetry. clear. induction l as [|x l IH]; [reflexivity|]. cbn [map filter]. rewrite IH. reflexivity. }
  rewrite map_map. induction l as [|x l IH]; [reflexivity|]. cbn [map flat_map]. rewrite path_end. cbn [map app]. rewrite para_read. f_equal. exact IH.
Qed.
