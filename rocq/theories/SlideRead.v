From Coq Require Import String Ascii List Bool Arith NArith ZArith Lia FinFun.
From Verif Require Import Str StrRefl Num EscapeModel EscapeProofs XmlSpec XmlProofs XmlTpl OpcSpec GenProofs TplRead XmlPath PathRead ColorModel DocPropsProofs TableModel TableSpec TableProofs ConnectorModel ConnectorSpec ConnectorProofs ChartModel ChartTpl ChartProofs ShapeModel SlideModel SlideSpec SlideInput ElemRead ShapeProofs SlideProofs.
Import ListNotations.
Open Scope nat_scope.
Open Scope string_scope.

Definition transT (t : transition) : list tpl :=
  match t with
  | NoTransition => [] | Cut => []
  | Fade => ([TE "p:transition" [] [TS "p:fade" []]])
  | Push => ([TE "p:transition" [] [TS "p:push" [("dir", [Lit "r"])]]])
  | Wipe => ([TE "p:transition" [] [TS "p:wipe" [("dir", [Lit "r"])]]])
  | Split => ([TE "p:transition" [] [TS "p:split" [("dir", [Lit "out"]); ("orient", [Lit "horz"])]]])
  | Reveal => ([TE "p:transition" [] [TS "p:reveal" [("dir", [Lit "r"])]]])
  | Cover => ([TE "p:transition" [] [TS "p:cover" [("dir", [Lit "r"])]]])
  | Zoom => ([TE "p:transition" [] [TS "p:zoom" [("dir", [Lit "in"])]]])
  end.
Lemma trans_str t : transition_xml t = tstrs (transT t).
Proof. destruct t; reflexivity. Qed.
Lemma trans_toks t : toks (transT t).
Proof. destruct t; unfold transT; twf. Qed.
Definition rootE (its tr : list tpl) : tpl :=
  (TE "p:sld" [("xmlns:a", [Lit "http://schemas.openxmlformats.org/drawingml/2006/main"]); ("xmlns:r", [Lit "http://schemas.openxmlformats.org/officeDocument/2006/relationships"]); ("xmlns:p", [Lit "http://schemas.openxmlformats.org/presentationml/2006/main"])] ([TT [Lit "
"]; TE "p:cSld" [] [TT [Lit "
"]; TE "p:bg" [] [TT [Lit "
"]; TE "p:bgRef" [("idx", [Lit "1001"])] [TT [Lit "
"]; TS "a:schemeClr" [("val", [Lit "bg1"])]; TT [Lit "
"]]; TT [Lit "
"]]; TT [Lit "
"]; TE "p:spTree" [] ([TT [Lit "
"]; TE "p:nvGrpSpPr" [] [TT [Lit "
"]; TS "p:cNvPr" [("id", [Lit "1"]); ("name", [])]; TT [Lit "
"]; TS "p:cNvGrpSpPr" []; TT [Lit "
"]; TS "p:nvPr" []; TT [Lit "
"]]; TT [Lit "
"]; TE "p:grpSpPr" [] [TT [Lit "
"]; TE "a:xfrm" [] [TT [Lit "
"]; TS "a:off" [("x", [Lit "0"]); ("y", [Lit "0"])]; TT [Lit "
"]; TS "a:ext" [("cx", [Lit "9144000"]); ("cy", [Lit "6858000"])]; TT [Lit "
"]; TS "a:chOff" [("x", [Lit "0"]); ("y", [Lit "0"])]; TT [Lit "
"]; TS "a:chExt" [("cx", [Lit "9144000"]); ("cy", [Lit "6858000"])]; TT [Lit "
"]]; TT [Lit "
"]]] ++ (its) ++ [TT [Lit "
"]])%list; TT [Lit "
"]]; TT [Lit "
"]; TE "p:clrMapOvr" [] [TT [Lit "
"]; TS "a:masterClrMapping" []; TT [Lit "
"]]; TT [Lit "
"]] ++ (tr))%list).
Definition DECL : string := "<?xml version=""1.0"" encoding=""UTF-8"" standalone=""yes""?>".
Lemma root_str its tr : DECL ++ nl ++ tstr (rootE its tr) =
  SLIDE_HEADER ++ tstrs its ++ "
</p:spTree>
</p:cSld>
<p:clrMapOvr>
<a:masterClrMapping/>
</p:clrMapOvr>
" ++ tstrs tr ++ "</p:sld>".
Proof. unfold rootE, DECL, SLIDE_HEADER. tblock. generalize (tstrs its), (tstrs tr). intros x y. tstr_eq. Qed.
Lemma rsplit_end a : rsplit "</p:sld>" (a ++ "</p:sld>") = Some (a, "</p:sld>").
Proof. induction a as [|c a IH]; [vm_compute; reflexivity|]. cbn [append rsplit]. now rewrite IH. Qed.
Lemma slide_str s rids ink : slide_xml s rids ink = DECL ++ nl ++ tstr (rootE (nls (items s rids ink)) (transT (s_transition s))).
Proof.
  unfold slide_xml. fold (layout_xml s rids ink). rewrite layout_str, root_str, trans_str. cbv zeta.
  generalize (tstrs (nls (items s rids ink))). intros u. generalize (tstrs (transT (s_transition s))). intros v.
  destruct (String.eqb_spec v "") as [->|Hv].
  - unfold SLIDE_HEADER, SLIDE_FOOTER. str_refl.
  - replace (SLIDE_HEADER ++ u ++ SLIDE_FOOTER) with ((SLIDE_HEADER ++ u ++ "
</p:spTree>
</p:cSld>
<p:clrMapOvr>
<a:masterClrMapping/>
</p:clrMapOvr>
") ++ "</p:sld>") by (unfold SLIDE_HEADER, SLIDE_FOOTER; str_refl).
    rewrite rsplit_end. rewrite !sapp_assoc. reflexivity.
Qed.

(** ** Well-formedness *)
Lemma clean_color s : color_ok s = true -> color_ok (clean s) = true.
Proof.
  unfold color_ok, clean. intros H.
  assert (T : sforall (fun c => match hex_val c with Some _ => true | None => Ascii.eqb c "#"%char end) (trim_start_by is_hash s) = true).
  { induction s as [|c s IH]; [reflexivity|]. cbn [sforall] in H. apply andb_true_iff in H. destruct H as [A B]. cbn [trim_start_by].
    destruct (is_hash c); [now apply IH|]. cbn [sforall]. now rewrite A, B. }
  induction (trim_start_by is_hash s) as [|c t IH]; [reflexivity|]. cbn [sforall] in T. apply andb_true_iff in T. destruct T as [A B].
  specialize (IH B). clear -A IH.
  destruct c as [[] [] [] [] [] [] [] []]; try discriminate A; exact IH.
Qed.
Lemma ocol_toks o : opt_ok color_ok o = true -> toks (ocolT o).
Proof. destruct o as [c|]; cbn [opt_ok ocolT]; intros H; [|exact I]. split; [now apply colorT_tok|exact I]. Qed.
Lemma props_tok p : opt_ok color_ok (p_color p) = true -> opt_ok color_ok (p_highlight p) = true -> opt_ok (sforall plain_val) (p_font p) = true -> tok (propsT p).
Proof.
  intros A B C. pose proof (ocol_toks _ A) as T1.
  assert (T2 : toks (hiT (p_highlight p))) by (unfold hiT; destruct (p_highlight p) as [c|]; cbn [opt_ok] in B; [apply clean_plain in B; twf|exact I]).
  assert (T3 : toks (fontT (p_font p))) by (unfold fontT; destruct (p_font p) as [c|]; cbn [opt_ok] in C; [twf|exact I]).
  assert (T4 : tattrs_ok (propsA p) = true) by (unfold propsA, baseA, optA, onezero; destruct (p_bold p), (p_italic p), (p_underline p), (p_strike p), (p_sub p), (p_super p); cbn [app]; aok).
  unfold propsT. apply tok_TE; [vm_compute; reflexivity|exact T4|]. apply toks_app_i; [exact T1|]. apply toks_app_i; [exact T2|exact T3].
Qed.
Lemma textP_tok size b i u c : opt_ok color_ok c = true -> tok (textP size b i u c).
Proof. intros A. pose proof (ocol_toks _ A) as T1. unfold textP, optA, onezero. destruct b, i, u; cbn [app]; twf. Qed.
Lemma para_tok d b : opt_ok color_ok (p_color d) = true -> p_highlight d = None -> p_font d = None -> bullet_ok b = true -> tok (paraT d b).
Proof.
  intros D1 D2 D3. unfold bullet_ok. rewrite !andb_true_iff. intros [[A B] C].
  assert (T1 : tok (buT (b_style b))) by (unfold buT; unfold style_ok in B; destruct (b_style b); twf).
  assert (T2 : tok (propsT (merged d (b_format b)))).
  { unfold merged. destruct (b_format b) as [f|]; [|apply props_tok; [assumption|now rewrite D2|now rewrite D3]].
    unfold format_ok in C. rewrite !andb_true_iff in C. destruct C as [[C1 C2] C3]. apply props_tok; cbn [p_color p_highlight p_font]; [|assumption|].
    - destruct (bf_color f); [exact C1|exact D1].
    - rewrite D3. destruct (bf_font f); [exact C3|reflexivity]. }
  unfold paraT, paraE. twf.
Qed.
Lemma paras_toks s size l : opt_ok color_ok (s_ccolor s) = true -> forallb bullet_ok l = true -> toks (parasT (content_props s size) l).
Proof.
  intros A B. unfold parasT. apply nls_toks, toks_map. intros b Hb. apply para_tok; try reflexivity.
  - unfold content_props, with_basic. cbn [p_color]. destruct (s_ccolor s); cbn [option_map opt_ok] in *; [now apply clean_color|reflexivity].
  - rewrite forallb_forall in B. now apply B.
Qed.
Lemma title_tok x y w h al pr t : sforall plain_val al = true -> tok pr -> text_ok t = true -> tok (titleE x y w h al pr t).
Proof. intros A B C. unfold titleE. twf. Qed.
Lemma box_tok id name x y w h ps : forallb (sforall plain_val) [id; name; x; y; w; h] = true -> toks ps -> tok (boxE id name x y w h ps).
Proof. cbn [forallb]. rewrite !andb_true_iff. intros (A & B & C & D & E & F & _) P. unfold boxE. twf. Qed.
Lemma in_firstn {A} n (l : list A) x : In x (firstn n l) -> In x l.
Proof. revert n. induction l as [|a l IH]; intros [|n] H; cbn [firstn In] in *; try tauto. destruct H; [now left|right; eauto]. Qed.
Lemma in_skipn {A} n (l : list A) x : In x (skipn n l) -> In x l.
Proof. revert n. induction l as [|a l IH]; intros [|n] H; cbn [skipn In] in *; try tauto. right; eauto. Qed.
Lemma bullets_ok s : slide_ok s = true -> forallb bullet_ok (bullets_of s) = true.
Proof.
  unfold slide_ok. rewrite !andb_true_iff. intros H. destruct H as [[[[[[[[[[H1 H2] H3] H4] H5] H6] H7] H8] H9] H10] H11]. unfold bullets_of. destruct (s_bullets s) as [|b l]; [|assumption].
  apply forallb_forall. intros b Hb. apply in_map_iff in Hb. destruct Hb as (t & <- & Ht).
  unfold bullet_ok, plain_bullet. cbn [b_text b_style b_format]. rewrite forallb_forall in H3. rewrite (H3 t Ht), H4. reflexivity.
Qed.
Lemma titleP_tok s n b : slide_ok s = true -> tok (titleP s n b).
Proof. unfold slide_ok. rewrite !andb_true_iff. intros H. apply textP_tok. tauto. Qed.
Lemma items_toks s rids ink : slide_ok s = true -> forallb (sforall plain_val) rids = true -> opt_ok (sforall plain_val) ink = true -> toks (items s rids ink).
Proof.
  intros H R K. pose proof (bullets_ok s H) as HB. pose proof (fun n b => titleP_tok s n b H) as HT.
  pose proof (fun n l => paras_toks s n l) as HP.
  unfold slide_ok in H. rewrite !andb_true_iff in H. destruct H as [[[[[[[[[[H1 H2] H3] H4] H5] H6] H7] H8] H9] H10] H11].
  unfold items. apply toks_app_i; [|apply toks_app_i].
  - unfold titles. destruct (s_layout s); try exact I; (split; [|exact I]); apply title_tok; auto.
  - unfold bodies. destruct (s_layout s); try exact I.
    + destruct (s_table s) as [t|]; [split; [now apply tableT_tok|exact I]|].
      destruct (bullets_of s) as [|b l]; [exact I|]. split; [|exact I]. apply box_tok; [vm_compute; reflexivity|]. now apply HP.
    + destruct (bullets_of s) as [|b l]; [exact I|]. split; [|exact I]. apply box_tok; [vm_compute; reflexivity|]. now apply HP.
    + cbv zeta. destruct (Nat.ltb 0 _); [|exact I]. rewrite forallb_forall in HB. split.
      * apply box_tok; [vm_compute; reflexivity|]. apply HP; [assumption|]. apply forallb_forall. intros b Hb. eauto using in_firstn.
      * destruct (Nat.ltb _ _); [|exact I]. split; [|exact I]. apply box_tok; [vm_compute; reflexivity|]. apply HP; [assumption|]. apply forallb_forall. intros b Hb. eauto using in_skipn.
  - unfold extras. repeat apply toks_app_i.
    + apply (eachT_toks (fun x => shape_ok x = true)); [intros; now apply shape_tok|]. now apply Forall_forall, forallb_forall.
    + apply (eachT_toks (fun x => image_ok x = true)); [intros; now apply image_tok|]. now apply Forall_forall, forallb_forall.
    + apply (eachT_toks (fun x => text_ok (cb_code x) = true)); [intros; now apply code_tok|]. apply Forall_forall. apply (proj1 (forallb_forall _ _) H11).
    + apply (eachT_toks (fun x => conn_ok x = true)).
      * intros k x Hx. unfold conn_ok in Hx. rewrite andb_true_iff in Hx. apply full_tok; [tauto|]. destruct (label x); tauto.
      * now apply Forall_forall, forallb_forall.
    + apply (eachT_toks (fun x : chart * string => sforall plain_val (snd x) = true)); [intros; now apply chart_ref_tok|].
      apply Forall_forall. intros [c r] Hx. apply in_combine_r in Hx. cbn [snd]. rewrite forallb_forall in R. now apply R.
    + unfold inkI. destruct ink as [r|]; [|exact I]. cbn [opt_ok] in K. destruct (s_ink s); [|exact I]. split; [|exact I]. unfold inkE. twf.
Qed.
Definition slideT (s : slide) rids ink : tpl := rootE (nls (items s rids ink)) (transT (s_transition s)).
Lemma slide_read s rids ink : slide_ok s = true -> forallb (sforall plain_val) rids = true -> opt_ok (sforall plain_val) ink = true ->
  xml_read (slide_xml s rids ink) = Some (tnode (slideT s rids ink)).
Proof.
  intros H R K. rewrite slide_str. pose proof (nls_toks _ (items_toks s rids ink H R K)) as T1. pose proof (trans_toks (s_transition s)) as T2.
  assert (T : tok (slideT s rids ink)) by (unfold slideT, rootE; twf).
  change DECL with decl. unfold slideT, rootE in *. apply (tpl_read nl); [reflexivity|reflexivity|exact T].
Qed.
