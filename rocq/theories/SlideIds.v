From Coq Require Import String Ascii List Bool Arith NArith ZArith Lia FinFun.
From Verif Require Import Str StrRefl Num EscapeModel EscapeProofs XmlSpec XmlProofs XmlTpl OpcSpec GenProofs TplRead XmlPath PathRead ColorModel DocPropsProofs TableModel TableSpec TableProofs ConnectorModel ConnectorSpec ConnectorProofs ChartModel ChartTpl ChartProofs ShapeModel SlideModel SlideSpec SlideInput ElemRead ShapeProofs SlideProofs SlideRead.
Import ListNotations.
Open Scope nat_scope.
Open Scope string_scope.

(** ** Templates with neither drawing ids nor relationship ids *)
Definition qa (a : list (string * list piece)) : bool := forallb (fun p => negb (starts_with "r:" (fst p))) a.
Fixpoint quiet (t : tpl) : bool :=
  match t with
  | TE n a b => negb (String.eqb n "p:cNvPr") && qa a && forallb quiet b
  | TS n a => negb (String.eqb n "p:cNvPr") && qa a
  | TT _ => true
  | TC _ _ => false
  end.
Lemma qa_refs n a : qa a = true -> rel_refs (n, attrs_val a) = [].
Proof.
  unfold qa, rel_refs, rel_id_attr, attrs_val. cbn [snd]. induction a as [|[k v] a IH]; [reflexivity|]. cbn [forallb map filter fst].
  rewrite andb_true_iff, negb_true_iff. intros [-> H]. now apply IH.
Qed.
Lemma qn_ids n a : String.eqb n "p:cNvPr" = false -> drawing_id (n, a) = [].
Proof. unfold drawing_id. cbn [fst]. now intros ->. Qed.
Lemma quiet_ids : forall t, quiet t = true -> tget drawing_id t = [] /\ tget rel_refs t = [].
Proof.
  fix IH 1. intros [n a b|n a|p|s ns]; cbn [quiet tget]; [..|discriminate].
  - rewrite !andb_true_iff, negb_true_iff. intros [[A B] C]. rewrite qn_ids, qa_refs by assumption. cbn [app].
    induction b as [|t b IHb]; [split; reflexivity|]. cbn [forallb] in C. apply andb_true_iff in C. destruct C as [C1 C2].
    destruct (IH t C1) as [E F]. destruct (IHb C2) as [G H]. cbn [flat_map]. rewrite E, F, G, H. split; reflexivity.
  - rewrite !andb_true_iff, negb_true_iff. intros [A B]. rewrite qn_ids, qa_refs by assumption. split; reflexivity.
  - split; reflexivity.
Qed.
Lemma quiet_ids' l : forallb quiet l = true -> tgets drawing_id l = [] /\ tgets rel_refs l = [].
Proof.
  intros H. rewrite forallb_forall in H. split; apply tgets_none; intros t Ht; now apply (quiet_ids t (H t Ht)).
Qed.
Lemma qa_optA b k v : starts_with "r:" k = false -> qa (optA b k v) = true.
Proof. intros H. destruct b; [|reflexivity]. unfold qa, optA. cbn [forallb fst]. now rewrite H. Qed.
Lemma qa_app a b : qa (a ++ b) = qa a && qa b.
Proof. apply forallb_app. Qed.
Lemma quiet_nls l : forallb quiet (nls l) = forallb quiet l.
Proof. induction l as [|t l IH]; [reflexivity|]. cbn [nls flat_map app forallb]. fold (nls l). now rewrite IH. Qed.
Lemma quiet_map {A} (f : A -> tpl) l : (forall x, quiet (f x) = true) -> forallb quiet (map f l) = true.
Proof. intros H. induction l as [|x l IH]; [reflexivity|]. cbn [map forallb]. now rewrite H, IH. Qed.
Lemma quiet_each {A} (f : nat -> A -> tpl) l : (forall k x, quiet (f k x) = true) -> forall k, forallb quiet (eachT f k l) = true.
Proof. intros H. induction l as [|x l IH]; intros k; [reflexivity|]. cbn [eachT forallb]. now rewrite H, IH. Qed.
(** Compute with [quiet] but leave blocks alone. *)
Ltac qstep := cbn [quiet qa forallb app fst negb andb String.eqb Ascii.eqb Bool.eqb starts_with]; rewrite ?forallb_app, ?quiet_nls.
Lemma color_quiet c : quiet (colorT c) = true.
Proof. reflexivity. Qed.
Lemma props_quiet p : quiet (propsT p) = true.
Proof.
  assert (A : qa (propsA p) = true) by (unfold propsA, baseA, optA; destruct (p_underline p), (p_strike p), (p_sub p), (p_super p); reflexivity).
  unfold propsT. cbn [quiet]. rewrite A, !forallb_app. unfold ocolT, hiT, fontT. destruct (p_color p), (p_highlight p), (p_font p); reflexivity.
Qed.
Lemma textP_quiet n b i u c : quiet (textP n b i u c) = true.
Proof. unfold textP, ocolT, optA. destruct u, c; reflexivity. Qed.
Lemma bu_quiet st : quiet (buT st) = true.
Proof. destruct st; reflexivity. Qed.
Lemma para_quiet d b : quiet (paraT d b) = true.
Proof.
  unfold paraT. pose proof (props_quiet (merged d (b_format b))) as A. pose proof (bu_quiet (b_style b)) as B.
  revert A B. generalize (propsT (merged d (b_format b))), (buT (b_style b)). intros x y A B. unfold paraE.
  cbn [quiet qa forallb app fst]. rewrite A, B. reflexivity.
Qed.
Ltac tg := repeat first [rewrite tget_TE | rewrite tgets_cons | rewrite tgets_app | rewrite tgets_nil | rewrite tget_TT | rewrite tget_TS].
Ltac ids := cbn [drawing_id fst snd String.eqb Ascii.eqb Bool.eqb app]; rewrite ?app_nil_r.
Lemma title_ids a b c d e f g : quiet f = true ->
  tget drawing_id (titleE a b c d e f g) = ["2"] /\ tget rel_refs (titleE a b c d e f g) = [].
Proof.
  intros H. apply quiet_ids in H. destruct H as [H1 H2]. unfold titleE. split; tg; rewrite ?H1, ?H2; reflexivity.
Qed.
Lemma box_ids id n a b c d ps : forallb quiet ps = true ->
  tget drawing_id (boxE id n a b c d ps) = [id] /\ tget rel_refs (boxE id n a b c d ps) = [].
Proof.
  intros H. apply quiet_ids' in H. destruct H as [H1 H2]. unfold boxE. split; tg; rewrite ?H1, ?H2; cbn; now rewrite ?sapp_nil_r.
Qed.
Lemma alpha_quiet o : forallb quiet (alphaT o) = true.
Proof. destruct o; reflexivity. Qed.
Lemma anyfill_quiet t : forallb quiet (anyfill t) = true.
Proof.
  unfold anyfill. destruct (sh_gradient t) as [g|].
  - assert (Q : forallb quiet (map stopT (stops g)) = true).
    { apply quiet_map. intros st. pose proof (alpha_quiet (st_alpha st)) as H. unfold stopT. revert H. generalize (alphaT (st_alpha st)). intros l H.
      cbn [quiet qa forallb app fst]. rewrite ?forallb_app, H. reflexivity. }
    unfold gradT. revert Q. generalize (map stopT (stops g)). intros l Q. cbn [quiet qa forallb app fst]. rewrite ?forallb_app. cbn [forallb]. rewrite Q. reflexivity.
  - destruct (sh_fill t) as [f|]; [|reflexivity]. unfold fillT. pose proof (alpha_quiet (fl_alpha f)) as H. revert H. generalize (alphaT (fl_alpha f)). intros l H.
    cbn [quiet qa forallb app fst]. rewrite ?forallb_app, H. reflexivity.
Qed.
Lemma line_quiet o : forallb quiet (lineT o) = true.
Proof. destruct o; reflexivity. Qed.
Lemma body_quiet t : quiet (bodyT t) = true.
Proof.
  unfold bodyT. destruct (sh_text t) as [u|]; [|reflexivity]. destruct (is_code u); [|destruct (contains nl u); reflexivity].
  assert (Q : forallb quiet (map codeLT (lines u)) = true) by (apply quiet_map; reflexivity).
  unfold codeTB. revert Q. generalize (map codeLT (lines u)). intros l Q. cbn [quiet qa forallb app fst]. rewrite ?forallb_app, Q. reflexivity.
Qed.
(** The relationship id of a shape's hyperlink, if it has been given one. *)
Definition link_id (t : shape) : list string :=
  match sh_link t with Some h => match h_rid h with Some r => [r] | None => [] end | None => [] end.
Lemma hlink_refs h r : tget rel_refs (hlinkT h r) = [r] /\ tget drawing_id (hlinkT h r) = [].
Proof.
  unfold hlinkT, hlinkA, optA. split; [|reflexivity].
  destruct (h_tooltip h), (h_highlight h), (action_type (h_action h)); cbn; now rewrite sapp_nil_r.
Qed.
Lemma shape_ids t id : tget drawing_id (shapeT t id) = [dec id] /\ tget rel_refs (shapeT t id) = link_id t.
Proof.
  unfold shapeT. destruct (quiet_ids' _ (anyfill_quiet t)) as [A1 A2]. destruct (quiet_ids' _ (line_quiet (sh_line t))) as [B1 B2].
  destruct (quiet_ids _ (body_quiet t)) as [C1 C2].
  assert (D : tget drawing_id (cnvT t id) = [dec id] /\ tget rel_refs (cnvT t id) = link_id t).
  { unfold cnvT, link_id, nameA. destruct (sh_link t) as [h|]; [destruct (h_rid h) as [r|]|].
    - destruct (hlink_refs h r) as [E F]. split; tg; rewrite ?E, ?F; cbn; now rewrite ?sapp_nil_r.
    - split; cbn; now rewrite ?sapp_nil_r.
    - split; cbn; now rewrite ?sapp_nil_r. }
  destruct D as [D1 D2].
  assert (R : rel_refs ("a:xfrm", attrs_val (rotA (sh_rotation t))) = []) by (apply qa_refs; unfold rotA; destruct (sh_rotation t); reflexivity).
  revert A1 A2 B1 B2 C1 C2 D1 D2 R. generalize (anyfill t), (lineT (sh_line t)), (bodyT t), (cnvT t id), (rotA (sh_rotation t)).
  intros l1 l2 t1 t2 ra A1 A2 B1 B2 C1 C2 D1 D2 R. unfold shapeE. split; tg; rewrite ?A1, ?A2, ?B1, ?B2, ?C1, ?C2, ?D1, ?D2, ?R; cbn; now rewrite ?app_nil_r.
Qed.
Lemma image_ids i id rid : tget drawing_id (imageT i id rid) = [dec id] /\ tget rel_refs (imageT i id rid) = ["rId" ++ dec rid].
Proof.
  assert (F : forallb quiet (effectsT (im_effects i)) = true).
  { unfold effectsT. destruct (im_effects i) as [|e l]; [reflexivity|]. cbn [quiet qa forallb negb String.eqb Ascii.eqb Bool.eqb andb].
    change (forallb quiet (map effectT (e :: l)) && true = true). rewrite andb_true_r. apply quiet_map. destruct x; reflexivity. }
  apply quiet_ids' in F. destruct F as [F1 F2].
  assert (B : forall r, tget drawing_id (blipT r (im_crop i)) = [] /\ tget rel_refs (blipT r (im_crop i)) = [r]).
  { intros r. unfold blipT. destruct (im_crop i) as [c|]; [|split; cbn; now rewrite ?sapp_nil_r].
    assert (Q : rel_refs ("a:srcRect", attrs_val (cropA c)) = []).
    { apply qa_refs. unfold cropA. rewrite !qa_app, !qa_optA by reflexivity. reflexivity. }
    revert Q. generalize (cropA c). intros ca Q. split; tg; rewrite ?Q; cbn; now rewrite ?sapp_nil_r. }
  destruct (B ("rId" ++ dec rid)) as [B1 B2].
  unfold imageT. revert B1 B2 F1 F2. generalize (blipT ("rId" ++ dec rid) (im_crop i)), (effectsT (im_effects i)), ("rId" ++ dec rid). intros bt et r B1 B2 F1 F2.
  unfold imageE, descrA. destruct (im_alt i); split; tg; rewrite ?F1, ?F2, ?B1, ?B2; cbn; now rewrite ?sapp_nil_r.
Qed.
Lemma code_ids c id : tget drawing_id (codeT c id) = [dec id] /\ tget rel_refs (codeT c id) = [].
Proof. unfold codeT, codeE. generalize (codePs (cb_code c)). intros ps. split; tg; cbn; now rewrite ?sapp_nil_r. Qed.
Lemma chart_ids_ref c id r : tget drawing_id (chartE c id r) = [dec id] /\ tget rel_refs (chartE c id r) = [r].
Proof. unfold chartE. split; cbn; now rewrite ?sapp_nil_r. Qed.
Lemma ink_ids r : tget drawing_id (inkE r) = [] /\ tget rel_refs (inkE r) = [r].
Proof. unfold inkE. split; cbn; now rewrite ?sapp_nil_r. Qed.
Lemma conn_ids c id : tget drawing_id (full c id) = [dec id] /\ tget rel_refs (full c id) = [].
Proof.
  unfold full, connT, nvT, lnT, xfrmT.
  assert (C : forall w o, forallb quiet (cxnT w o) = negb (String.eqb w "p:cNvPr") || match o with None => true | _ => false end).
  { intros w [[i k]|]; cbn; now rewrite ?orb_false_r, ?andb_true_r, ?orb_true_r. }
  assert (H : forall w a z, w <> "p:cNvPr" -> forallb quiet (headT w a z) = true).
  { intros w a z D. apply String.eqb_neq in D. unfold headT. destruct (arrow_is_none a); [reflexivity|]. cbn. now rewrite D. }
  assert (L : forallb quiet (labelT (label c)) = true) by (unfold labelT; destruct (label c); reflexivity).
  destruct (quiet_ids' _ L) as [L1 L2].
  destruct (quiet_ids' (cxnT "a:stCxn" (both (start_shape c) (option_map site_index (start_site c))))) as [S1 S2]; [now rewrite C|].
  destruct (quiet_ids' (cxnT "a:endCxn" (both (end_shape c) (option_map site_index (end_site c))))) as [E1 E2]; [now rewrite C|].
  destruct (quiet_ids' _ (H "a:headEnd" (start_arrow c) (a_size c) ltac:(discriminate))) as [H1 H2].
  destruct (quiet_ids' _ (H "a:tailEnd" (end_arrow c) (a_size c) ltac:(discriminate))) as [T1 T2].
  assert (X : rel_refs ("a:xfrm", attrs_val (flips (flipped_h (box_of c)) (flipped_v (box_of c)))) = []).
  { apply qa_refs. unfold flips. destruct (flipped_h (box_of c)), (flipped_v (box_of c)); reflexivity. }
  split; unfold nlT; tg; rewrite ?L1, ?L2, ?S1, ?S2, ?E1, ?E2, ?H1, ?H2, ?T1, ?T2, ?X; cbn; now rewrite ?sapp_nil_r.
Qed.
Lemma table_ids t id : tget drawing_id (tableT t id) = [dec id] /\ tget rel_refs (tableT t id) = [].
Proof.
  unfold tableT.
  assert (C : forallb quiet (eachT colT 0 (widths t)) = true) by (apply quiet_each; reflexivity).
  assert (R : forallb quiet (eachT rowT 0 (rows t)) = true).
  { apply quiet_each. intros k r. unfold rowT. assert (Q : forallb quiet (map cellT (cells r)) = true).
    { apply quiet_map. intros c.
      assert (M : qa (mergeA c) = true).
      { unfold mergeA. destruct (h_merge c); [reflexivity|]. destruct (v_merge c); [reflexivity|]. rewrite qa_app.
        unfold spanA. destruct (grid_span c) as [g|], (row_span_of c) as [w|]; try destruct (1 <? g)%N; try destruct (1 <? w)%N; reflexivity. }
      unfold cellT. destruct (covered c); [cbn [quiet]; rewrite M; reflexivity|].
      assert (T : quiet (tcP c) = true) by (unfold tcP, anchorA; destruct (background c), (cvalign c); reflexivity).
      assert (F : qa (rprA c) = true).
      { unfold rprA, formatA. unfold qa. cbn [forallb]. fold (qa (optA (cbold c) "b" "1" ++ optA (citalic c) "i" "1" ++ optA (cunderline c) "u" "sng"
          ++ match font_size c with Some n => [("sz", [Lit (dec (wmul u32_max n 100))])] | None => [] end)%list). rewrite !qa_app, !qa_optA by reflexivity. destruct (font_size c); reflexivity. }
      assert (P : quiet (cellP c) = true).
      { unfold cellP. destruct (String.eqb (ctext c) ""); [reflexivity|]. cbn [quiet]. rewrite forallb_app.
        assert (RP : quiet (runP c) = true).
        { unfold runP. destruct (runC c) eqn:E; [cbn [quiet]; rewrite F; reflexivity|]. cbn [quiet]. rewrite F. rewrite <- E. unfold runC. destruct (text_color c), (font_family c); reflexivity. }
        cbn [forallb quiet]. rewrite RP. unfold parP. destruct (calign c); reflexivity. }
      cbn [quiet forallb]. rewrite M, T, P. reflexivity. }
    unfold rowE. revert Q. generalize (map cellT (cells r)). intros l Q. cbn [quiet qa forallb app fst]. rewrite ?forallb_app, Q. reflexivity. }
  destruct (quiet_ids' _ C) as [C1 C2]. destruct (quiet_ids' _ R) as [R1 R2].
  revert C1 C2 R1 R2. generalize (eachT colT 0 (widths t)), (eachT rowT 0 (rows t)). intros l1 l2 C1 C2 R1 R2.
  unfold tableE. split; tg; rewrite ?C1, ?C2, ?R1, ?R2; cbn; now rewrite ?sapp_nil_r.
Qed.
