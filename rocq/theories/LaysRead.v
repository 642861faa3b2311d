(** What the stand-alone slides show. *)
From Coq Require Import String Ascii List Bool Arith NArith ZArith Lia FinFun.
From Verif Require Import Str StrRefl Num EscapeModel EscapeProofs XmlSpec XmlProofs XmlTpl OpcSpec GenProofs TplRead XmlPath PathRead ColorModel DocPropsProofs LookSpec TableModel TableSpec TableProofs TableLook ConnectorModel ConnectorSpec ConnectorProofs ChartModel ChartTpl ChartProofs ShapeModel SlideModel SlideSpec SlideInput SlideWant ElemRead ShapeProofs SlideProofs SlideRead SlideShow SlideIds GeomSpec GeomProofs SlideThms LaysModel LaysSpec LaysProofs LaysShow.
Import ListNotations.
Open Scope nat_scope.
Open Scope string_scope.

(** ** Well-formedness *)
Lemma basic_tok n b i u c : opt_ok color_ok c = true -> tok (propsT (with_basic n b i u c)).
Proof. intros H. apply props_tok; [|reflexivity|reflexivity]. unfold with_basic. cbn [p_color]. destruct c; cbn [option_map opt_ok] in *; [now apply clean_color|reflexivity]. Qed.
Lemma lparas_toks s cu l : opt_ok color_ok (s_ccolor s) = true -> forallb bullet_ok l = true -> toks (lparas (lcp s cu) l).
Proof.
  intros A B. unfold lparas. apply nlz_toks, toks_map. intros b Hb. rewrite forallb_forall in B. specialize (B b Hb). apply para_tok; try reflexivity.
  - unfold lcp, with_basic. cbn [p_color]. destruct (s_ccolor s); cbn [option_map opt_ok] in *; [now apply clean_color|reflexivity].
  - unfold bullet_ok, basic in *. rewrite !andb_true_iff in B. cbn [b_text b_style b_format]. rewrite !andb_true_iff. tauto.
Qed.
Lemma ltitle_tok x y w h pr t : tok pr -> text_ok t = true -> tok (ltitleE x y w h pr t) /\ tok (lcenterE x y w h pr t).
Proof. intros A B. unfold ltitleE, lcenterE. split; twf. Qed.
Lemma lbody_tok x y w h ps : toks ps -> tok (lbodyE x y w h ps).
Proof. intros A. unfold lbodyE. twf. Qed.
Lemma lcol_tok id n i x ps : forallb (sforall plain_val) [id; n; i; x] = true -> toks ps -> tok (lcolE id n i x ps).
Proof. cbn [forallb]. rewrite !andb_true_iff. intros (A & B & C & D & _) P. unfold lcolE. twf. Qed.
Lemma limage_tok id x y w h n : forallb (sforall plain_val) [id; x; y; w; h] = true -> attr_ok n = true -> tok (limageE id x y w h n).
Proof. cbn [forallb]. rewrite !andb_true_iff. intros (A & B & C & D & E & _) P. pose proof (attr_ok_text n P) as Q. unfold limageE. twf. Qed.
Lemma three_toks l : toks l -> toks (flat_map (fun t => [nlT; t; nlT]) l).
Proof. induction l as [|t l IH]; [trivial|]. intros [A B]. cbn [flat_map app]. split; [apply nlT_tok|]. split; [exact A|]. split; [apply nlT_tok|now apply IH]. Qed.
Lemma litems_toks s cu : slide_ok s = true -> toks (litems s cu).
Proof.
  intros H. pose proof (bullets_ok s H) as HB.
  assert (HP := fun l => lparas_toks s cu l).
  unfold slide_ok in H. rewrite !andb_true_iff in H. destruct H as [[[[[[[[[[H1 H2] H3] H4] H5] H6] H7] H8] H9] H10] H11].
  assert (HT : tok (ltp s)) by now apply basic_tok.
  unfold litems. apply toks_app_i; [|apply toks_app_i; [|apply toks_app_i; [|apply toks_app_i]]].
  - apply nlz_toks. unfold ltitles. destruct (s_layout s); try exact I; (split; [|exact I]); now apply ltitle_tok.
  - unfold ltables. destruct (s_layout s); try exact I. destruct (s_table s) as [t|]; [|exact I]. split; [now apply tableT_tok|exact I].
  - assert (B : toks (lboxes s cu)).
    { unfold lboxes. destruct (s_layout s); try exact I.
      - destruct (s_table s); [exact I|]. destruct (bullets_of s) as [|b l]; [exact I|]. split; [|exact I]. apply lbody_tok. now apply HP.
      - destruct (bullets_of s) as [|b l]; [exact I|]. split; [|exact I]. apply lbody_tok. now apply HP.
      - cbv zeta. destruct (Nat.ltb 0 _); [|exact I]. rewrite forallb_forall in HB. split.
        + apply lcol_tok; [vm_compute; reflexivity|]. apply HP; [assumption|]. apply forallb_forall. intros b Hb. eauto using in_firstn.
        + destruct (Nat.ltb _ _); [|exact I]. split; [|exact I]. apply lcol_tok; [vm_compute; reflexivity|]. apply HP; [assumption|]. apply forallb_forall. intros b Hb. eauto using in_skipn. }
    unfold spaced. destruct (s_layout s); try (now apply nlz_toks). now apply three_toks.
  - apply nls_toks. unfold lshapes. destruct (s_layout s); try exact I.
    apply (eachT_toks (fun x => shape_ok x = true)); [intros; now apply shape_tok|]. now apply Forall_forall, forallb_forall.
  - apply nls_toks. unfold limages. destruct (s_layout s); try exact I.
    apply (eachT_toks (fun x => image_ok x = true)); [|now apply Forall_forall, forallb_forall].
    intros k x Hx. unfold image_ok in Hx. apply andb_prop in Hx as [Hx _]. apply limage_tok; [|exact Hx]. cbn [forallb]. now rewrite !dec_val.
Qed.
Theorem lay_read s cu : slide_ok s = true -> xml_read (lay_xml s cu) = Some (tnode (lrootE (litems s cu))).
Proof.
  intros H. unfold lay_xml. rewrite inside_str, lroot_str. pose proof (litems_toks s cu H) as T1.
  assert (T : tok (lrootE (litems s cu))) by (unfold lrootE; twf).
  unfold lrootE in *. apply (tpl_read nl); [reflexivity|reflexivity|exact T].
Qed.

(** ** The shapes of the slide *)
Lemma ltree_read m its : forallb elemT its = true -> m <> "p:nvGrpSpPr" -> m <> "p:grpSpPr" ->
  at_path ["p:cSld"; "p:spTree"; m] (tnode (lrootE its)) = map tnode (filter (called m) its).
Proof.
  intros H N1 N2. unfold lrootE.
  rewrite path_list by reflexivity. cbn [tbody filter called tname String.eqb Ascii.eqb Bool.eqb map flat_map app]. rewrite app_nil_r.
  rewrite path_list by reflexivity. cbn [tbody filter called tname String.eqb Ascii.eqb Bool.eqb map flat_map app]. rewrite app_nil_r.
  rewrite path_list.
  2:{ cbn [tbody app forallb elemT andb]. rewrite ?forallb_app, H. reflexivity. }
  cbn [tbody].
  assert (C : forall n b, n <> m -> called m (TE n [] b) = false).
  { intros n b D. unfold called. cbn [tname]. now apply String.eqb_neq. }
  cbn [filter app]. rewrite !C by congruence. cbn [called tname app]. rewrite ?filter_app. cbn [filter called tname]. rewrite ?app_nil_r. apply flat_map_self.
Qed.
Lemma nlz_filter m l : filter (called m) (nlz l) = filter (called m) l.
Proof. induction l as [|t l IH]; [reflexivity|]. cbn [nlz flat_map app filter]. fold (nlz l). change (called m nlT) with false. cbn iota. now rewrite IH. Qed.
Lemma three_filter m l : filter (called m) (flat_map (fun t => [nlT; t; nlT]) l) = filter (called m) l.
Proof. induction l as [|t l IH]; [reflexivity|]. cbn [flat_map app filter]. change (called m nlT) with false. cbn iota. now rewrite IH. Qed.
Lemma spaced_filter s m l : filter (called m) (spaced s l) = filter (called m) l.
Proof. unfold spaced. destruct (s_layout s); (apply nlz_filter || apply three_filter). Qed.
Lemma nlz_elem l : forallb elemT (nlz l) = forallb elemT l.
Proof. induction l as [|t l IH]; [reflexivity|]. cbn [nlz flat_map app forallb]. fold (nlz l). now rewrite IH. Qed.
Lemma three_elem l : forallb elemT (flat_map (fun t => [nlT; t; nlT]) l) = forallb elemT l.
Proof. induction l as [|t l IH]; [reflexivity|]. cbn [flat_map app forallb]. now rewrite IH. Qed.
Lemma litems_elem s cu : forallb elemT (litems s cu) = true.
Proof.
  unfold litems. rewrite !forallb_app, nlz_elem, !nls_elem. repeat (apply andb_true_intro; split).
  - unfold ltitles. destruct (s_layout s); reflexivity.
  - unfold ltables. destruct (s_layout s); try reflexivity. destruct (s_table s); reflexivity.
  - assert (B : forallb elemT (lboxes s cu) = true).
    { unfold lboxes. destruct (s_layout s); try reflexivity.
      - destruct (s_table s); [reflexivity|]. destruct (bullets_of s); reflexivity.
      - destruct (bullets_of s); reflexivity.
      - cbv zeta. destruct (Nat.ltb 0 _); [|reflexivity]. cbn [forallb]. destruct (Nat.ltb _ _); reflexivity. }
    unfold spaced. destruct (s_layout s); rewrite ?nlz_elem, ?three_elem; exact B.
  - unfold lshapes. destruct (s_layout s); try reflexivity. apply each_elem. reflexivity.
  - unfold limages. destruct (s_layout s); try reflexivity. apply each_elem. reflexivity.
Qed.
Lemma keep_all m l : (forall t, In t l -> called m t = true) -> filter (called m) l = l.
Proof. induction l as [|t l IH]; intros H; [reflexivity|]. cbn [filter]. rewrite (H t (or_introl eq_refl)). f_equal. apply IH. intros; apply H; now right. Qed.
Lemma drop_all m l : (forall t, In t l -> called m t = false) -> filter (called m) l = [].
Proof. induction l as [|t l IH]; intros H; [reflexivity|]. cbn [filter]. rewrite (H t (or_introl eq_refl)). apply IH. intros; apply H; now right. Qed.
Lemma sp_only s cu t : In t (ltitles s ++ lboxes s cu)%list -> exists b, t = TE "p:sp" [] b.
Proof.
  rewrite in_app_iff. unfold ltitles, lboxes, ltitleE, lcenterE, lbodyE, lcolE. destruct (s_layout s); cbv zeta; intros H;
  repeat match type of H with
    | context [match s_table s with _ => _ end] => destruct (s_table s)
    | context [match bullets_of s with _ => _ end] => destruct (bullets_of s)
    | context [if Nat.ltb ?a ?b then _ else _] => destruct (Nat.ltb a b)
    end; cbn [In] in H; repeat (destruct H as [H|H]); try contradiction H; subst t; eexists; reflexivity.
Qed.
Lemma lay_shapes s cu : slide_shapes (tnode (lrootE (litems s cu))) = (map tnode (ltitles s) ++ map tnode (lboxes s cu) ++ map tnode (lshapes s) ++ map tnode (limages s))%list.
Proof.
  unfold slide_shapes. rewrite ltree_read by (apply litems_elem || discriminate). unfold litems. rewrite !filter_app, nlz_filter, spaced_filter, !nls_filter, <- !map_app. f_equal.
  assert (K : forall t, In t (ltitles s ++ lboxes s cu)%list -> called "p:sp" t = true) by (intros t H; destruct (sp_only _ _ _ H) as (b & ->); reflexivity).
  rewrite (keep_all _ (ltitles s)) by (intros; apply K, in_or_app; now left). rewrite (keep_all _ (lboxes s cu)) by (intros; apply K, in_or_app; now right).
  replace (filter (called "p:sp") (ltables s)) with (@nil tpl) by (unfold ltables; destruct (s_layout s); try reflexivity; destruct (s_table s); reflexivity).
  cbn [app]. do 2 f_equal. f_equal.
  - unfold lshapes. destruct (s_layout s); try reflexivity. now rewrite (each_name "p:sp" "p:sp") by reflexivity.
  - unfold limages. destruct (s_layout s); try reflexivity. now rewrite (each_name "p:sp" "p:sp") by reflexivity.
Qed.
Lemma lay_frames s cu : slide_frames (tnode (lrootE (litems s cu))) = map tnode (ltables s).
Proof.
  unfold slide_frames. rewrite ltree_read by (apply litems_elem || discriminate). unfold litems. rewrite !filter_app, nlz_filter, spaced_filter, !nls_filter. f_equal.
  assert (K : forall t, In t (ltitles s ++ lboxes s cu)%list -> called "p:graphicFrame" t = false) by (intros t H; destruct (sp_only _ _ _ H) as (b & ->); reflexivity).
  rewrite (drop_all _ (ltitles s)) by (intros; apply K, in_or_app; now left). rewrite (drop_all _ (lboxes s cu)) by (intros; apply K, in_or_app; now right).
  replace (filter (called "p:graphicFrame") (ltables s)) with (ltables s) by (unfold ltables; destruct (s_layout s); try reflexivity; destruct (s_table s); reflexivity).
  cbn [app]. unfold lshapes, limages. destruct (s_layout s); try (cbn [filter]; now rewrite !app_nil_r). rewrite !(each_name "p:graphicFrame" "p:sp") by reflexivity. cbn [String.eqb Ascii.eqb Bool.eqb app]. now rewrite app_nil_r.
Qed.
