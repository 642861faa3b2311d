(** What the stand-alone slides show, piece by piece. *)
From Coq Require Import String Ascii List Bool Arith NArith ZArith Lia FinFun.
From Verif Require Import Str StrRefl Num EscapeModel EscapeProofs XmlSpec XmlProofs XmlTpl OpcSpec GenProofs TplRead XmlPath PathRead ColorModel DocPropsProofs LookSpec TableModel TableSpec TableProofs TableLook ConnectorModel ConnectorSpec ConnectorProofs ChartModel ChartTpl ChartProofs ShapeModel SlideModel SlideSpec SlideInput SlideWant ElemRead ShapeProofs SlideProofs SlideRead SlideShow SlideIds GeomSpec GeomProofs SlideThms LaysModel LaysSpec LaysProofs LaysShow LaysRead.
Import ListNotations.
Open Scope nat_scope.
Open Scope string_scope.

Lemma ltitle_text x y w h n b i u c t :
  shape_paragraphs (tnode (ltitleE x y w h (propsT (with_basic n b i u c)) t)) = [t] /\ shape_paragraphs (tnode (lcenterE x y w h (propsT (with_basic n b i u c)) t)) = [t].
Proof.
  unfold propsT. split; unfold shape_paragraphs, ltitleE, lcenterE; do 2 pstep; rewrite path_end; cbn [map]; unfold run_texts; do 2 pstep; rewrite path_end; cbn [map];
  rewrite text_leaf; cbn [vals map sconcat fold_right pval]; now rewrite !sapp_nil_r.
Qed.
Lemma ltitle_name x y w h pr t : shape_name (tnode (ltitleE x y w h pr t)) = ["Title"] /\ shape_name (tnode (lcenterE x y w h pr t)) = ["Title"].
Proof. unfold shape_name, ltitleE, lcenterE. split; pread; reflexivity. Qed.
Definition run_want (n : N) (b i u : bool) (c : option string) :=
  (Some (bit b), Some (bit i), on "sng" u, Some (dec n), opt_list (option_map color_value c), @nil string).
Lemma run_read n b i u c : opt_ok color_ok c = true -> run_look (tnode (propsT (with_basic n b i u c))) = run_want n b i u c.
Proof.
  intros K. unfold run_look, run_want, fills, faces, propsT, with_basic, propsA, baseA. cbn [p_size p_bold p_italic p_underline p_strike p_sub p_super p_color p_highlight p_font hiT fontT].
  generalize (dec n). intros z. destruct c as [co|]; cbn [ocolT opt_ok option_map opt_list] in *.
  - rewrite <- (clean_value co K). unfold colorT. rewrite (clean_idem co K). generalize (clean co). intros q. destruct b, i, u; unfold optA; cbn [app]; pread; cbn; now rewrite ?sapp_nil_r.
  - destruct b, i, u; unfold optA; cbn [app]; pread; cbn; now rewrite ?sapp_nil_r.
Qed.
Lemma ltitle_look x y w h n b i u c t : opt_ok color_ok c = true ->
  text_look (tnode (ltitleE x y w h (propsT (with_basic n b i u c)) t)) = ([], [run_want n b i u c])
  /\ text_look (tnode (lcenterE x y w h (propsT (with_basic n b i u c)) t)) = (["ctr"], [run_want n b i u c]).
Proof.
  intros K. pose proof (run_read n b i u c K) as R. revert R. unfold propsT.
  generalize (propsA (with_basic n b i u c)) (ocolT (p_color (with_basic n b i u c)) ++ hiT (p_highlight (with_basic n b i u c)) ++ fontT (p_font (with_basic n b i u c)))%list. intros A k R.
  split; unfold text_look, ltitleE, lcenterE; apply f_equal2; pread; cbn [map]; rewrite ?R; reflexivity.
Qed.
Lemma lparas_elem d l : forallb elemT (lparas d l) = true.
Proof. unfold lparas. rewrite nlz_elem. apply forallb_forall. intros t Ht. apply in_map_iff in Ht. destruct Ht as (b & <- & _). reflexivity. Qed.
Lemma lparas_called d l : filter (called "a:p") (lparas d l) = map (fun b => paraT d (basic b)) l.
Proof. unfold lparas. rewrite nlz_filter. apply keep_all. intros t Ht. apply in_map_iff in Ht. destruct Ht as (b & <- & _). reflexivity. Qed.
Lemma views d l : map para_view (flat_map (at_path []) (map tnode (map (fun b => paraT d (basic b)) l))) = map (fun b => view_of d (basic b)) l.
Proof. induction l as [|b l IH]; [reflexivity|]. cbn [map flat_map]. rewrite path_end. cbn [app map]. rewrite para_read, IH. reflexivity. Qed.
Lemma lbody_bullets x y w h d l : shape_bullets (tnode (lbodyE x y w h (lparas d l))) = map (fun b => view_of d (basic b)) l /\ shape_name (tnode (lbodyE x y w h (lparas d l))) = ["Content"].
Proof.
  split; [|unfold shape_name, lbodyE; pread; reflexivity]. unfold shape_bullets, lbodyE. pstep. rewrite path_list.
  2:{ cbn [tbody app forallb elemT andb]. rewrite ?forallb_app, lparas_elem. reflexivity. }
  cbn [tbody filter called tname String.eqb Ascii.eqb Bool.eqb app]. rewrite ?filter_app, lparas_called. cbn [filter]. rewrite ?app_nil_r. apply views.
Qed.
Lemma lcol_bullets id n i x d l : sforall plain_val n = true -> shape_bullets (tnode (lcolE id n i x (lparas d l))) = map (fun b => view_of d (basic b)) l /\ shape_name (tnode (lcolE id n i x (lparas d l))) = [n].
Proof.
  intros _. split; [|unfold shape_name, lcolE; pread; cbn; now rewrite ?sapp_nil_r]. unfold shape_bullets, lcolE. pstep. rewrite path_list.
  2:{ cbn [tbody app forallb elemT andb]. rewrite ?forallb_app, lparas_elem. reflexivity. }
  cbn [tbody filter called tname String.eqb Ascii.eqb Bool.eqb app]. rewrite ?filter_app, lparas_called. cbn [filter]. rewrite ?app_nil_r. apply views.
Qed.
Lemma limage_shown id i : placeholder (tnode (limageE id (dec (im_x i)) (dec (im_y i)) (dec (im_w i)) (dec (im_h i)) (im_name i))) i.
Proof.
  unfold placeholder, limageE. generalize (dec (im_x i)) (dec (im_y i)) (dec (im_w i)) (dec (im_h i)). intros a b c d. split; [|split].
  - unfold shape_name. pread. cbn. now rewrite ?sapp_nil_r.
  - unfold placed. pread. cbn. now rewrite ?sapp_nil_r.
  - unfold shape_paragraphs. pread. cbn [map]. unfold run_texts. pread. cbn [map]. rewrite text_leaf. cbn. now rewrite ?sapp_nil_r.
Qed.

(** ** The slide *)
Lemma lcol_placed id n i x ps : placed (tnode (lcolE id n i x ps)) = [[("x", x); ("y", "1189200")]; [("cx", "4115100"); ("cy", "5668800")]].
Proof. unfold placed, lcolE. pread. cbn. now rewrite ?sapp_nil_r. Qed.
Local Opaque ltitleE lcenterE lbodyE lcolE limageE lrootE dec tnode.
Lemma lay_sizes s : points_ok s = true -> dec (lay_title_size s) = lay_size s (s_tsize s) 44 4400 /\ dec (lay_content_size s) = lay_size s (s_csize s) 24 2800.
Proof.
  unfold points_ok, lay_title_size, lay_content_size, lay_size, points, or_default, SlideWant.size_ok. destruct (s_layout s); try (split; reflexivity).
  rewrite andb_true_iff. intros [A B]. split; f_equal; [destruct (s_tsize s)|destruct (s_csize s)]; apply wmul_exact; try (now apply N.leb_le); unfold u32_max; lia.
Qed.
Lemma lview_eq s cu b : slide_ok s = true -> points_ok s = true -> view_of (lcp s cu) (basic b) = lay_view s cu b.
Proof.
  intros HS Z. destruct (lay_sizes s Z) as [_ E]. assert (K : opt_ok color_ok (s_ccolor s) = true) by (unfold slide_ok in HS; rewrite !andb_true_iff in HS; tauto).
  unfold view_of, lay_view, lcp, with_basic, basic, want_colors. cbn [p_size p_bold p_italic p_underline p_strike p_sub p_super p_color p_highlight p_font b_level b_text b_style option_map opt_list]. rewrite <- E.
  change (mark_of (b_style b)) with (want_mark (b_style b)).
  replace (option_map clean (option_map clean (s_ccolor s))) with (option_map color_value (s_ccolor s)); [reflexivity|].
  destruct (s_ccolor s) as [c|]; [|reflexivity]. cbn [opt_ok option_map] in *. now rewrite clean_idem, clean_value.
Qed.
Section SLIDE.
  Context (s : slide) (cu : bool).
  Hypothesis (HS : slide_ok s = true).
  Let x := tnode (lrootE (litems s cu)).
  Theorem lay_title_shown : s_layout s <> Blank -> points_ok s = true -> exists t rest, slide_shapes x = t :: rest
    /\ shape_name t = ["Title"] /\ shape_paragraphs t = [s_title s] /\ text_look t = lay_title_want s.
  Proof.
    intros NB Z. destruct (lay_sizes s Z) as [E _]. assert (K : opt_ok color_ok (s_tcolor s) = true) by (unfold slide_ok in HS; rewrite !andb_true_iff in HS; tauto).
    unfold x. rewrite lay_shapes. generalize (map tnode (lboxes s cu) ++ map tnode (lshapes s) ++ map tnode (limages s))%list. intros r.
    unfold ltitles, lay_title_want, ltp. rewrite <- E. destruct (s_layout s); try congruence; cbn [map app]; eexists; exists r; (split; [reflexivity|]).
    1,3,4,5: split; [exact (proj1 (ltitle_name _ _ _ _ _ _))|split; [exact (proj1 (ltitle_text _ _ _ _ _ _ _ _ _ _))|exact (proj1 (ltitle_look _ _ _ _ _ _ _ _ _ _ K))]].
    all: split; [exact (proj2 (ltitle_name _ _ _ _ _ _))|split; [exact (proj2 (ltitle_text _ _ _ _ _ _ _ _ _ _))|exact (proj2 (ltitle_look _ _ _ _ _ _ _ _ _ _ K))]].
  Qed.
  Theorem lay_blank : s_layout s = Blank -> slide_shapes x = [] /\ slide_frames x = [].
  Proof. intros L. unfold x. rewrite lay_shapes, lay_frames. unfold ltitles, lboxes, lshapes, limages, ltables. rewrite L. split; reflexivity. Qed.
  Theorem lay_bullets_shown : points_ok s = true -> wanted s <> [] -> s_layout s = TitleAndBigContent \/ (s_layout s = TitleAndContent /\ s_table s = None) ->
    exists t b rest, slide_shapes x = t :: b :: rest /\ shape_name b = ["Content"] /\ shape_bullets b = map (lay_view s cu) (wanted s).
  Proof.
    intros Z W L. assert (V : forall l, map (fun b => view_of (lcp s cu) (basic b)) l = map (lay_view s cu) l) by (intros l; apply map_ext; intros b; now apply lview_eq).
    unfold x. rewrite lay_shapes. generalize (map tnode (lshapes s) ++ map tnode (limages s))%list. intros r.
    unfold ltitles, lboxes. change (bullets_of s) with (wanted s). destruct L as [->|[-> ->]]; destruct (wanted s) as [|b0 l] eqn:E; try congruence; rewrite <- E; cbn [map app];
    eexists; eexists; exists r; (split; [reflexivity|]); rewrite <- V; (split; [exact (proj2 (lbody_bullets _ _ _ _ _ _))|exact (proj1 (lbody_bullets _ _ _ _ _ _))]).
  Qed.
  Theorem lay_columns_shown : points_ok s = true -> s_layout s = TwoColumn ->
    exists t boxes l r, slide_shapes x = t :: boxes /\ wanted s = (l ++ r)%list /\ (length l = length r \/ length l = S (length r))
    /\ map (fun b => (shape_name b, placed b, shape_bullets b)) boxes
       = (match l with [] => [] | _ => [(["Left Content"], at_box left_box, map (lay_view s cu) l)] end ++ match r with [] => [] | _ => [(["Right Content"], at_box right_box, map (lay_view s cu) r)] end)%list.
  Proof.
    intros Z L. assert (V : forall l, map (fun b => view_of (lcp s cu) (basic b)) l = map (lay_view s cu) l) by (intros l; apply map_ext; intros b; now apply lview_eq).
    unfold x. rewrite lay_shapes. unfold ltitles, lboxes, lshapes, limages. rewrite L. change (bullets_of s) with (wanted s). cbv zeta. set (w := wanted s). cbn [map app].
    eexists; eexists; exists (firstn (half w) w), (skipn (half w) w). split; [reflexivity|]. split; [symmetry; apply firstn_skipn|].
    assert (HM : 2 * half w = length w \/ 2 * half w = S (length w)).
    { unfold half. pose proof (Nat.div_mod (length w + 1) 2 ltac:(lia)). pose proof (Nat.mod_upper_bound (length w + 1) 2 ltac:(lia)). lia. }
    split; [rewrite firstn_length, skipn_length; lia|]. rewrite app_nil_r.
    destruct (Nat.ltb_spec 0 (length w)) as [P|P].
    2:{ destruct w; [reflexivity|cbn [length] in P; lia]. }
    assert (F : firstn (half w) w <> []).
    { intros E. apply (f_equal (@length _)) in E. rewrite firstn_length in E. cbn [length] in E. lia. }
    destruct (lcol_bullets "3" "Left Content" "1" "457200" (lcp s cu) (firstn (half w) w) eq_refl) as [B1 N1].
    destruct (Nat.ltb_spec (half w) (length w)) as [Q|Q]; cbn [map]; rewrite B1, N1, V, (lcol_placed "3" "Left Content" "1" "457200").
    - assert (G : skipn (half w) w <> []).
      { intros E. apply (f_equal (@length _)) in E. rewrite skipn_length in E. cbn [length] in E. lia. }
      destruct (lcol_bullets "4" "Right Content" "2" "4572300" (lcp s cu) (skipn (half w) w) eq_refl) as [B2 N2]. rewrite B2, N2, V, (lcol_placed "4" "Right Content" "2" "4572300").
      destruct (firstn (half w) w); [congruence|]. destruct (skipn (half w) w); [congruence|]. reflexivity.
    - rewrite (skipn_all2 w Q). destruct (firstn (half w) w); [congruence|]. reflexivity.
  Qed.
  Theorem lay_objects : s_layout s = TitleAndContent ->
    exists before user pics, slide_shapes x = (before ++ user ++ pics)%list /\ length before <= 2 /\ Forall2 shape_shown user (s_shapes s) /\ Forall2 placeholder pics (s_images s).
  Proof.
    intros L. exists (map tnode (ltitles s) ++ map tnode (lboxes s cu))%list, (map tnode (lshapes s)), (map tnode (limages s)).
    split; [unfold x; rewrite lay_shapes; now rewrite <- app_assoc|]. split.
    { rewrite app_length, !map_length. unfold ltitles, lboxes. rewrite L. cbn [length]. destruct (s_table s); [cbn; lia|]. destruct (bullets_of s); cbn; lia. }
    unfold slide_ok in HS. rewrite !andb_true_iff in HS. destruct HS as [[[[[[[[[[H1 H2] H3] H4] H5] H6] H7] H8] H9] H10] H11]. unfold lshapes, limages. rewrite L. split.
    - apply (each_forall shape_shown (fun t => shape_ok t = true)); [|now apply Forall_forall, forallb_forall].
      intros k t Ht. unfold shape_ok in Ht. rewrite !andb_true_iff in Ht. destruct Ht as [[[A B] C] D].
      destruct (shape_place t (N.of_nat (k + 10) mod (u32_max + 1))%N) as [P G]. split; [intros g Hg; rewrite G, (figure_preset _ _ Hg); reflexivity|]. split; [exact P|]. split; [now apply shape_text|]. split; [apply shape_link_id|apply shape_paint].
    - apply (each_forall placeholder (fun _ => True)); [|now apply Forall_forall]. intros k i _. apply limage_shown.
  Qed.
  Theorem lay_table t : s_layout s = TitleAndContent -> s_table s = Some t -> exists f, slide_frames x = [f]
    /\ grid f = map (fun r => map cell_text (cells r)) (rows t) /\ grid_spans f = map (fun r => map cell_spans (cells r)) (rows t)
    /\ grid_widths f = map dec (widths t) /\ row_heights f = map (fun r => dec (want_height r)) (rows t) /\ frame f = want_frame t
    /\ (cell_sizes_ok t = true -> grid_looks f = map (fun r => map want_looks (cells r)) (rows t)).
  Proof.
    intros L T. assert (OK : table_ok t = true).
    { unfold slide_ok in HS. rewrite !andb_true_iff in HS. rewrite T in HS. tauto. }
    destruct (table_shows t 3 OK) as (n & R & G). exists n. split.
    2:{ destruct G as (G1 & G2 & G3 & G4 & G5). repeat (split; [assumption|]). intros Z. destruct (table_looks t 3 OK Z) as (n' & R' & K). rewrite R in R'. injection R' as <-. exact K. }
    unfold x. rewrite lay_frames. unfold ltables. rewrite L, T.
    assert (E : xml_read (table_xml t 3) = Some (tnode (tableT t 3))).
    { rewrite table_str. pose proof (tableT_tok t 3 OK) as K. unfold tableT, tableE in *. now apply tpl_read_node. }
    rewrite R in E. injection E as ->. reflexivity.
  Qed.
End SLIDE.
(** Everything else of the description is left out. *)
Lemma bullets_basic p l : lay_bullets p (map (fun b => BulletPoint (b_text b) (b_level b) (b_style b) None) l) = lay_bullets p l.
Proof. unfold lay_bullets. rewrite map_map. reflexivity. Qed.
Theorem lay_dropped s cu : s_layout s <> TitleAndContent -> lay_xml s cu = lay_xml (texts_only s) cu.
Proof.
  intros L. unfold lay_xml. f_equal. f_equal. unfold lay_inside, texts_only. cbn [s_layout].
  set (s' := Slide _ _ _ _ _ _ _ _ _ _ _ _ _ _ _ _ _ _ _ _ _ _ _).
  assert (T : lay_tprops s' = lay_tprops s) by reflexivity. assert (C : lay_cprops s' cu = lay_cprops s cu) by reflexivity.
  assert (B : bullets_of s' = map (fun b => BulletPoint (b_text b) (b_level b) (b_style b) None) (bullets_of s)).
  { unfold bullets_of. subst s'. cbn [s_bullets s_content s_style]. destruct (s_bullets s); [|reflexivity]. cbn [map]. rewrite map_map. reflexivity. }
  assert (S : s_title s' = s_title s) by reflexivity. clearbody s'.
  destruct (s_layout s) eqn:E; try congruence; try reflexivity; try (now rewrite S, T).
  - unfold lay_big_slide. rewrite S, T, C, B. f_equal. destruct (bullets_of s) as [|b l]; [reflexivity|]. cbn [map]. f_equal. f_equal. symmetry. exact (bullets_basic _ (b :: l)).
  - unfold lay_columns_slide. rewrite S, T, C, B. cbv zeta. rewrite map_length, firstn_map, skipn_map, !bullets_basic. reflexivity.
Qed.
