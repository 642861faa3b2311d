From Coq Require Import String Ascii List Bool Arith NArith ZArith Lia FinFun.
From Verif Require Import Str StrRefl Num EscapeModel EscapeProofs XmlSpec XmlProofs XmlTpl OpcSpec GenProofs TplRead XmlPath PathRead ColorModel DocPropsProofs LookSpec TableModel TableSpec TableProofs TableLook ConnectorModel ConnectorSpec ConnectorProofs ChartModel ChartTpl ChartProofs ShapeModel SlideModel SlideSpec SlideInput SlideWant ElemRead ShapeProofs SlideProofs SlideRead SlideShow SlideIds GeomSpec GeomProofs.
Import ListNotations.
Open Scope nat_scope.
Open Scope string_scope.

Lemma clean_idem s : color_ok s = true -> clean (clean s) = clean s.
Proof.
  unfold color_ok, clean. induction s as [|c s IH]; [reflexivity|]. intros K. pose proof K as K'. cbn [sforall] in K. apply andb_true_iff in K. destruct K as [A B].
  cbn [trim_start_by]. change (is_hash c) with (Ascii.eqb c "#"). destruct (Ascii.eqb_spec c "#") as [_|N]; [now apply IH|].
  assert (G : forall t, sforall (fun c => match hex_val c with Some _ => true | None => Ascii.eqb c "#"%char end) t = true ->
              smap (fun c => s1 (upper c)) (smap (fun c => s1 (upper c)) t) = smap (fun c => s1 (upper c)) t).
  { clear. induction t as [|c t IH]; [reflexivity|]. cbn [sforall]. rewrite andb_true_iff. intros [A B]. cbn [smap s1 append]. f_equal; [|exact (IH B)].
    clear -A. destruct c as [[] [] [] [] [] [] [] []]; vm_compute in *; congruence. }
  assert (U : trim_start_by is_hash (smap (fun c => s1 (upper c)) (String c s)) = smap (fun c => s1 (upper c)) (String c s)).
  { cbn [smap s1 append trim_start_by]. replace (is_hash (upper c)) with false; [reflexivity|].
    clear -A N. destruct c as [[] [] [] [] [] [] [] []]; vm_compute in *; congruence. }
  rewrite U. now apply G.
Qed.
Lemma clean_opt o : opt_ok color_ok o = true -> option_map clean o = option_map color_value o.
Proof. destruct o; cbn [opt_ok option_map]; intros H; [now rewrite clean_value|reflexivity]. Qed.

Section SLIDE.
  Context (s : slide) (rids : list string) (ink : option string).
  Hypothesis (HS : slide_ok s = true) (HR : rids_ok rids ink = true).
  Let x := tnode (slideT s rids ink).
  Lemma reads : xml_read (slide_xml s rids ink) = Some x.
  Proof. unfold rids_ok in HR. rewrite andb_true_iff in HR. apply slide_read; [assumption|apply HR|apply HR]. Qed.

  (** Title *)
  Lemma titleP_form n b : exists at_ k, titleP s n b = TE "a:rPr" at_ k.
  Proof. unfold titleP, textP. eauto. Qed.
  Lemma titles_name t : In t (titles s) -> shape_name (tnode t) = ["Title"].
  Proof. unfold titles. destruct (s_layout s); cbn [In]; intros H; try contradiction; (destruct H as [<-|[]]; apply title_name). Qed.
  Lemma boxes_name t : In t (boxes s) -> In (shape_name (tnode t)) [["Content"]; ["Left Content"]; ["Right Content"]].
  Proof.
    unfold boxes, bodies. destruct (s_layout s); cbv zeta; intros H; try contradiction H.
    - destruct (s_table s); [contradiction H|]. destruct (bullets_of s); [contradiction H|]. destruct H as [<-|[]]. rewrite box_name. now left.
    - destruct (bullets_of s); [contradiction H|]. destruct H as [<-|[]]. rewrite box_name. now left.
    - destruct (Nat.ltb 0 _); [|contradiction H]. destruct (Nat.ltb (half _) _).
      + destruct H as [<-|[<-|[]]]; rewrite box_name; cbn [In]; auto.
      + destruct H as [<-|[]]. rewrite box_name. cbn [In]; auto.
  Qed.
  Lemma named_title : shapes_named "Title" x = map tnode (titles s).
  Proof.
    unfold x. rewrite named_shapes by (reflexivity || discriminate). f_equal. rewrite filter_app.
    replace (filter (has_name "Title") (boxes s)) with (@nil tpl).
    2:{ symmetry. pose proof boxes_name as B. induction (boxes s) as [|t l IH]; [reflexivity|]. cbn [filter].
        rewrite IH by (intros; apply B; now right). unfold has_name. specialize (B t (or_introl eq_refl)). cbn [In] in B.
        destruct B as [<-|[<-|[<-|[]]]]; reflexivity. }
    rewrite app_nil_r. pose proof titles_name as T. induction (titles s) as [|t l IH]; [reflexivity|]. cbn [filter].
    rewrite IH by (intros; apply T; now right). unfold has_name at 1. rewrite (T t (or_introl eq_refl)). reflexivity.
  Qed.
  Lemma title_shown : s_layout s <> Blank -> map shape_paragraphs (shapes_named "Title" x) = [[s_title s]].
  Proof.
    intros H. rewrite named_title. unfold titles. destruct (s_layout s); try congruence; cbn [map]; now rewrite title_text by apply titleP_form.
  Qed.
  Lemma title_looks : s_layout s <> Blank -> size_ok (s_tsize s) = true -> map text_look (shapes_named "Title" x) = [title_want s].
  Proof.
    intros H Z. assert (K : opt_ok color_ok (s_tcolor s) = true) by (unfold slide_ok in HS; rewrite !andb_true_iff in HS; tauto).
    assert (L : forall a b c d al n bo t, (n * 100 <= u32_max)%N -> text_look (tnode (titleE a b c d al (titleP s n bo) t))
      = ([al], [(Some (bit bo), Some (bit (s_titalic s)), on "sng" (s_tunder s), Some (points (or_default (s_tsize s) n)), opt_list (option_map color_value (s_tcolor s)), [])])).
    { intros a b c d al n bo t HN. unfold text_look, titleE, titleP, textP.
      assert (SZ : wmul u32_max (match s_tsize s with Some m => m | None => n end) 100 = (or_default (s_tsize s) n * 100)%N).
      { unfold or_default, size_ok in *. destruct (s_tsize s) as [m|]; apply wmul_exact; [now apply N.leb_le|assumption]. }
      rewrite SZ. fold (points (or_default (s_tsize s) n)). generalize (points (or_default (s_tsize s) n)). intros z. f_equal.
      - pread. cbn. now rewrite sapp_nil_r.
      - pread. cbn [map]. f_equal. unfold run_look, fills, faces. destruct (s_tcolor s) as [co|]; cbn [ocolT opt_ok option_map opt_list] in *.
        + rewrite <- (clean_value co K). unfold colorT. generalize (clean co). intros q. destruct bo, (s_titalic s), (s_tunder s); unfold optA; cbn [app]; pread; cbn; now rewrite ?sapp_nil_r.
        + destruct bo, (s_titalic s), (s_tunder s); unfold optA; cbn [app]; pread; cbn; now rewrite ?sapp_nil_r. }
    rewrite named_title. unfold titles, title_want. destruct (s_layout s); try congruence; cbn [map]; now rewrite L by (unfold u32_max; lia).
  Qed.
  Lemma trans_shown : slide_transition x = want_transition (s_transition s).
  Proof.
    unfold slide_transition, x, slideT, rootE. rewrite path_one, named_children. cbn [tbody].
    destruct (s_transition s); cbn [transT app]; rewrite named_list by reflexivity; reflexivity.
  Qed.
  Lemma blank_no_text : s_layout s = Blank -> slide_shapes x = (map tnode (shapesI s) ++ map tnode (codesI s))%list.
  Proof. intros H. unfold x. rewrite shapes_read. unfold titles, boxes, bodies. rewrite H. reflexivity. Qed.

  (** Bullets *)
  Lemma named_box n : n <> "Title" -> starts_with "Shape " n = false -> n <> "Code Block" -> shapes_named n x = map tnode (filter (has_name n) (boxes s)).
  Proof.
    intros A B C. unfold x. rewrite named_shapes by assumption. f_equal. rewrite filter_app.
    replace (filter (has_name n) (titles s)) with (@nil tpl); [reflexivity|]. symmetry. pose proof titles_name as T.
    induction (titles s) as [|t l IH]; [reflexivity|]. cbn [filter]. rewrite IH by (intros; apply T; now right).
    unfold has_name. rewrite (T t (or_introl eq_refl)). destruct (String.eqb_spec "Title" n); [congruence|reflexivity].
  Qed.
  Lemma wanted_eq : bullets_of s = wanted s.
  Proof. reflexivity. Qed.
  Lemma view_eq d b : sizes_ok s = true -> In b (wanted s) -> (d * 100 <= u32_max)%N -> view_of (merged (content_props s d) (b_format b)) b = bullet_view s d b.
  Proof.
    unfold sizes_ok. rewrite andb_true_iff. intros [A B] Hb D.
    assert (SZ : wmul u32_max (or_default (s_csize s) d) 100 = (or_default (s_csize s) d * 100)%N).
    { unfold or_default, size_ok in *. destruct (s_csize s) as [n|]; apply wmul_exact; [now apply N.leb_le|assumption]. }
    assert (CC : option_map clean (p_color (content_props s d)) = option_map color_value (s_ccolor s)).
    { assert (K : opt_ok color_ok (s_ccolor s) = true) by (unfold slide_ok in HS; rewrite !andb_true_iff in HS; tauto).
      unfold content_props, with_basic. cbn [p_color]. destruct (s_ccolor s) as [c|]; [|reflexivity]. cbn [opt_ok option_map] in *.
      now rewrite clean_idem, clean_value. }
    unfold bullet_view, view_of, merged, want_colors. destruct (b_format b) as [f|] eqn:E.
    - assert (FF : size_ok (bf_size f) = true /\ format_ok f = true).
      { assert (BO : forallb bullet_ok (s_bullets s) = true) by (unfold slide_ok in HS; rewrite !andb_true_iff in HS; tauto).
        unfold wanted in Hb. destruct (s_bullets s) as [|b0 l].
        - apply in_map_iff in Hb. destruct Hb as (t & <- & _). discriminate E.
        - rewrite forallb_forall in B, BO. specialize (B b Hb). specialize (BO b Hb). unfold bullet_ok in BO. rewrite E in B, BO. split; [exact B|].
          rewrite !andb_true_iff in BO. tauto. }
      destruct FF as [F FO]. unfold format_ok in FO. rewrite !andb_true_iff in FO. destruct FO as [[FO1 FO2] _].
      cbn [p_size p_bold p_italic p_underline p_strike p_sub p_super p_color p_highlight p_font]. rewrite (clean_opt _ FO2).
      replace (option_map clean (orelse (bf_color f) (p_color (content_props s d)))) with (option_map color_value match bf_color f with Some c => Some c | None => s_ccolor s end).
      2:{ destruct (bf_color f) as [c|]; cbn [orelse]; [symmetry; now apply clean_opt|now symmetry]. }
      replace (orelse (bf_font f) (p_font (content_props s d))) with (bf_font f) by (destruct (bf_font f); reflexivity).
      change (mark_of (b_style b)) with (want_mark (b_style b)).
      cbn [p_size p_bold p_italic p_underline p_strike p_sub p_super content_props with_basic]. rewrite orb_false_r.
      unfold points. unfold size_ok in F. destruct (bf_size f) as [n|]; cbn [or_default].
      + apply N.leb_le in F. now rewrite (wmul_exact u32_max n 100 F).
      + unfold content_props, with_basic, or_default in *. cbn [p_size]. rewrite SZ. reflexivity.
    - rewrite CC. cbn [p_size p_bold p_italic p_underline p_strike p_sub p_super p_highlight p_font content_props with_basic]. unfold points, or_default in *. rewrite SZ. reflexivity.
  Qed.
  Lemma views_eq d l : sizes_ok s = true -> (forall b, In b l -> In b (wanted s)) -> (d * 100 <= u32_max)%N ->
    map (fun b => view_of (merged (content_props s d) (b_format b)) b) l = map (bullet_view s d) l.
  Proof. intros A B D. apply map_ext_in. intros b Hb. apply view_eq; auto. Qed.
  Lemma content_shown : sizes_ok s = true -> wanted s <> [] ->
    s_layout s = TitleAndBigContent \/ (s_layout s = TitleAndContent /\ s_table s = None) ->
    map shape_bullets (shapes_named "Content" x) = [map (bullet_view s 28) (wanted s)].
  Proof.
    intros Z W L. rewrite named_box by (reflexivity || discriminate). unfold boxes, bodies. rewrite wanted_eq.
    destruct L as [->|[-> ->]]; destruct (wanted s) as [|b l] eqn:E; try congruence; rewrite <- E; cbn [filter called tname boxE String.eqb Ascii.eqb Bool.eqb];
    match goal with |- context [has_name ?n (boxE ?a ?m ?c ?d ?e ?f ?g)] => replace (has_name n (boxE a m c d e f g)) with true by (unfold has_name; now rewrite box_name) end;
    cbn [map]; rewrite paras_read, views_eq; auto; unfold u32_max; lia.
  Qed.
  Lemma columns_shown : sizes_ok s = true -> s_layout s = TwoColumn ->
    exists l r, wanted s = (l ++ r)%list /\ (length l = length r \/ length l = S (length r))
    /\ map shape_bullets (shapes_named "Left Content" x) = match l with [] => [] | _ => [map (bullet_view s 24) l] end
    /\ map shape_bullets (shapes_named "Right Content" x) = match r with [] => [] | _ => [map (bullet_view s 24) r] end.
  Proof.
    intros Z L. set (w := wanted s). exists (firstn (half w) w), (skipn (half w) w). split; [symmetry; apply firstn_skipn|].
    assert (HM : 2 * half w = length w \/ 2 * half w = S (length w)).
    { unfold half. pose proof (Nat.div_mod (length w + 1) 2 ltac:(lia)). pose proof (Nat.mod_upper_bound (length w + 1) 2 ltac:(lia)). lia. }
    split; [rewrite firstn_length, skipn_length; lia|].
    assert (I1 : forall b, In b (firstn (half w) w) -> In b w) by (intros; eapply in_firstn; eauto).
    assert (I2 : forall b, In b (skipn (half w) w) -> In b w) by (intros; eapply in_skipn; eauto).
    rewrite !named_box by (reflexivity || discriminate). unfold boxes, bodies. rewrite L, wanted_eq. fold w. cbv zeta.
    destruct (Nat.ltb_spec 0 (length w)) as [P|P].
    2:{ destruct w; [split; reflexivity|cbn [length] in P; lia]. }
    assert (V1 := views_eq 24 _ Z I1 ltac:(unfold u32_max; lia)). assert (V2 := views_eq 24 _ Z I2 ltac:(unfold u32_max; lia)).
    set (LB := boxE "3" "Left Content" "457200" "1189200" "4115100" "5668800" (parasT (content_props s 24) (firstn (half w) w))).
    set (RB := boxE "4" "Right Content" "4572300" "1189200" "4115100" "5668800" (parasT (content_props s 24) (skipn (half w) w))).
    assert (N1 : has_name "Left Content" LB = true /\ has_name "Right Content" LB = false) by (unfold has_name, LB; rewrite box_name; split; reflexivity).
    assert (N2 : has_name "Left Content" RB = false /\ has_name "Right Content" RB = true) by (unfold has_name, RB; rewrite box_name; split; reflexivity).
    assert (C1 : called "p:sp" LB = true) by reflexivity. assert (C2 : called "p:sp" RB = true) by reflexivity.
    destruct N1 as [N1 N1'], N2 as [N2 N2'].
    assert (D1 : shape_bullets (tnode LB) = map (bullet_view s 24) (firstn (half w) w)) by (unfold LB; rewrite paras_read; exact V1).
    assert (D2 : shape_bullets (tnode RB) = map (bullet_view s 24) (skipn (half w) w)) by (unfold RB; rewrite paras_read; exact V2).
    assert (F : firstn (half w) w <> []).
    { intros E. apply (f_equal (@length _)) in E. rewrite firstn_length in E. cbn [length] in E. lia. }
    clearbody LB RB. destruct (Nat.ltb_spec (half w) (length w)) as [Q|Q].
    - assert (G : skipn (half w) w <> []).
      { intros E. apply (f_equal (@length _)) in E. rewrite skipn_length in E. cbn [length] in E. lia. }
      cbn [filter]. rewrite C1, C2. cbn [filter]. rewrite N1, N1', N2, N2'. cbn [map]. rewrite D1, D2.
      destruct (firstn (half w) w); [congruence|]. destruct (skipn (half w) w); [congruence|]. split; reflexivity.
    - rewrite (skipn_all2 w Q). cbn [filter]. rewrite C1. cbn [filter]. rewrite N1, N1'. cbn [map]. rewrite D1.
      destruct (firstn (half w) w); [congruence|]. split; reflexivity.
  Qed.

  (** Table *)
  Lemma table_shown t : s_layout s = TitleAndContent -> s_table s = Some t -> exists f,
    slide_frames x = f :: map tnode (chartsI s rids)
    /\ grid f = map (fun r => map cell_text (cells r)) (rows t)
    /\ grid_spans f = map (fun r => map cell_spans (cells r)) (rows t)
    /\ grid_widths f = map dec (widths t) /\ row_heights f = map (fun r => dec (want_height r)) (rows t)
    /\ frame f = want_frame t
    /\ (cell_sizes_ok t = true -> grid_looks f = map (fun r => map want_looks (cells r)) (rows t)).
  Proof.
    intros L T. assert (OK : table_ok t = true).
    { unfold slide_ok in HS. rewrite !andb_true_iff in HS. rewrite T in HS. tauto. }
    destruct (table_shows t 3 OK) as (n & R & G). exists n. split.
    2:{ destruct G as (G1 & G2 & G3 & G4 & G5). repeat (split; [assumption|]). intros Z. destruct (table_looks t 3 OK Z) as (n' & R' & K). rewrite R in R'. injection R' as <-. exact K. }
    unfold x. rewrite frames_read. unfold tframes, bodies. rewrite L, T.
    assert (E : xml_read (table_xml t 3) = Some (tnode (tableT t 3))).
    { rewrite table_str. pose proof (tableT_tok t 3 OK) as K. unfold tableT, tableE in *. now apply tpl_read_node. }
    rewrite R in E. injection E as ->. reflexivity.
  Qed.

  (** Pictures *)
  Lemma image_view i id rid : picture_info (tnode (imageT i id rid)) = ([(im_name i, im_alt i)], ["rId" ++ dec rid]).
  Proof.
    unfold picture_info, imageT, imageE. f_equal.
    - assert (F : exists b, blipT ("rId" ++ dec rid) (im_crop i) = TE "p:blipFill" [] b) by (unfold blipT; destruct (im_crop i); eexists; reflexivity).
      destruct F as [b ->]. pread. unfold descrA. destruct (im_alt i); cbn; now rewrite !sapp_nil_r.
    - unfold blipT. generalize ("rId" ++ dec rid). intros r. destruct (im_crop i); pread; cbn; now rewrite sapp_nil_r.
  Qed.
  Lemma image_looks i id rid : picture_look (tnode (imageT i id rid)) = want_picture i.
  Proof.
    unfold picture_look, want_picture, imageT, imageE.
    assert (F : forall u, exists b, blipT u (im_crop i) = TE "p:blipFill" [] b) by (intros u; unfold blipT; destruct (im_crop i); eexists; reflexivity).
    assert (G : forallb elemT (effectsT (im_effects i)) = true /\ filter (called "a:xfrm") (effectsT (im_effects i)) = []).
    { unfold effectsT. destruct (im_effects i); split; reflexivity. }
    destruct G as [G1 G2].
    f_equal; [f_equal|].
    - destruct (F ("rId" ++ dec rid)) as [b ->]. unfold placed. revert G1 G2. generalize (effectsT (im_effects i)). intros fx G1 G2.
      assert (Q : forall q, at_path ("a:xfrm" :: q) (tnode (TE "p:spPr" [] ([TT [Lit nl]; TE "a:xfrm" [] [TT [Lit nl]; TS "a:off" [("x", [Lit (dec (im_x i))]); ("y", [Lit (dec (im_y i))])]; TT [Lit nl]; TS "a:ext" [("cx", [Lit (dec (im_w i))]); ("cy", [Lit (dec (im_h i))])]; TT [Lit nl]]; TT [Lit nl]; TE "a:prstGeom" [("prst", [Lit "rect"])] [TT [Lit nl]; TS "a:avLst" []; TT [Lit nl]]; TT [Lit nl]] ++ fx ++ [TT [Lit nl]])))
        = at_path q (tnode (TE "a:xfrm" [] [TT [Lit nl]; TS "a:off" [("x", [Lit (dec (im_x i))]); ("y", [Lit (dec (im_y i))])]; TT [Lit nl]; TS "a:ext" [("cx", [Lit (dec (im_w i))]); ("cy", [Lit (dec (im_h i))])]; TT [Lit nl]]))).
      { intros q. rewrite path_list by (cbn [tbody]; rewrite !forallb_app, G1; reflexivity). cbn [tbody]. rewrite !filter_app, G2.
        cbn [filter app called tname String.eqb Ascii.eqb Bool.eqb map flat_map]. now rewrite app_nil_r. }
      rewrite !(path_step "p:spPr"). rewrite !named_children. cbn [tbody]. rewrite !named_list by reflexivity.
      cbn [filter app called tname String.eqb Ascii.eqb Bool.eqb map flat_map]. rewrite !app_nil_r. cbn [app] in Q. rewrite !Q. pread. cbn. now rewrite !sapp_nil_r.
    - unfold blipT. generalize ("rId" ++ dec rid). intros r. destruct (im_crop i) as [c|]; cbn [option_map opt_list]; [|pread; reflexivity].
      pread. cbn [map]. f_equal. unfold cropA, nonzero. destruct (cr_l c), (cr_t c), (cr_r c), (cr_b c); unfold optA; cbn [N.ltb N.compare N.eqb app]; cbn; rewrite ?sapp_nil_r; reflexivity.
    - destruct (F ("rId" ++ dec rid)) as [b ->].
      assert (R : at_path ["a:effectLst"] (tnode (TE "p:spPr" [] ([TT [Lit nl]; TE "a:xfrm" [] [TT [Lit nl]; TS "a:off" [("x", [Lit (dec (im_x i))]); ("y", [Lit (dec (im_y i))])]; TT [Lit nl]; TS "a:ext" [("cx", [Lit (dec (im_w i))]); ("cy", [Lit (dec (im_h i))])]; TT [Lit nl]]; TT [Lit nl]; TE "a:prstGeom" [("prst", [Lit "rect"])] [TT [Lit nl]; TS "a:avLst" []; TT [Lit nl]]; TT [Lit nl]] ++ effectsT (im_effects i) ++ [TT [Lit nl]])))
        = map tnode (effectsT (im_effects i))).
      { rewrite path_list by (cbn [tbody]; rewrite !forallb_app, G1; reflexivity). cbn [tbody]. rewrite !filter_app.
        replace (filter (called "a:effectLst") (effectsT (im_effects i))) with (effectsT (im_effects i)) by (unfold effectsT; destruct (im_effects i); reflexivity).
        cbn [filter app called tname String.eqb Ascii.eqb Bool.eqb map flat_map]. rewrite app_nil_r. apply flat_map_self. }
      rewrite (path_step "p:spPr"). rewrite named_children. cbn [tbody]. rewrite named_list by reflexivity.
      cbn [filter app called tname String.eqb Ascii.eqb Bool.eqb map flat_map]. rewrite app_nil_r. cbn [app] in R. match goal with |- elem_names (flat_map children ?y) = _ => replace y with (map tnode (effectsT (im_effects i))) by (symmetry; exact R) end.
      unfold effectsT. destruct (im_effects i) as [|e l]; [reflexivity|]. cbn [map flat_map]. rewrite app_nil_r, children_tnode. cbn [tbody].
      change (effectT e :: map effectT l) with (map effectT (e :: l)). change (want_effect e :: map want_effect l) with (map want_effect (e :: l)). generalize (e :: l). intros l'.
      induction l' as [|f l' IH]; [reflexivity|]. cbn [map]. rewrite tsnodes_cons.
      destruct f; cbn [effectT tnodes app merge_text elem_names flat_map want_effect]; f_equal; exact IH.
  Qed.
  Lemma each_nth {A} (f : nat -> A -> tpl) : forall l k i y, nth_error l i = Some y -> nth_error (eachT f k l) i = Some (f (k + i) y).
  Proof.
    induction l as [|z l IH]; intros k [|i] y H; cbn [nth_error eachT] in *; try discriminate.
    - injection H as ->. now rewrite Nat.add_0_r.
    - rewrite (IH (S k) i y H). f_equal. f_equal. lia.
  Qed.
  Lemma each_length {A} (f : nat -> A -> tpl) : forall l k, length (eachT f k l) = length l.
  Proof. induction l as [|z l IH]; intros k; [reflexivity|]. cbn [eachT length]. now rewrite IH. Qed.
  Lemma pictures_shown : length (slide_pictures x) = length (s_images s) /\
    forall i im, nth_error (s_images s) i = Some im ->
      exists p, nth_error (slide_pictures x) i = Some p /\ picture_info p = ([(im_name im, im_alt im)], [image_rid s i]) /\ picture_look p = want_picture im.
  Proof.
    unfold x. rewrite pics_read. unfold imagesI. split; [now rewrite map_length, each_length|]. intros i im H.
    eexists. split; [apply map_nth_error, each_nth, H|]. split; [rewrite image_view; reflexivity|apply image_looks].
  Qed.

  (** Shapes and code blocks *)
  Lemma each_forall {A} (P : node -> A -> Prop) (Q : A -> Prop) (f : nat -> A -> tpl) : (forall k y, Q y -> P (tnode (f k y)) y) ->
    forall l k, Forall Q l -> Forall2 P (map tnode (eachT f k l)) l.
  Proof. intros H. induction l as [|z l IH]; intros k F; [constructor|]. inversion F; subst. cbn [eachT map]. constructor; auto. Qed.
  Lemma shape_place t id : placed (tnode (shapeT t id)) = [[("x", dec (sh_x t)); ("y", dec (sh_y t))]; [("cx", dec (sh_w t)); ("cy", dec (sh_h t))]]
    /\ map (attr "prst") (at_path ["p:spPr"; "a:prstGeom"] (tnode (shapeT t id))) = [preset (sh_type t)].
  Proof.
    unfold placed, shapeT, shapeE. destruct (body_form t) as [bd ->].
    assert (F : forall m, m = "a:xfrm" \/ m = "a:prstGeom" -> filter (called m) (anyfill t) = [] /\ filter (called m) (lineT (sh_line t)) = []).
    { intros m Hm. unfold anyfill, fillT, lineT. destruct Hm as [->| ->]; (split; [destruct (sh_gradient t); [reflexivity|destruct (sh_fill t); reflexivity]|destruct (sh_line t); reflexivity]). }
    assert (G : forallb elemT (anyfill t) = true /\ forallb elemT (lineT (sh_line t)) = true).
    { unfold anyfill, fillT, lineT. split; [destruct (sh_gradient t); [reflexivity|destruct (sh_fill t); reflexivity]|destruct (sh_line t); reflexivity]. }
    destruct (F "a:xfrm" (or_introl eq_refl)) as [F1 F2]. destruct (F "a:prstGeom" (or_intror eq_refl)) as [F3 F4]. destruct G as [G1 G2].
    clear F. revert F1 F2 F3 F4 G1 G2. generalize (anyfill t), (lineT (sh_line t)). intros l1 l2 F1 F2 F3 F4 G1 G2.
    assert (P : forall m q (l : list tpl), at_path (m :: q) (tnode (TE "p:spPr" [] l)) = at_path (m :: q) (tnode (TE "p:spPr" [] l))) by reflexivity.
    clear P.
    assert (Q : forall m q A B0 C0, (m = "a:xfrm" \/ m = "a:prstGeom") -> forallb elemT A = true -> filter (called m) B0 = [] -> filter (called m) C0 = [] -> forallb elemT B0 = true -> forallb elemT C0 = true ->
      at_path (m :: q) (tnode (TE "p:spPr" [] (A ++ B0 ++ C0 ++ [TT [Lit nl]]))) = flat_map (at_path q) (map tnode (filter (called m) A))).
    { intros m q A B0 C0 _ EA FB FC EB EC. rewrite path_list by (cbn [tbody]; rewrite !forallb_app, EA, EB, EC; reflexivity). cbn [tbody].
      rewrite !filter_app, FB, FC. cbn [filter called tname app]. now rewrite app_nil_r. }
    rewrite !(path_step "p:spPr"). rewrite !named_children. cbn [tbody]. rewrite !named_list by reflexivity.
    cbn [filter app called tname String.eqb Ascii.eqb Bool.eqb map flat_map]. rewrite !app_nil_r.
    match goal with |- context [TE "p:spPr" [] (?a :: ?b :: ?c :: ?d :: ?e :: l1 ++ l2 ++ ?z)] =>
      change (a :: b :: c :: d :: e :: l1 ++ l2 ++ z)%list with ([a; b; c; d; e] ++ l1 ++ l2 ++ [TT [Lit nl]])%list end.
    rewrite !Q by (auto; reflexivity).
    cbn [filter app called tname String.eqb Ascii.eqb Bool.eqb map flat_map]. rewrite !app_nil_r. split; pread; cbn; now rewrite ?sapp_nil_r.
  Qed.
  Lemma tint_read v a : tint (tnode (TE "a:srgbClr" [("val", [Lit v])] (alphaT a))) = want_tint v a.
  Proof. unfold tint, want_tint, alphaT. f_equal; [cbn; now rewrite sapp_nil_r|]. destruct a; cbn [option_map opt_list]; [|reflexivity]. pread. cbn. now rewrite sapp_nil_r. Qed.
  Lemma shape_paint t id : turns_ok t = true -> paint (tnode (shapeT t id)) = want_paint t.
  Proof.
    intros T. unfold turns_ok in T. apply andb_true_iff in T. destruct T as [T1 T2].
    unfold paint, shapeT, shapeE. destruct (body_form t) as [bd ->].
    rewrite !(path_step "p:spPr"). rewrite !named_children. cbn [tbody]. rewrite !named_list by reflexivity.
    cbn [filter app called tname String.eqb Ascii.eqb Bool.eqb map flat_map]. rewrite !app_nil_r.
    match goal with |- context [TE "p:spPr" [] (?a :: ?b :: ?c :: ?d :: ?e :: ?z)] =>
      change (TE "p:spPr" [] (a :: b :: c :: d :: e :: z)) with (TE "p:spPr" [] ([a; b; c; d; e] ++ anyfill t ++ lineT (sh_line t) ++ [TT [Lit nl]])%list); set (sp := TE "p:spPr" [] ([a; b; c; d; e] ++ anyfill t ++ lineT (sh_line t) ++ [TT [Lit nl]])%list) end.
    assert (G1 : forallb elemT (anyfill t) = true) by (unfold anyfill, fillT; destruct (sh_gradient t); [reflexivity|destruct (sh_fill t); reflexivity]).
    assert (G2 : forallb elemT (lineT (sh_line t)) = true) by (unfold lineT; destruct (sh_line t); reflexivity).
    assert (Q : forall m q, at_path (m :: q) (tnode sp) = flat_map (at_path q) (map tnode (filter (called m) (tbody sp)))).
    { intros m q. apply path_list. unfold sp. cbn [tbody]. rewrite !forallb_app, G1, G2. reflexivity. }
    rewrite !Q. unfold sp. cbn [tbody]. rewrite !filter_app. cbn [filter app called tname String.eqb Ascii.eqb Bool.eqb]. rewrite !app_nil_r. clear Q sp.
    unfold want_paint. f_equal; [f_equal; [f_equal; [f_equal|]|]|].
    - unfold anyfill, fillT, lineT. destruct (sh_gradient t), (sh_line t) as [l|]; try reflexivity; destruct (sh_fill t) as [f|]; try reflexivity;
        cbn [filter app called tname String.eqb Ascii.eqb Bool.eqb map flat_map option_map opt_list]; rewrite app_nil_r; pread; rewrite tint_read; reflexivity.
    - unfold anyfill, fillT, lineT. destruct (sh_gradient t) as [g|].
      2:{ destruct (sh_line t), (sh_fill t); reflexivity. }
      assert (E : at_path ["a:gsLst"; "a:gs"] (tnode (gradT g)) = map tnode (map stopT (stops g))).
      { unfold gradT. pstep. rewrite path_list.
        2:{ cbn [tbody app forallb elemT andb]. rewrite !forallb_app. replace (forallb elemT (map stopT (stops g))) with true; [reflexivity|].
            symmetry. apply forallb_forall. intros y Hy. apply in_map_iff in Hy. destruct Hy as (z & <- & _). reflexivity. }
        cbn [tbody app filter called tname]. rewrite !filter_app. cbn [filter app called tname String.eqb Ascii.eqb Bool.eqb]. rewrite app_nil_r.
        replace (filter (called "a:gs") (map stopT (stops g))) with (map stopT (stops g)).
        2:{ symmetry. induction (stops g) as [|y l IH]; [reflexivity|]. cbn [map filter]. rewrite IH. reflexivity. }
        apply flat_map_self. }
      replace (filter (called "a:gradFill") [gradT g] ++ filter (called "a:gradFill") match sh_line t with Some l => _ | None => [] end)%list with [gradT g] by (destruct (sh_line t); reflexivity).
      cbn [map flat_map]. rewrite app_nil_r, E, !map_map. apply map_ext. intros st. unfold stopT. f_equal; [cbn; now rewrite sapp_nil_r|]. pread. now rewrite tint_read.
    - unfold anyfill, fillT, lineT. destruct (sh_gradient t) as [g|].
      2:{ destruct (sh_line t), (sh_fill t); reflexivity. }
      replace (filter (called "a:gradFill") [gradT g] ++ filter (called "a:gradFill") match sh_line t with Some l => _ | None => [] end)%list with [gradT g] by (destruct (sh_line t); reflexivity).
      cbn [map flat_map]. rewrite app_nil_r. unfold gradT. pread. cbn [map].
      replace (to_angle (g_dir g)) with (degrees (g_dir g) * 60000)%N.
      2:{ destruct (g_dir g); try reflexivity. cbn [degrees to_angle] in *. apply N.leb_le in T2. now rewrite wmul_exact. }
      generalize (dec (degrees (g_dir g) * 60000)). intros u. cbn. now rewrite sapp_nil_r.
    - unfold anyfill, fillT, lineT. destruct (sh_line t) as [l|].
      2:{ destruct (sh_gradient t), (sh_fill t); reflexivity. }
      replace (filter (called "a:ln") match sh_gradient t with Some g => [gradT g] | None => _ end) with (@nil tpl) by (destruct (sh_gradient t); [reflexivity|destruct (sh_fill t); reflexivity]).
      cbn [filter app called tname String.eqb Ascii.eqb Bool.eqb map flat_map at_path option_map opt_list]. f_equal. f_equal; [cbn; now rewrite sapp_nil_r|]. unfold fills. pread. cbn. now rewrite sapp_nil_r.
    - unfold anyfill, fillT, lineT.
      replace (filter (called "a:xfrm") match sh_gradient t with Some g => [gradT g] | None => _ end) with (@nil tpl) by (destruct (sh_gradient t); [reflexivity|destruct (sh_fill t); reflexivity]).
      replace (filter (called "a:xfrm") match sh_line t with Some g => _ | None => [] end) with (@nil tpl) by (destruct (sh_line t); reflexivity).
      cbn [app map flat_map at_path]. f_equal. unfold rotA. destruct (sh_rotation t) as [r|]; cbn [option_map]; [|reflexivity].
      apply andb_true_iff in T1. destruct T1 as [A B]. apply Z.leb_le in A, B.
      replace (i32 (r * 60000)) with (r * 60000)%Z by (unfold i32; rewrite Z.mod_small by lia; lia).
      generalize (zdec (r * 60000)). intros u. cbn. now rewrite sapp_nil_r.
  Qed.
  Lemma lines_shows t : text_ok t = true -> shows_text t (lines t).
  Proof.
    intros H. right.
    assert (J : sjoin nl (split_char LF t) = t).
    { clear. induction t as [|c t IH]; [reflexivity|]. cbn [split_char]. destruct (Ascii.eqb_spec c LF) as [->|D].
      - destruct (split_char LF t) as [|p l] eqn:E; [destruct t; cbn [split_char] in E; [discriminate|destruct (Ascii.eqb a LF); [discriminate|destruct (split_char LF t); discriminate]]|].
        cbn [sjoin]. cbn [append]. change (nl ++ sjoin nl (p :: l) = String LF t). rewrite IH. reflexivity.
      - destruct (split_char LF t) as [|p l] eqn:E; [cbn [sjoin] in IH; subst; reflexivity|]. destruct l as [|q l]; [cbn [sjoin] in *; now subst|].
        cbn [sjoin] in *. cbn [append]. f_equal. exact IH. }
    assert (R : Forall (fun l => text_ok l = true) (split_char LF t)).
    { clear -H. induction t as [|c t IH]; [repeat constructor|]. cbn [text_ok] in H. rewrite !andb_true_iff in H. destruct H as [[A B] C]. specialize (IH C).
      cbn [split_char]. destruct (Ascii.eqb c LF); [constructor; [reflexivity|assumption]|].
      destruct (split_char LF t) as [|y l].
      - constructor; [|constructor]. cbn [text_ok s1]. rewrite A, B. reflexivity.
      - inversion IH as [|? ? Hx Hl]; subst. constructor; [|assumption]. cbn [text_ok]. rewrite A, B, Hx. reflexivity. }
    assert (E : forall l, Forall (fun l => text_ok l = true) l -> sjoin nl (chop_last l) = sjoin nl l \/ sjoin nl (chop_last l) ++ nl = sjoin nl l).
    { clear. induction l as [|y l IH]; intros F; [now left|]. inversion F as [|? ? Hy Hl]; subst. specialize (IH Hl). cbn [chop_last].
      assert (N : chop_cr y = y).
      { clear -Hy. unfold chop_cr. destruct (srev y) as [|c r] eqn:E; [reflexivity|]. destruct (Ascii.eqb_spec c CR) as [->|]; [|reflexivity]. exfalso.
        assert (X : y = srev r ++ s1 CR) by (rewrite <- (srev_involutive y), E; apply srev_cons).
        rewrite X in Hy. clear -Hy. induction (srev r) as [|d u IH]; [discriminate|]. cbn [append text_ok] in Hy. rewrite !andb_true_iff in Hy. tauto. }
      destruct l as [|z l]; [destruct (String.eqb_spec y "") as [->|]; now left|]. rewrite N.
      destruct l as [|u l].
      - cbn [chop_last]. destruct (String.eqb_spec z "") as [->|]; [|now left]. right. cbn [sjoin]. now rewrite sapp_nil_r.
      - remember (chop_last (z :: u :: l)) as cl eqn:Ecl. assert (NE : cl <> []) by (subst; cbn [chop_last]; discriminate).
        destruct cl as [|a cl]; [congruence|]. change (sjoin nl (y :: a :: cl)) with (y ++ nl ++ sjoin nl (a :: cl)).
        change (sjoin nl (y :: z :: u :: l)) with (y ++ nl ++ sjoin nl (z :: u :: l)).
        destruct IH as [IH|IH]; rewrite <- IH; [now left|right; now rewrite !sapp_assoc]. }
    specialize (E _ R). rewrite J in E. exact E.
  Qed.
  Lemma codeL_runs u : sconcat (run_texts (tnode (codeLT u))) = u.
  Proof. unfold run_texts, codeLT. pread. cbn [map]. rewrite text_leaf. cbn [vals map sconcat fold_right pval]. now rewrite !sapp_nil_r. Qed.
  Lemma shape_text t id : match sh_text t with Some u => text_ok u | None => true end = true ->
    match sh_text t with Some u => shows_text u (shape_paragraphs (tnode (shapeT t id))) | None => sconcat (shape_paragraphs (tnode (shapeT t id))) = "" end.
  Proof.
    intros H. unfold shape_paragraphs.
    assert (P : at_path ["p:txBody"; "a:p"] (tnode (shapeT t id)) = at_path ["a:p"] (tnode (bodyT t))).
    { unfold shapeT, shapeE. destruct (body_form t) as [bd ->]. rewrite path_step, named_children. cbn [tbody]. rewrite named_list by reflexivity.
      cbn [filter app called tname String.eqb Ascii.eqb Bool.eqb map flat_map]. now rewrite app_nil_r. }
    rewrite P. clear P. unfold bodyT. destruct (sh_text t) as [u|].
    - destruct (is_code u).
      + unfold codeTB.
        assert (E : at_path ["a:p"] (tnode (TE "p:txBody" [] ([TT [Lit "
"]; TS "a:bodyPr" [("wrap", [Lit "square"]); ("rtlCol", [Lit "0"]); ("anchor", [Lit "t"]); ("lIns", [Lit "91440"]); ("tIns", [Lit "45720"]); ("rIns", [Lit "91440"]); ("bIns", [Lit "45720"])]; TT [Lit "
"]; TS "a:lstStyle" []; TT [Lit "
"]] ++ map codeLT (lines u))%list)) = map tnode (map codeLT (lines u))).
        { rewrite path_list.
          2:{ cbn [tbody app forallb elemT andb]. apply forallb_forall. intros y Hy. apply in_map_iff in Hy. destruct Hy as (z & <- & _). reflexivity. }
          cbn [tbody app filter called tname String.eqb Ascii.eqb Bool.eqb]. 
          replace (filter (called "a:p") (map codeLT (lines u))) with (map codeLT (lines u)).
          2:{ symmetry. induction (lines u) as [|y l IH]; [reflexivity|]. cbn [map filter]. rewrite IH. reflexivity. }
          apply flat_map_self. }
        rewrite E. rewrite !map_map. rewrite (map_ext _ (fun z => z)) by (intros; apply codeL_runs). rewrite map_id. now apply lines_shows.
      + left. unfold textTB. pstep. rewrite path_end. cbn [map]. unfold run_texts. pread. cbn [map]. rewrite text_leaf. cbn [vals map sconcat fold_right pval]. now rewrite !sapp_nil_r.
    - unfold emptyTB. pstep. rewrite path_end. cbn [map]. unfold run_texts. pread. reflexivity.
  Qed.
  Lemma shape_link_id t id : map (attr "r:id") (at_path ["p:nvSpPr"; "p:cNvPr"; "a:hlinkClick"] (tnode (shapeT t id))) = link_id t.
  Proof.
    unfold shapeT, shapeE. destruct (body_form t) as [bd ->]. rewrite path_step, named_children. cbn [tbody]. rewrite named_list by reflexivity.
    cbn [filter app called tname String.eqb Ascii.eqb Bool.eqb map flat_map]. rewrite app_nil_r.
    unfold cnvT, link_id, nameA. destruct (sh_link t) as [h|]; [destruct (h_rid h) as [r|]|]; try (pread; reflexivity).
    unfold hlinkT. pread. unfold hlinkA. cbn. now rewrite sapp_nil_r.
  Qed.
  Lemma shapes_shown : exists before, length before <= 3 /\ exists user codes, slide_shapes x = (before ++ user ++ codes)%list
    /\ Forall2 shape_shown user (s_shapes s) /\ Forall2 code_shown codes (s_code s).
  Proof.
    exists (map tnode (titles s) ++ map tnode (boxes s))%list. split.
    { rewrite app_length, !map_length. unfold titles, boxes, bodies. destruct (s_layout s); cbv zeta; cbn [length filter]; try lia.
      - destruct (s_table s); [cbn; lia|]. destruct (bullets_of s); cbn; lia.
      - destruct (bullets_of s); cbn; lia.
      - destruct (Nat.ltb 0 _); [|cbn; lia]. destruct (Nat.ltb _ _); cbn; lia. }
    exists (map tnode (shapesI s)), (map tnode (codesI s)). split; [unfold x; rewrite shapes_read; now rewrite <- app_assoc|].
    unfold slide_ok in HS. rewrite !andb_true_iff in HS. destruct HS as [[[[[[[[[[H1 H2] H3] H4] H5] H6] H7] H8] H9] H10] H11]. split.
    - apply (each_forall shape_shown (fun t => shape_ok t = true)); [|now apply Forall_forall, forallb_forall].
      intros k t Ht. unfold shape_ok in Ht. rewrite !andb_true_iff in Ht. destruct Ht as [[[A B] C] D].
      destruct (shape_place t (shape_id_of k t)) as [P G]. split; [intros g Hg; rewrite G, (figure_preset _ _ Hg); reflexivity|]. split; [exact P|]. split; [now apply shape_text|]. split; [apply shape_link_id|apply shape_paint].
    - apply (each_forall code_shown (fun c => text_ok (cb_code c) = true)); [|apply Forall_forall; apply (proj1 (forallb_forall _ _) H11)].
      intros k c Hc. unfold code_shown, placed, codeT, codeE.
      generalize (zdec (cb_x c)), (zdec (cb_y c)), (zdec (cb_w c)), (zdec (cb_h c)). intros a b d e. split.
      + pread. cbn. now rewrite !sapp_nil_r.
      + pread. cbn [map]. rewrite text_leaf. now rewrite codePs_val.
  Qed.

  (** Connectors and charts *)
  Lemma connectors_shown : Forall2 connector_shown (slide_connectors x) (s_connectors s).
  Proof.
    unfold x. rewrite conns_read. unfold slide_ok in HS. rewrite !andb_true_iff in HS. destruct HS as [[[[[[[[[[H1 H2] H3] H4] H5] H6] H7] H8] H9] H10] H11].
    apply (each_forall connector_shown (fun c => conn_ok c = true)); [|now apply Forall_forall, forallb_forall].
    intros k c Hc. unfold conn_ok in Hc. rewrite andb_true_iff in Hc. destruct Hc as [A B].
    set (id := N.of_nat _). assert (B' : label_ok (label c) = true) by (destruct (label c); exact B).
    destruct (connector_reads c id A B') as (y & b & R & P). exists b.
    assert (E : xml_read (generate_connector_xml c id) = Some (tnode (full c id))).
    { rewrite full_str. pose proof (full_tok c id A B') as K. unfold full, connT in *. now apply tpl_read_node. }
    rewrite R in E. injection E as ->. exact P.
  Qed.
  Lemma chart_view c id r : chart_ids (tnode (chartE c id r)) = [r].
  Proof. unfold chart_ids, chartE. pread. cbn. now rewrite sapp_nil_r. Qed.
  Lemma chart_views g : forall l cs k, length l = length cs ->
    flat_map chart_ids (map tnode (eachT (fun i (x : chart * string) => chartE (fst x) (g i) (snd x)) k (combine cs l))) = l.
  Proof.
    induction l as [|r l IH]; intros [|c cs] k H; try discriminate H; [reflexivity|].
    cbn [combine eachT map flat_map fst snd]. rewrite chart_view. cbn [app]. f_equal. apply IH. now injection H.
  Qed.
  Lemma chart_place c id r : frame (tnode (chartE c id r)) = [(dec (cx0 c), dec (cy0 c)); (dec (cw c), dec (ch c))].
  Proof.
    unfold frame, chartE. generalize (dec (cx0 c)), (dec (cy0 c)), (dec (cw c)), (dec (ch c)). intros a b d e. pread. cbn. now rewrite !sapp_nil_r.
  Qed.
  Lemma chart_frames : length rids = length (s_charts s) -> exists before after, slide_frames x = (before ++ after)%list /\ length before <= 1
    /\ Forall2 chart_shown after (combine (s_charts s) rids).
  Proof.
    intros _. exists (map tnode (tframes s)), (map tnode (chartsI s rids)). split; [apply frames_read|]. split.
    { rewrite map_length. unfold tframes, bodies. destruct (s_layout s); cbv zeta; cbn [length filter]; try lia.
      - destruct (s_table s); [cbn; lia|]. destruct (bullets_of s); cbn; lia.
      - destruct (bullets_of s); cbn; lia.
      - destruct (Nat.ltb 0 _); [|cbn; lia]. destruct (Nat.ltb _ _); cbn; lia. }
    unfold chartsI. apply (each_forall chart_shown (fun _ => True)); [|now apply Forall_forall].
    intros k [c r] _. split; [apply chart_view|apply chart_place].
  Qed.
  Lemma charts_shown : length rids = length (s_charts s) -> flat_map chart_ids (slide_frames x) = rids.
  Proof.
    intros HL. unfold x. rewrite frames_read, flat_map_app'.
    assert (T : flat_map chart_ids (map tnode (tframes s)) = []).
    { unfold tframes, bodies. destruct (s_layout s); cbv zeta; try reflexivity.
      - destruct (s_table s) as [t|]; [|destruct (bullets_of s); reflexivity].
        cbn [filter called tname tableT tableE String.eqb Ascii.eqb Bool.eqb map flat_map]. rewrite app_nil_r. unfold chart_ids, tableT, tableE.
        generalize (eachT colT 0 (widths t)), (eachT rowT 0 (rows t)). intros a b. pread. reflexivity.
      - destruct (bullets_of s); reflexivity.
      - destruct (Nat.ltb 0 _); [|reflexivity]. destruct (Nat.ltb _ _); reflexivity. }
    rewrite T. cbn [app]. unfold chartsI. apply chart_views. exact HL.
  Qed.

  (** Ids *)
  Lemma root_get {B} (f : string * list (string * string) -> list B) its t :
    (forall n a, f (n, a) <> [] -> n = "p:cNvPr" \/ exists k, In k (map fst a) /\ starts_with "r:" k = true) ->
    tget f (rootE (nls its) (transT t)) = (f ("p:cNvPr", [("id", "1"); ("name", "")]) ++ tgets f its)%list.
  Proof.
    intros H.
    assert (Q : forall n a, String.eqb n "p:cNvPr" = false -> forallb (fun k => negb (starts_with "r:" k)) (map fst a) = true -> f (n, a) = []).
    { intros n a A B0. destruct (f (n, a)) eqn:E; [reflexivity|]. exfalso. destruct (H n a) as [->|(k & Hk & S)]; [rewrite E; discriminate|discriminate A|].
      rewrite forallb_forall in B0. specialize (B0 k Hk). rewrite S in B0. discriminate. }
    assert (T : tgets f (transT t) = []) by (destruct t; cbn [transT]; tg; rewrite ?Q by reflexivity; reflexivity).
    assert (N : tgets f (nls its) = tgets f its).
    { clear. induction its as [|y l IH]; [reflexivity|]. cbn [nls flat_map app]. fold (nls l). now rewrite !tgets_cons, IH. }
    unfold rootE. tg. rewrite N, T. repeat match goal with |- context [f (?n, ?a)] => rewrite (Q n a) by reflexivity end. cbn [app attrs_val map]. now rewrite !app_nil_r.
  Qed.
  Lemma drawing_named n a : drawing_id (n, a) <> [] -> n = "p:cNvPr" \/ exists k, In k (map fst a) /\ starts_with "r:" k = true.
  Proof. unfold drawing_id. cbn [fst]. destruct (String.eqb_spec n "p:cNvPr"); [now left|]. intros []. reflexivity. Qed.
  Lemma refs_named n a : rel_refs (n, a) <> [] -> n = "p:cNvPr" \/ exists k, In k (map fst a) /\ starts_with "r:" k = true.
  Proof.
    unfold rel_refs, rel_id_attr. cbn [snd]. intros H. right. induction a as [|[k v] a IH]; [now elim H|]. cbn [filter fst] in H.
    destruct (starts_with "r:" k) eqn:E; [exists k; split; [now left|exact E]|]. destruct (IH H) as (j & Hj & Sj). exists j. split; [now right|exact Sj].
  Qed.
  Definition body_ids : list string :=
    match s_layout s with
    | TitleAndContent => match s_table s with Some _ => ["3"] | None => match wanted s with [] => [] | _ => ["3"] end end
    | TitleAndBigContent => match wanted s with [] => [] | _ => ["3"] end
    | TwoColumn => match length (wanted s) with 0 => [] | 1 => ["3"] | _ => ["3"; "4"] end
    | _ => []
    end.
  Lemma paras_quiet p l : forallb quiet (parasT p l) = true.
  Proof. unfold parasT. rewrite quiet_nls. apply quiet_map. apply para_quiet. Qed.
  Lemma layout_ids : tgets drawing_id (titles s) = match s_layout s with Blank => [] | _ => ["2"] end /\ tgets rel_refs (titles s) = []
    /\ tgets drawing_id (bodies s) = body_ids /\ tgets rel_refs (bodies s) = [].
  Proof.
    assert (T : forall a b c d e n m g, tget drawing_id (titleE a b c d e (titleP s n m) g) = ["2"] /\ tget rel_refs (titleE a b c d e (titleP s n m) g) = []).
    { intros. apply title_ids. apply textP_quiet. }
    assert (B : forall id n a b c d p l, tget drawing_id (boxE id n a b c d (parasT p l)) = [id] /\ tget rel_refs (boxE id n a b c d (parasT p l)) = []).
    { intros. apply box_ids. apply paras_quiet. }
    split; [|split; [|split]].
    - unfold titles. destruct (s_layout s); rewrite ?tgets_cons, ?(proj1 (T _ _ _ _ _ _ _ _)); reflexivity.
    - unfold titles. destruct (s_layout s); rewrite ?tgets_cons, ?(proj2 (T _ _ _ _ _ _ _ _)); reflexivity.
    - unfold bodies, body_ids. rewrite wanted_eq. destruct (s_layout s); try reflexivity.
      + destruct (s_table s); [rewrite tgets_cons, (proj1 (table_ids _ _)); reflexivity|]. destruct (wanted s); rewrite ?tgets_cons, ?(proj1 (B _ _ _ _ _ _ _ _)); reflexivity.
      + destruct (wanted s); rewrite ?tgets_cons, ?(proj1 (B _ _ _ _ _ _ _ _)); reflexivity.
      + cbv zeta. destruct (Nat.ltb_spec 0 (length (wanted s))) as [P|P]; [|destruct (length (wanted s)); [reflexivity|lia]].
        rewrite tgets_cons, (proj1 (B _ _ _ _ _ _ _ _)). 
        pose proof (Nat.div_mod (length (wanted s) + 1) 2 ltac:(lia)). pose proof (Nat.mod_upper_bound (length (wanted s) + 1) 2 ltac:(lia)).
        destruct (Nat.ltb_spec (half (wanted s)) (length (wanted s))) as [Q|Q]; unfold half in Q.
        * rewrite tgets_cons, (proj1 (B _ _ _ _ _ _ _ _)). destruct (length (wanted s)) as [|[|n]]; [lia|lia|reflexivity].
        * destruct (length (wanted s)) as [|[|n]]; [lia|reflexivity|lia].
    - unfold bodies. destruct (s_layout s); try reflexivity.
      + destruct (s_table s); [rewrite tgets_cons, (proj2 (table_ids _ _)); reflexivity|]. destruct (bullets_of s); rewrite ?tgets_cons, ?(proj2 (B _ _ _ _ _ _ _ _)); reflexivity.
      + destruct (bullets_of s); rewrite ?tgets_cons, ?(proj2 (B _ _ _ _ _ _ _ _)); reflexivity.
      + cbv zeta. destruct (Nat.ltb 0 _); [|reflexivity]. rewrite tgets_cons, (proj2 (B _ _ _ _ _ _ _ _)).
        destruct (Nat.ltb _ _); [|reflexivity]. rewrite tgets_cons, (proj2 (B _ _ _ _ _ _ _ _)). reflexivity.
  Qed.
  Let ns := length (s_shapes s).
  Let ni := length (s_images s).
  Let nc := length (s_code s).
  Let nx := length (s_connectors s).
  Let nh := length (combine (s_charts s) rids).
  Lemma each_map {A B} (f : string * list (string * string) -> list B) (g : nat -> A -> tpl) (h : nat -> B) : (forall k y, tget f (g k y) = [h k]) ->
    forall l k, tgets f (eachT g k l) = map h (seq k (length l)).
  Proof. intros H. induction l as [|y l IH]; intros k; [reflexivity|]. cbn [eachT length seq map]. now rewrite tgets_cons, H, IH. Qed.
  Lemma each_nil {A B} (f : string * list (string * string) -> list B) (g : nat -> A -> tpl) : (forall k y, tget f (g k y) = []) ->
    forall l k, tgets f (eachT g k l) = [].
  Proof. intros H. induction l as [|y l IH]; intros k; [reflexivity|]. cbn [eachT]. now rewrite tgets_cons, H, IH. Qed.
  Lemma shapes_ids l : forall k, tgets drawing_id (eachT (fun i x => shapeT x (shape_id_of i x)) k l) = map (fun p => dec (shape_id_of (fst p) (snd p))) (combine (seq k (length l)) l)
    /\ tgets rel_refs (eachT (fun i x => shapeT x (shape_id_of i x)) k l) = flat_map link_id l.
  Proof.
    induction l as [|y l IH]; intros k; [split; reflexivity|]. cbn [eachT length seq combine map flat_map fst snd]. rewrite !tgets_cons.
    destruct (shape_ids y (shape_id_of k y)) as [-> ->]. destruct (IH (S k)) as [-> ->]. split; reflexivity.
  Qed.
  Lemma images_ids b r l k : tgets drawing_id (eachT (fun i x => imageT x (N.of_nat (b + i)) (N.of_nat (r + i))) k l) = map (fun i => decn (b + i)) (seq k (length l))
    /\ tgets rel_refs (eachT (fun i x => imageT x (N.of_nat (b + i)) (N.of_nat (r + i))) k l) = map (fun i => "rId" ++ decn (r + i)) (seq k (length l)).
  Proof. split; apply each_map; intros j y; [exact (proj1 (image_ids y _ _))|exact (proj2 (image_ids y _ _))]. Qed.
  Lemma codes_ids b l k : tgets drawing_id (eachT (fun i x => codeT x (N.of_nat (b + i))) k l) = map (fun i => decn (b + i)) (seq k (length l))
    /\ tgets rel_refs (eachT (fun i x => codeT x (N.of_nat (b + i))) k l) = [].
  Proof. split; [apply each_map|apply each_nil]; intros j y; [exact (proj1 (code_ids y _))|exact (proj2 (code_ids y _))]. Qed.
  Lemma conns_ids b l k : tgets drawing_id (eachT (fun i x => full x (N.of_nat (b + i))) k l) = map (fun i => decn (b + i)) (seq k (length l))
    /\ tgets rel_refs (eachT (fun i x => full x (N.of_nat (b + i))) k l) = [].
  Proof. split; [apply each_map|apply each_nil]; intros j y; [exact (proj1 (conn_ids y _))|exact (proj2 (conn_ids y _))]. Qed.
  Lemma charts_ids b l : forall k, tgets drawing_id (eachT (fun i (x : chart * string) => chartE (fst x) (N.of_nat (b + i)) (snd x)) k l) = map (fun i => decn (b + i)) (seq k (length l))
    /\ tgets rel_refs (eachT (fun i (x : chart * string) => chartE (fst x) (N.of_nat (b + i)) (snd x)) k l) = map snd l.
  Proof.
    induction l as [|y l IH]; intros k; [split; reflexivity|]. cbn [eachT length seq map]. rewrite !tgets_cons.
    destruct (chart_ids_ref (fst y) (N.of_nat (b + k)) (snd y)) as [-> ->]. destruct (IH (S k)) as [-> ->]. split; reflexivity.
  Qed.
  Lemma ink_part : tgets drawing_id (inkI s ink) = [] /\ tgets rel_refs (inkI s ink) = match ink with Some r => if s_ink s then [r] else [] | None => [] end.
  Proof.
    unfold inkI. destruct ink as [r|]; [|split; reflexivity]. destruct (s_ink s); [|split; reflexivity]. rewrite !tgets_cons.
    destruct (ink_ids r) as [-> ->]. split; reflexivity.
  Qed.
  Lemma drawing_ids_eq : drawing_ids x =
    ("1" :: match s_layout s with Blank => [] | _ => ["2"] end ++ body_ids
     ++ map (fun p => dec (shape_id_of (fst p) (snd p))) (combine (seq 0 ns) (s_shapes s))
     ++ map (fun i => decn (20 + ns + i)) (seq 0 ni) ++ map (fun i => decn (30 + ns + ni + i)) (seq 0 nc)
     ++ map (fun i => decn (50 + ns + ni + nc + i)) (seq 0 nx) ++ map (fun i => decn (100 + ns + ni + nc + nx + i)) (seq 0 nh))%list.
  Proof.
    unfold drawing_ids, x. rewrite (tget_node drawing_id (slideT s rids ink) _ _ _ eq_refl).
    unfold slideT. rewrite root_get by apply drawing_named. change (drawing_id ("p:cNvPr", [("id", "1"); ("name", "")])) with ["1"].
    cbn [app]. f_equal. unfold items, extras. rewrite !tgets_app. destruct layout_ids as (-> & _ & -> & _).
    unfold shapesI, imagesI, codesI, connsI, chartsI.
    rewrite (proj1 (shapes_ids _ _)), (proj1 (images_ids _ _ _ _)), (proj1 (codes_ids _ _ _)), (proj1 (conns_ids _ _ _)), (proj1 (charts_ids _ _ _)), (proj1 ink_part), app_nil_r.
    reflexivity.
  Qed.
  Lemma rel_ids_eq : length rids = length (s_charts s) -> rel_ids_used x =
    (flat_map link_id (s_shapes s) ++ map (image_rid s) (seq 0 ni) ++ rids ++ match ink with Some r => if s_ink s then [r] else [] | None => [] end)%list.
  Proof.
    intros HL. unfold rel_ids_used, x. rewrite (tget_node rel_refs (slideT s rids ink) _ _ _ eq_refl).
    unfold slideT. rewrite root_get by apply refs_named. change (rel_refs ("p:cNvPr", [("id", "1"); ("name", "")])) with (@nil string).
    cbn [app]. unfold items, extras. rewrite !tgets_app. destruct layout_ids as (_ & -> & _ & ->). cbn [app].
    unfold shapesI, imagesI, codesI, connsI, chartsI.
    rewrite (proj2 (shapes_ids _ _)), (proj2 (images_ids _ _ _ _)), (proj2 (codes_ids _ _ _)), (proj2 (conns_ids _ _ _)), (proj2 (charts_ids _ _ _)), (proj2 ink_part).
    cbn [app]. f_equal. f_equal. f_equal. revert HL. generalize (s_charts s). clear.
    induction rids as [|r l IH]; intros [|c cs] HL; try discriminate; [reflexivity|]. cbn [combine map snd]. f_equal. apply IH. now injection HL.
  Qed.
  (** Without ids chosen by the caller all drawing ids differ. *)
  Definition small_ids : list nat :=
    (1 :: match s_layout s with Blank => [] | _ => [2] end ++ match body_ids with [] => [] | [_] => [3] | _ => [3; 4] end
     ++ map (fun i => 10 + i) (seq 0 ns) ++ map (fun i => 20 + ns + i) (seq 0 ni) ++ map (fun i => 30 + ns + ni + i) (seq 0 nc)
     ++ map (fun i => 50 + ns + ni + nc + i) (seq 0 nx) ++ map (fun i => 100 + ns + ni + nc + nx + i) (seq 0 nh))%list.
  Lemma body_ids_dec : body_ids = map decn match body_ids with [] => [] | [_] => [3] | _ => [3; 4] end.
  Proof.
    unfold body_ids. destruct (s_layout s); try reflexivity.
    - destruct (s_table s); [reflexivity|]. destruct (wanted s); reflexivity.
    - destruct (wanted s); reflexivity.
    - destruct (length (wanted s)) as [|[|n]]; reflexivity.
  Qed.
  Lemma ids_nodup : Forall (fun t => sh_id t = None) (s_shapes s) -> (N.of_nat ns + 10 <= u32_max)%N -> List.NoDup (drawing_ids x).
  Proof.
    intros NI SM.
    assert (E : drawing_ids x = map decn small_ids).
    { rewrite drawing_ids_eq. unfold small_ids. cbn [map]. rewrite !map_app, !map_map. rewrite <- body_ids_dec. f_equal. f_equal; [now destruct (s_layout s)|]. f_equal. f_equal.
      unfold ns. assert (G : forall l k, Forall (fun t => sh_id t = None) l -> (N.of_nat (k + length l) + 10 <= u32_max)%N ->
        map (fun p => dec (shape_id_of (fst p) (snd p))) (combine (seq k (length l)) l) = map (fun i => decn (10 + i)) (seq k (length l))).
      { clear. induction l as [|t l IH]; intros k F B; [reflexivity|]. inversion F as [|? ? H1 H2]; subst. cbn [length seq combine map fst snd] in *.
        rewrite IH by (auto; lia). f_equal. unfold shape_id_of, decn. rewrite H1. f_equal. rewrite N.mod_small by lia. lia. }
      apply G; [exact NI|]. fold ns. exact SM. }
    rewrite E. apply Injective_map_NoDup; [intros a b H; now apply decn_inj|].
    clear E. unfold small_ids.
    assert (S : forall b n, List.NoDup (map (fun i => b + i) (seq 0 n))).
    { intros b n. apply Injective_map_NoDup; [intros p q; lia|apply seq_NoDup]. }
    assert (I : forall b n y, In y (map (fun i => b + i) (seq 0 n)) -> b <= y < b + n).
    { intros b n y H. apply in_map_iff in H. destruct H as (i & <- & H). apply in_seq in H. lia. }
    assert (AP : forall (l1 l2 : list nat) m, List.NoDup l1 -> List.NoDup l2 -> (forall y, In y l1 -> y < m) -> (forall y, In y l2 -> m <= y) -> List.NoDup (l1 ++ l2)).
    { clear. induction l1 as [|a l1 IH]; intros l2 m A B C D; [exact B|]. inversion A; subst. cbn [app]. constructor.
      - rewrite in_app_iff. intros [Q|Q]; [contradiction|]. specialize (C a (or_introl eq_refl)). specialize (D a Q). lia.
      - apply (IH l2 m); auto. intros; apply C; now right. }
    assert (U : forall b n (r : list nat) m, m <= b -> (forall y, In y r -> m <= y) -> forall y, In y (map (fun i => b + i) (seq 0 n) ++ r) -> m <= y).
    { intros b n r m Hm Hr y Hy. apply in_app_iff in Hy. destruct Hy as [Hy|Hy]; [apply I in Hy; lia|auto]. }
    change (1 :: ?l)%list with ([1] ++ l)%list.
    apply (AP _ _ 2). { repeat constructor; intros []. } 2:{ intros y [<-|[]]; lia. }
    2:{ intros y Hy. apply in_app_iff in Hy. destruct Hy as [Hy|Hy]; [destruct (s_layout s); cbn [In] in Hy; lia|]. apply in_app_iff in Hy.
        destruct Hy as [Hy|Hy]; [destruct body_ids as [|? [|? ?]]; cbn [In] in Hy; lia|]. revert y Hy. repeat (apply U; [lia|]). intros y Hy. apply I in Hy. lia. }
    apply (AP _ _ 3). { destruct (s_layout s); repeat constructor; intros []. } 2:{ destruct (s_layout s); intros y Hy; cbn [In] in Hy; lia. }
    2:{ intros y Hy. apply in_app_iff in Hy. destruct Hy as [Hy|Hy]; [destruct body_ids as [|? [|? ?]]; cbn [In] in Hy; lia|]. revert y Hy. repeat (apply U; [lia|]). intros y Hy. apply I in Hy. lia. }
    apply (AP _ _ 10). { destruct body_ids as [|? [|? ?]]; repeat constructor; cbn [In]; lia. } 2:{ destruct body_ids as [|? [|? ?]]; intros y Hy; cbn [In] in Hy; lia. }
    2:{ repeat (apply U; [lia|]). intros y Hy. apply I in Hy. lia. }
    apply (AP _ _ (20 + ns)). { apply S. } 2:{ intros y Hy. apply I in Hy. lia. } 2:{ repeat (apply U; [lia|]). intros y Hy. apply I in Hy. lia. }
    apply (AP _ _ (30 + ns + ni)). { apply S. } 2:{ intros y Hy. apply I in Hy. lia. } 2:{ repeat (apply U; [lia|]). intros y Hy. apply I in Hy. lia. }
    apply (AP _ _ (50 + ns + ni + nc)). { apply S. } 2:{ intros y Hy. apply I in Hy. lia. } 2:{ repeat (apply U; [lia|]). intros y Hy. apply I in Hy. lia. }
    apply (AP _ _ (100 + ns + ni + nc + nx)). { apply S. } 2:{ intros y Hy. apply I in Hy. lia. } 2:{ intros y Hy. apply I in Hy. lia. }
    apply S.
  Qed.
End SLIDE.
