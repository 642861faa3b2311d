(** Proofs about the HTML importer that hold for every text. *)
From Coq Require Import String Ascii List Bool Arith NArith ZArith Lia.
From Verif Require Import Str Num ColorModel TableModel ConnectorModel ShapeModel SlideModel ValidSpec ValidProofs MdParseModel MdParseProofs HtmlInModel HtmlInSpec.
Import ListNotations.
Open Scope nat_scope.
Open Scope string_scope.

Section P.
Context (trim lower upper : string -> string) (alnum : string -> bool) (font_size : string -> option N) (load_image : string -> option image).
Notation attributes := (attributes lower).
Notation tokens := (tokens trim lower alnum).
Notation tokenize := (tokenize trim lower alnum).

(** ** The reader of tags always ends *)
Lemma span_length p l : length (snd (span p l)) <= length l.
Proof. induction l as [|c l IH]; [cbn; lia|]. cbn [span]. destruct (p c); [|cbn; lia]. destruct (span p l). cbn in *. lia. Qed.
Lemma span_shorter p c l : p c = true -> length (snd (span p (c :: l))) <= length l.
Proof. intros P. cbn [span]. rewrite P. assert (H := span_length p l). destruct (span p l). exact H. Qed.
Lemma attributes_end fuel : forall l, length l < fuel -> exists attrs l', attributes fuel l = Some (attrs, l') /\ length l' <= length l.
Proof.
  induction fuel as [|f IH]; intros l L; [lia|]. cbn [HtmlInModel.attributes]. destruct l as [|c l]; [eexists _, _; split; [reflexivity|cbn; lia]|].
  destruct (is ">" c); [eexists _, _; split; [reflexivity|cbn; lia]|].
  assert (LB := span_length blank (c :: l)). destruct (snd (span blank (c :: l))) as [|d r]; [eexists _, _; split; [reflexivity|cbn; lia]|].
  destruct (is ">" d) eqn:GT; [eexists _, _; split; [reflexivity|cbn in *; lia]|].
  destruct (is "/" d) eqn:SL.
  - destruct (IH r) as (attrs & l' & E & L'); [cbn in *; lia|]. exists attrs, l'. split; [exact E|cbn in *; lia].
  - set (p := fun c => negb (is "=" c || is ">" c || blank c || is "/" c)). destruct (span p (d :: r)) as [n l1] eqn:SP.
    assert (L1 : length l1 <= length (d :: r)) by (change l1 with (snd (n, l1)); rewrite <- SP; apply span_length).
    assert (L2 := span_length blank l1). set (l2 := snd (span blank l1)) in *.
    assert (PR : length l2 <= length r \/ (exists r2, l2 = "=" :: r2 /\ length r2 <= length r)).
    { destruct (p d) eqn:PD.
      - left. assert (H := span_shorter p d r PD). rewrite SP in H. cbn in H. lia.
      - assert (E : l1 = d :: r) by (cbn [span] in SP; rewrite PD in SP; congruence). unfold p in PD. rewrite GT, SL, !orb_false_r in PD. apply negb_false_iff in PD.
        destruct (is "=" d) eqn:EQ.
        + right. exists r. unfold l2. rewrite E. cbn [span]. unfold is in EQ. apply String.eqb_eq in EQ. subst d. cbn. auto.
        + left. rewrite orb_false_l in PD. unfold l2. rewrite E. exact (span_shorter blank d r PD). }
    set (vl := match l2 with c0 :: r0 => _ | [] => _ end).
    assert (LV : length (snd vl) <= length r).
    { unfold vl. destruct l2 as [|c0 r0]; [cbn; lia|]. destruct (is "=" c0) eqn:EQ.
      - assert (R0 : length r0 <= length r) by (destruct PR as [PR|(r2 & E & PR)]; [cbn in PR; lia|inversion E; subst; exact PR]).
        assert (L3 := span_length blank r0). destruct (snd (span blank r0)) as [|q r2]; [cbn; lia|]. destruct (is """" q || is "'" q).
        + assert (L4 := span_length (fun c => negb (String.eqb c q)) r2). destruct (span _ r2) as [v l4]. cbn in *. destruct l4; cbn in *; lia.
        + assert (L4 := span_length (fun c => negb (is ">" c || blank c || is "/" c)) (q :: r2)). destruct (span _ (q :: r2)) as [v l4]. cbn in *. lia.
      - destruct PR as [PR|(r2 & E & PR)]; [exact PR|]. inversion E; subst. discriminate. }
    destruct vl as [v l3]. cbn [snd] in LV. destruct (IH l3) as (attrs & l' & E & L'); [cbn in *; lia|]. rewrite E. eexists _, _. split; [reflexivity|]. cbn in *. lia.
Qed.
Lemma tail_length l : length (tail l) <= length l - 1.
Proof. destruct l; cbn; lia. Qed.
Lemma comment_length l : length (skip_comment l) <= length l.
Proof.
  remember (length l) as n eqn:E. revert l E. induction n as [n IH] using lt_wf_ind. intros l ->. destruct l as [|a [|b [|c r]]]; try (cbn; lia).
  cbn [skip_comment]. destruct (_ && _); [cbn; lia|]. specialize (IH (length (b :: c :: r)) ltac:(cbn; lia) _ eq_refl). cbn in *. lia.
Qed.
Lemma tokens_end fuel : forall l, length l < fuel -> tokens fuel l <> None.
Proof.
  induction fuel as [|f IH]; intros l L; [lia|]. cbn [HtmlInModel.tokens]. destruct l as [|c r]; [discriminate|]. cbn [length] in L. destruct (is "<" c) eqn:LT.
  - destruct r as [|b r2]; [discriminate|]. cbn [length] in L. destruct (is "!" b && _).
    + apply IH. assert (H := comment_length (tail (tail r2))). assert (H1 := tail_length (tail r2)). assert (H2 := tail_length r2). lia.
    + destruct (is "!" b).
      * apply IH. assert (H := tail_length (snd (span (fun c => negb (is ">" c)) (b :: r2)))). assert (H1 := span_length (fun c => negb (is ">" c)) (b :: r2)). cbn in *. lia.
      * destruct (is "/" b).
        -- assert (H1 := span_length blank r2). assert (H2 := span_length (fun c => negb (is ">" c)) (snd (span blank r2))). destruct (span _ (snd (span blank r2))) as [n l]. cbn [snd] in H2.
           assert (H3 := tail_length l). specialize (IH (tail l) ltac:(lia)). destruct (tokens f (tail l)); [discriminate|congruence].
        -- assert (H1 := span_length blank (b :: r2)). assert (H2 := span_length (name_char alnum) (snd (span blank (b :: r2)))). destruct (span (name_char alnum) _) as [n l]. cbn [snd length] in H1, H2.
           destruct (attributes_end (S (length l)) l ltac:(lia)) as (attrs & l' & -> & L'). assert (H3 := tail_length l'). specialize (IH (tail l') ltac:(lia)). destruct (tokens f (tail l')); [discriminate|congruence].
  - assert (H := span_shorter (fun c => negb (is "<" c)) c r ltac:(cbv beta; now rewrite LT)). destruct (span _ (c :: r)) as [t l]. cbn [snd] in H. specialize (IH l ltac:(lia)). destruct (tokens f l); [discriminate|congruence].
Qed.
Theorem tokenize_ends l : tokenize l <> None.
Proof. apply tokens_end. lia. Qed.

(** ** Every stream of events *)
Variable options : html_in.
Notation tag_step := (tag_step trim lower upper font_size load_image options).
Notation tag_steps := (tag_steps trim lower upper font_size load_image options).
Notation parse_events := (parse_events trim lower upper font_size load_image options).
Notation open_tag := (open_tag trim lower upper font_size load_image options).
Notation close_tag := (close_tag trim lower upper options).
Notation h_paragraph := (h_paragraph lower upper trim options).
Lemma bind_ret {A B} (x : outcome A) (f : A -> outcome B) b : bind x f = Ret b -> exists a, x = Ret a /\ f a = Ret b.
Proof. destruct x; [eauto|discriminate]. Qed.
Lemma steps_app l1 : forall s l2, tag_steps s (l1 ++ l2) = bind (tag_steps s l1) (fun s => tag_steps s l2).
Proof. induction l1 as [|e l IH]; intros s l2; [reflexivity|]. cbn [app HtmlInModel.tag_steps]. destruct (tag_step s e); [apply IH|reflexivity]. Qed.
(** An invariant of the current slide and the finished ones. *)
Section Inv.
Variable good : slide -> Prop.
Definition all_good (s : hstate) : Prop := Forall good (hslides s) /\ (forall sl, hcur s = Some sl -> good sl).
Hypothesis good_new : forall t, good (slide_new t).
Hypothesis good_first : forall t f u, good (add_line u f (slide_new t)).
Hypothesis good_styled : forall t y, good (styled_slide trim lower upper t y).
Hypothesis good_more : forall t f sl, good sl -> limited options sl = true -> good (add_line t f sl).
Hypothesis good_sub : forall t f sl, good sl -> good (add_line ("**" ++ t ++ "**") f sl).
Hypothesis good_same : forall sl sl', s_content sl' = s_content sl -> good sl -> good sl'.
Lemma same_good s s' : hslides s' = hslides s -> hcur s' = hcur s -> all_good s -> all_good s'.
Proof. unfold all_good. now intros -> ->. Qed.
Lemma paragraph_good t s : all_good s -> all_good (HtmlInModel.h_paragraph trim lower upper options t s).
Proof.
  intros [A B]. unfold HtmlInModel.h_paragraph. destruct (hcur s) as [sl|] eqn:C.
  - destruct (limited options sl) eqn:L; [|split; [exact A|rewrite C; exact B]]. split; [exact A|]. cbn. intros x E. injection E as <-. auto.
  - split; [exact A|]. cbn. intros x E. injection E as <-. apply good_first.
Qed.
Lemma buf_good s : all_good s -> all_good (flush_buf trim lower upper options s).
Proof.
  intros G. unfold flush_buf. assert (G2 : all_good (with_buf "" s)) by (apply (same_good s); auto). destruct (String.eqb (trim (buf s)) ""); [exact G2|]. now apply paragraph_good.
Qed.
Lemma items_good s : all_good s -> all_good (flush_items options s).
Proof.
  intros [A B]. unfold flush_items. destruct (hitems s) as [|i l]; [now split|]. split; [exact A|]. cbn [hcur with_cur with_items]. intros x E. injection E as <-.
  assert (F : forall l sl, good sl -> good (fold_left (fun sl '(t, f) => if limited options sl then add_line t f sl else sl) l sl)).
  { clear - good_more. induction l as [|[t f] l IH]; intros sl G; [exact G|]. cbn [fold_left]. apply IH. destruct (limited options sl) eqn:L; auto. }
  apply (F (i :: l)). destruct (hcur s) as [sl|] eqn:C; [now apply B|apply good_new].
Qed.
Lemma finalize_good s : all_good s -> all_good (h_finalize trim lower upper options s).
Proof.
  intros G. unfold h_finalize. assert (G2 := items_good _ (buf_good _ G)). set (s1 := flush_items options _) in *. destruct (hcur s1) as [sl|] eqn:C; [|exact G2].
  destruct G2 as [A B]. split; cbn; [|discriminate]. apply Forall_app. auto.
Qed.
Lemma on_cur_good t f s : (forall sl, s_content (f sl) = s_content sl) -> all_good s -> all_good (on_cur t f s).
Proof.
  intros F [A B]. split; [exact A|]. cbn. intros x E. injection E as <-. apply (good_same _ _ (F _)). destruct (hcur s) as [sl|] eqn:C; [now apply B|apply good_new].
Qed.
Lemma open_good n attrs s s' : open_tag n attrs s = Ret s' -> all_good s -> all_good s'.
Proof.
  intros H G. unfold HtmlInModel.open_tag in H. destruct (skipping s); [injection H as <-; exact G|]. apply bind_ret in H as (s1 & P & H). injection H as <-.
  assert (G1 : all_good s1).
  { unfold push_style in P. destruct (among VOID_TAGS n); [injection P as <-; exact G|]. destruct (assoc "style" attrs) as [v|]; [apply bind_ret in P as (y & _ & P)|]; injection P as <-; now apply (same_good s). }
  repeat match goal with |- all_good (if ?b then _ else _) => destruct b end; try (apply (same_good s1); [reflexivity|reflexivity|exact G1]).
  - now apply finalize_good, buf_good.
  - now apply buf_good.
  - destruct (load_image _); [now apply on_cur_good|now apply paragraph_good].
  - now apply finalize_good, buf_good.
Qed.
Lemma close_good n s s' : close_tag n s = Ret s' -> all_good s -> all_good s'.
Proof.
  intros H G. unfold HtmlInModel.close_tag in H. destruct (skipping s); [injection H as <-; exact G|]. apply bind_ret in H as (s1 & P & H). injection H as <-.
  assert (G1 : all_good s1).
  { assert (GB : all_good (with_buf "" s)) by (now apply (same_good s)).
    repeat match type of P with (if ?b then _ else _) = _ => destruct b end.
    - injection P as <-. match goal with |- all_good (with_cur (Some (styled_slide _ _ _ _ (active ?x))) _) => set (s2 := x) end. assert (S2 : hslides s2 = hslides s) by (unfold s2; destruct (ptitle s); [reflexivity|]; now destruct (String.eqb _ "")).
      destruct G as [A B]. split; cbn [hslides hcur with_cur]; [now rewrite S2|]. intros x E. injection E as <-. apply good_styled.
    - injection P as <-. destruct (String.eqb (trim (buf s)) ""); [exact GB|]. destruct GB as [A B]. split; [exact A|]. cbn. intros x E. injection E as <-. apply good_sub. destruct (hcur s) as [sl|] eqn:C; [apply B; exact C|apply good_new].
    - injection P as <-. destruct (String.eqb (trim (buf s)) ""); [exact GB|]. now apply paragraph_good.
    - injection P as <-. destruct (String.eqb (trim (buf s)) ""); [exact GB|]. now apply (same_good s).
    - injection P as <-. now apply items_good.
    - injection P as <-. unfold h_flush_code. destruct (_ || _); [now apply (same_good s)|]. apply on_cur_good; [reflexivity|]. now apply (same_good s).
    - unfold h_flush_table in P. destruct (negb _); [injection P as <-; now apply (same_good s)|]. destruct (hrows _) as [|r rs] eqn:R; [injection P as <-; now apply (same_good s)|]. apply bind_ret in P as (t & _ & P). injection P as <-.
      apply on_cur_good; [reflexivity|]. now apply (same_good s).
    - injection P as <-. unfold h_flush_quote. destruct (String.eqb _ ""); [now apply (same_good s)|]. destruct G as [A B]. split; [exact A|]. cbn. intros x E. destruct (hcur s) as [sl|] eqn:C; [|discriminate]. injection E as <-. apply (good_same sl); [reflexivity|]. now apply B.
    - injection P as <-. now apply (same_good s).
    - injection P as <-. destruct (hrow s); now apply (same_good s).
    - injection P as <-. now apply (same_good s).
    - injection P as <-. now apply (same_good s).
    - injection P as <-. exact G. }
  unfold pop_style. destruct (among VOID_TAGS n); [exact G1|]. now apply (same_good s1).
Qed.
Lemma step_good e s s' : tag_step s e = Ret s' -> all_good s -> all_good s'.
Proof.
  intros H G. destruct e as [n attrs|n|t]; cbn [HtmlInModel.tag_step] in H.
  - apply (open_good _ _ _ _ H). now apply (same_good s).
  - apply bind_ret in H as (s1 & C & H). injection H as <-. apply (same_good s1); [reflexivity|reflexivity|]. exact (close_good _ _ _ C G).
  - injection H as <-. unfold chars_in. destruct (skipping s), (coding s), (tabling s), (quoting s); now apply (same_good s).
Qed.
Lemma steps_good l : forall s s', tag_steps s l = Ret s' -> all_good s -> all_good s'.
Proof.
  induction l as [|e l IH]; intros s s' H G; cbn [HtmlInModel.tag_steps] in H; [injection H as <-; exact G|]. apply bind_ret in H as (s1 & E & H). apply (IH _ _ H). exact (step_good _ _ _ E G).
Qed.
Lemma parse_good l out : parse_events l = Ret (Some out) -> Forall good out.
Proof.
  intros H. unfold HtmlInModel.parse_events in H. apply bind_ret in H as (s & E & H).
  assert (G : all_good (h_finalize trim lower upper options s)) by (apply finalize_good, (steps_good l hstate0); [exact E|split; [constructor|discriminate]]).
  destruct G as [G _]. destruct (hslides (h_finalize trim lower upper options s)) as [|x xs]; [discriminate|]. assert (out = firstn (max_slides options) (x :: xs)) by congruence. subst. apply Forall_forall. intros y Y. rewrite Forall_forall in G. apply G.
  rewrite <- (firstn_skipn (max_slides options) (x :: xs)). apply in_or_app. now left.
Qed.
End Inv.
Lemma parse_limit l out : parse_events l = Ret (Some out) -> length out <= max_slides options.
Proof.
  intros H. unfold HtmlInModel.parse_events in H. apply bind_ret in H as (s & E & H). destruct (hslides _) as [|x xs]; [discriminate|]. assert (out = firstn (max_slides options) (x :: xs)) by congruence. subst. rewrite firstn_length. lia.
Qed.
(** Beyond the limit there are only sub-headings. *)
Lemma line_limit l out : parse_events l = Ret (Some out) -> Forall (fun sl => forall i t, nth_error (s_content sl) i = Some t -> Nat.max 1 (max_bullets options) <= i -> exists u, t = "**" ++ u ++ "**") out.
Proof.
  apply parse_good.
  - intros t i u H. destruct i; discriminate.
  - intros t f u i v H L. destruct i as [|i]; [lia|]. cbn in H. destruct i; discriminate.
  - intros t y i v H. destruct y; destruct i; discriminate.
  - intros t f sl G L i u H M. cbn [s_content add_line] in H. unfold limited in L. apply Nat.ltb_lt in L.
    destruct (lt_dec i (length (s_content sl))) as [I|I]; [rewrite nth_error_app1 in H by exact I; exact (G i u H M)|].
    rewrite nth_error_app2 in H by lia. destruct (i - length (s_content sl)) as [|k] eqn:K; [lia|]. destruct k; discriminate.
  - intros t f sl G i u H M. cbn [s_content add_line] in H. destruct (lt_dec i (length (s_content sl))) as [I|I]; [rewrite nth_error_app1 in H by exact I; exact (G i u H M)|].
    rewrite nth_error_app2 in H by lia. destruct (i - length (s_content sl)) as [|k]; [injection H as <-; now exists t|destruct k; discriminate].
  - intros sl sl' E G i t H M. rewrite E in H. exact (G i t H M).
Qed.
End P.
