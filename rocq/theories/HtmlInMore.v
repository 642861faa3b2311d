(** More that holds for every stream of HTML events. *)
From Coq Require Import String Ascii List Bool Arith NArith ZArith Lia.
From Verif Require Import Str Num ColorModel TableModel ConnectorModel ShapeModel SlideModel ValidSpec ValidProofs MdParseModel MdParseProofs HtmlInModel HtmlInSpec HtmlInProofs.
Import ListNotations.
Open Scope nat_scope.
Open Scope string_scope.

Section P.
Context (trim lower upper : string -> string) (font_size : string -> option N) (load_image : string -> option image).
Variable options : html_in.
Notation tag_step := (tag_step trim lower upper font_size load_image options).
Notation tag_steps := (tag_steps trim lower upper font_size load_image options).
Notation parse_events := (parse_events trim lower upper font_size load_image options).
Notation open_tag := (open_tag trim lower upper font_size load_image options).
Notation close_tag := (close_tag trim lower upper options).
Notation h_paragraph := (h_paragraph lower trim upper options).
Notation h_finalize := (h_finalize trim lower upper options).
Notation flush_buf := (flush_buf trim lower upper options).
Notation flush_items := (flush_items options).

(** ** Finished slides stay *)
Lemma par_slides t s : hslides (HtmlInModel.h_paragraph trim lower upper options t s) = hslides s.
Proof. unfold HtmlInModel.h_paragraph. destruct (hcur s) as [sl|]; [destruct (limited options sl)|]; reflexivity. Qed.
Lemma buf_slides s : hslides (flush_buf s) = hslides s.
Proof. unfold HtmlInModel.flush_buf. destruct (String.eqb _ ""); [reflexivity|]. now rewrite par_slides. Qed.
Lemma items_slides s : hslides (flush_items s) = hslides s.
Proof. unfold HtmlInModel.flush_items. destruct (hitems s); reflexivity. Qed.
Lemma fin_slides s : exists l, hslides (h_finalize s) = (hslides s ++ l)%list /\ length l <= 1.
Proof.
  unfold HtmlInModel.h_finalize. assert (E : hslides (flush_items (flush_buf s)) = hslides s) by now rewrite items_slides, buf_slides. destruct (hcur (flush_items (flush_buf s))) as [sl|].
  - exists [sl]. cbn [hslides with_cur with_slides]. rewrite E. split; [reflexivity|cbn; lia].
  - exists []. rewrite app_nil_r. split; [exact E|cbn; lia].
Qed.
Lemma step_slides s e s' : tag_step s e = Ret s' -> exists l, hslides s' = (hslides s ++ l)%list.
Proof.
  assert (K : forall s2, hslides s2 = hslides s -> exists l, hslides s2 = (hslides s ++ l)%list) by (intros s2 ->; exists []; now rewrite app_nil_r).
  destruct e as [n attrs|n|t]; cbn [HtmlInModel.tag_step]; intros H.
  - unfold HtmlInModel.open_tag in H. set (s0 := with_tags (n :: tags s) s) in *. change (hslides s) with (hslides s0) in *. clearbody s0. clear s. rename s0 into s. destruct (skipping s); [injection H as <-; now apply K|]. apply bind_ret in H as (s1 & P & H). injection H as <-.
    assert (S1 : hslides s1 = hslides s). { unfold push_style in P. destruct (among VOID_TAGS n); [injection P as <-; reflexivity|]. destruct (assoc "style" attrs) as [v|]; [apply bind_ret in P as (y & _ & P)|]; injection P as <-; reflexivity. }
    assert (F : exists l, hslides (h_finalize (flush_buf s1)) = (hslides s ++ l)%list). { destruct (fin_slides (flush_buf s1)) as (l & -> & _). rewrite buf_slides, S1. eauto. }
    repeat match goal with |- exists l, hslides (if ?b then _ else _) = _ => destruct b end; try exact F; try (apply K; exact S1).
    + apply K. now rewrite buf_slides.
    + destruct (load_image _); apply K; [exact S1|now rewrite par_slides].
  - apply bind_ret in H as (s2 & C & H). injection H as <-. cbn [hslides with_tags]. unfold HtmlInModel.close_tag in C. destruct (skipping s); [injection C as <-; now apply K|]. apply bind_ret in C as (s1 & P & C). injection C as <-.
    assert (S1 : hslides s1 = hslides s).
    { repeat match type of P with (if ?b then _ else _) = _ => destruct b end; try (injection P as <-).
      - change (ptitle (with_buf "" s)) with (ptitle s). destruct (ptitle s); [reflexivity|]. destruct (String.eqb _ ""); reflexivity.
      - now destruct (String.eqb _ "").
      - destruct (String.eqb _ ""); [reflexivity|]. now rewrite par_slides.
      - now destruct (String.eqb _ "").
      - apply items_slides.
      - unfold h_flush_code. now destruct (_ || _).
      - unfold h_flush_table in P. destruct (negb _); [injection P as <-; reflexivity|]. destruct (hrows _); [injection P as <-; reflexivity|]. apply bind_ret in P as (t & _ & P). injection P as <-. reflexivity.
      - unfold h_flush_quote. now destruct (String.eqb _ "").
      - reflexivity.
      - now destruct (hrow s).
      - reflexivity.
      - reflexivity.
      - reflexivity. }
    apply K. rewrite <- S1. unfold pop_style. now destruct (among VOID_TAGS n).
  - injection H as <-. apply K. unfold chars_in. now destruct (skipping s), (coding s), (tabling s), (quoting s).
Qed.
Lemma steps_slides l : forall s s', tag_steps s l = Ret s' -> exists more, hslides s' = (hslides s ++ more)%list.
Proof.
  induction l as [|e l IH]; intros s s' H; cbn [HtmlInModel.tag_steps] in H.
  - injection H as <-. exists []. now rewrite app_nil_r.
  - apply bind_ret in H as (s1 & E & H). destruct (step_slides _ _ _ E) as (a & A). destruct (IH _ _ H) as (b & B). exists (a ++ b)%list. now rewrite B, A, app_assoc.
Qed.
Lemma parse_prefix l1 l2 a b out : parse_events l1 = Ret (Some (a ++ [b])%list) -> parse_events (l1 ++ l2) = Ret (Some out) -> exists more, out = (a ++ more)%list.
Proof.
  unfold HtmlInModel.parse_events. intros H1 H2. apply bind_ret in H1 as (s & E1 & H1), H2 as (s2 & E2 & H2).
  rewrite steps_app in E2. rewrite E1 in E2. cbn [bind] in E2. destruct (steps_slides _ _ _ E2) as (m & M). destruct (fin_slides s) as (x & X & LX). destruct (fin_slides s2) as (y & Y & _).
  assert (H1' : firstn (max_slides options) (hslides (h_finalize s)) = (a ++ [b])%list) by (destruct (hslides (h_finalize s)); congruence).
  assert (H2' : firstn (max_slides options) (hslides (h_finalize s2)) = out) by (destruct (hslides (h_finalize s2)); congruence). subst out.
  rewrite X in H1'. rewrite Y, M, <- app_assoc. set (k := max_slides options) in *.
  assert (LA : length a < k). { assert (L := firstn_le_length k (hslides s ++ x)). assert (L2 := firstn_length k (hslides s ++ x)%list). rewrite H1', app_length in L2. cbn in L2. lia. }
  assert (LS : length a <= length (hslides s)). { assert (L2 := firstn_length k (hslides s ++ x)%list). rewrite H1', !app_length in L2. cbn in L2. lia. }
  assert (PA : a = firstn (length a) (hslides s)).
  { assert (E : firstn (length a) (firstn k (hslides s ++ x)) = a) by (rewrite H1', firstn_app, Nat.sub_diag; cbn; now rewrite firstn_all, app_nil_r).
    rewrite firstn_firstn, Nat.min_l in E by lia. rewrite firstn_app in E. replace (length a - length (hslides s)) with 0 in E by lia. cbn in E. now rewrite app_nil_r in E. }
  assert (SP : hslides s = (a ++ skipn (length a) (hslides s))%list) by (rewrite PA at 1; now rewrite firstn_skipn).
  rewrite SP, <- app_assoc, firstn_app. rewrite (firstn_all2 (n := k) a) by lia. eauto.
Qed.
(** ** No panic *)
Definition hbounded (n : nat) (s : hstate) : Prop := length (hrow s) <= n /\ Forall (fun r => r <> [] /\ length r <= n) (hrows s).
Lemma hb_more n s : hbounded n s -> hbounded (S n) s.
Proof. intros [A B]. split; [lia|]. eapply Forall_impl; [|exact B]. intros r [? ?]. split; [assumption|lia]. Qed.
Lemma hb_same n s s' : hrow s' = hrow s -> hrows s' = hrows s -> hbounded n s -> hbounded n s'.
Proof. unfold hbounded. now intros -> ->. Qed.
Lemma par_same t s : hrow (HtmlInModel.h_paragraph trim lower upper options t s) = hrow s /\ hrows (HtmlInModel.h_paragraph trim lower upper options t s) = hrows s.
Proof. unfold HtmlInModel.h_paragraph. destruct (hcur s) as [sl|]; [destruct (limited options sl)|]; now split. Qed.
Lemma buf_same s : hrow (flush_buf s) = hrow s /\ hrows (flush_buf s) = hrows s.
Proof. unfold HtmlInModel.flush_buf. destruct (String.eqb _ ""); [now split|]. exact (par_same _ (with_buf "" s)). Qed.
Lemma items_same s : hrow (flush_items s) = hrow s /\ hrows (flush_items s) = hrows s.
Proof. unfold HtmlInModel.flush_items. destruct (hitems s); now split. Qed.
Lemma fin_same s : hrow (h_finalize s) = hrow s /\ hrows (h_finalize s) = hrows s.
Proof. unfold HtmlInModel.h_finalize. destruct (items_same (flush_buf s)) as [A B], (buf_same s) as [C D]. destruct (hcur _); cbn [hrow hrows with_cur with_slides]; rewrite A, B, C, D; auto. Qed.
Lemma step_bounded n s e : (N.of_nat n <= u32_max)%N ->
  (match e with Open _ attrs => forall v, assoc "style" attrs = Some v -> style_parse trim lower upper font_size v <> Panic | _ => True end) ->
  hbounded n s -> exists s', tag_step s e = Ret s' /\ hbounded (S n) s'.
Proof.
  intros L O B. apply hb_more in B as B2. destruct e as [m attrs|m|t]; cbn [HtmlInModel.tag_step].
  - unfold HtmlInModel.open_tag. set (s0 := with_tags (m :: tags s) s). assert (B0 : hbounded (S n) s0) by (now apply (hb_same _ s)). clearbody s0. clear B B2 s. destruct (skipping s0); [eauto|].
    assert (P : exists s1, push_style trim lower upper font_size m attrs s0 = Ret s1 /\ hbounded (S n) s1).
    { unfold push_style. destruct (among VOID_TAGS m); [eauto|]. destruct (assoc "style" attrs) as [v|].
      - specialize (O v eq_refl). destruct (style_parse trim lower upper font_size v) as [y|]; [|congruence]. eexists. split; [reflexivity|]. now apply (hb_same _ s0).
      - eexists. split; [reflexivity|]. now apply (hb_same _ s0). }
    destruct P as (s1 & -> & B1). cbn [bind]. eexists. split; [reflexivity|].
    assert (F : hbounded (S n) (h_finalize (flush_buf s1))). { destruct (fin_same (flush_buf s1)) as [E1 E2], (buf_same s1) as [E3 E4]. apply (hb_same _ s1); congruence. }
    repeat match goal with |- hbounded _ (if ?b then _ else _) => destruct b end; try exact F; try exact B1; try (apply (hb_same _ s1); [reflexivity|reflexivity|exact B1]).
    + destruct (buf_same s1). apply (hb_same _ s1); assumption.
    + destruct B1 as [B1 _]. split; [exact B1|constructor].
    + destruct (load_image _); [now apply (hb_same _ s1)|]. destruct (par_same ("[Image: " ++ (if String.eqb (attr "alt" attrs) "" then attr "src" attrs else attr "alt" attrs) ++ "]") s1). now apply (hb_same _ s1).
  - assert (C : exists s1, close_tag m s = Ret s1 /\ hbounded (S n) s1).
    { unfold HtmlInModel.close_tag. destruct (skipping s); [eauto|].
      match goal with |- exists s1, bind ?x _ = _ /\ _ => assert (X : exists s1, x = Ret s1 /\ hbounded (S n) s1) end.
      { repeat match goal with |- exists s1, (if ?b then _ else _) = _ /\ _ => destruct b end; try (eexists; split; [reflexivity|]).
        - match goal with |- hbounded _ (with_cur _ ?x) => apply (hb_same _ x); [reflexivity|reflexivity|] end. change (ptitle (with_buf "" s)) with (ptitle s). destruct (ptitle s); [|destruct (String.eqb _ "")]; now apply (hb_same _ s).
        - destruct (String.eqb _ ""); now apply (hb_same _ s).
        - destruct (String.eqb _ ""); [now apply (hb_same _ s)|]. destruct (par_same (trim (buf s)) (with_buf "" s)). now apply (hb_same _ s).
        - destruct (String.eqb _ ""); now apply (hb_same _ s).
        - destruct (items_same s). now apply (hb_same _ s).
        - unfold h_flush_code. destruct (_ || _); now apply (hb_same _ s).
        - unfold h_flush_table. destruct (negb _); [eexists; split; [reflexivity|]; now apply (hb_same _ s)|]. cbn [hrows with_modes]. destruct (hrows s) as [|r rs] eqn:R; [eexists; split; [reflexivity|]; now apply (hb_same _ s)|].
          assert (T : table_from_string_rows (r :: rs) true <> Panic). { apply table_made; [discriminate|]. intros x X. destruct B as [_ B]. rewrite R, Forall_forall in B. destruct (B x X). split; [assumption|lia]. }
          destruct (table_from_string_rows (r :: rs) true); [|congruence]. eexists. split; [reflexivity|]. destruct B2 as [B2 _]. split; [exact B2|constructor].
        - unfold h_flush_quote. destruct (String.eqb _ ""); now apply (hb_same _ s).
        - destruct B as [B _], B2 as [_ B2]. split; cbn; [rewrite app_length; cbn; lia|exact B2].
        - destruct (hrow s) as [|c r] eqn:R; [exact B2|]. destruct B as [B _], B2 as [_ B2]. rewrite R in B. split; cbn; [lia|]. apply Forall_app. split; [exact B2|]. repeat constructor; [discriminate|]. cbn in B. cbn. lia.
        - now apply (hb_same _ s).
        - now apply (hb_same _ s).
        - exact B2. }
      destruct X as (s1 & -> & B1). cbn [bind]. eexists. split; [reflexivity|]. unfold pop_style. destruct (among VOID_TAGS m); [exact B1|]. now apply (hb_same _ s1). }
    destruct C as (s1 & -> & B1). cbn [bind]. eexists. split; [reflexivity|]. now apply (hb_same _ s1).
  - eexists. split; [reflexivity|]. unfold chars_in. destruct (skipping s), (coding s), (tabling s), (quoting s); now apply (hb_same _ s).
Qed.
Lemma steps_run l : forall n s, (N.of_nat (n + length l) <= u32_max)%N ->
  (forall m attrs v, In (Open m attrs) l -> assoc "style" attrs = Some v -> style_parse trim lower upper font_size v <> Panic) -> hbounded n s -> exists s', tag_steps s l = Ret s'.
Proof.
  induction l as [|e l IH]; intros n s L O B; [now exists s|]. cbn [HtmlInModel.tag_steps]. cbn [length] in L.
  destruct (step_bounded n s e) as (s1 & -> & B1); [lia|destruct e; auto; intros v V; exact (O name attrs v (or_introl eq_refl) V)|exact B|]. cbn [bind]. apply (IH (S n)); [now replace (S n + length l) with (n + S (length l)) by lia|intros m a v I; apply (O m); now right|exact B1].
Qed.
Lemma parse_no_panic l : (N.of_nat (length l) <= u32_max)%N -> (forall m attrs v, In (Open m attrs) l -> assoc "style" attrs = Some v -> style_parse trim lower upper font_size v <> Panic) -> parse_events l <> Panic.
Proof.
  intros L O. unfold HtmlInModel.parse_events. destruct (steps_run l 0 hstate0 L O) as (s & ->); [split; [cbn; lia|constructor]|]. cbn [bind]. now destruct (hslides (h_finalize s)).
Qed.
(** Styles in ASCII never panic. *)
Hypothesis trim_part : forall s, exists a b, s = a ++ trim s ++ b.
Lemma ascii_trim s : ascii_text s = true -> ascii_text (trim s) = true.
Proof. intros A. destruct (trim_part s) as (a & b & E). unfold ascii_text in *. rewrite E, !sforall_app in A. apply andb_prop in A as [_ A]. now apply andb_prop in A as [A _]. Qed.
Lemma get_forall p s : forall i c, sforall p s = true -> String.get i s = Some c -> p c = true.
Proof. induction s as [|d s IH]; intros i c A G; [destruct i; discriminate|]. cbn [sforall] in A. apply andb_prop in A as [A B]. destruct i; cbn in G; [injection G as <-; exact A|exact (IH _ _ B G)]. Qed.
Lemma ascii_boundary s i : ascii_text s = true -> i <= String.length s -> boundary i s = true.
Proof.
  intros A L. unfold boundary. destruct (String.get i s) as [c|] eqn:G.
  - apply (get_forall _ _ _ _ A) in G. unfold ascii_char in G. apply N.ltb_lt in G. destruct (N.leb_spec 128 (N_of_ascii c)); [lia|reflexivity].
  - apply Nat.eqb_eq. revert i L G. induction s as [|c s IH]; intros i L G; cbn in *; [lia|]. destruct i; [discriminate|]. f_equal. apply IH; [now apply andb_prop in A as [_ A]|lia|exact G].
Qed.
Lemma css_ascii v : ascii_text v = true -> css_color trim upper v <> Panic.
Proof.
  intros A. apply ascii_trim in A. unfold css_color. destruct (strip_prefix "#" (trim v)) as [h|] eqn:S.
  - apply strip_prefix_iff in S. rewrite S in A. unfold ascii_text in A. rewrite sforall_app in A. apply andb_prop in A as [_ A]. destruct (String.length h) as [|[|[|[|[|[|[|[|[|k]]]]]]]]] eqn:L; try discriminate.
    unfold slice. rewrite (ascii_boundary h 0 A), (ascii_boundary h 6 A) by lia. discriminate.
  - destruct (assoc (trim v) named_colors); [discriminate|]. destruct (match strip_prefix "rgba(" (trim v) with Some r => Some r | None => strip_prefix "rgb(" (trim v) end); [|discriminate].
    destruct (split_once ")" _) as [[? i]|]; [|discriminate]. now destruct (split_char "," _) as [|? [|? [|? ?]]].
Qed.
Lemma pieces_ascii c s : ascii_text s = true -> Forall (fun d => ascii_text d = true) (split_char c s).
Proof.
  unfold ascii_text. induction s as [|d s IH]; intros A; [repeat constructor|]. cbn [sforall] in A. apply andb_prop in A as [A B]. specialize (IH B). cbn [split_char]. destruct (Ascii.eqb d c); [constructor; [reflexivity|exact IH]|].
  destruct (split_char c s) as [|p l]; [repeat constructor; cbn; now rewrite A|]. inversion_clear IH. constructor; [cbn; now rewrite A|assumption].
Qed.
Lemma style_ascii v : ascii_text v = true -> style_parse trim lower upper font_size v <> Panic.
Proof.
  intros A. unfold style_parse. assert (F := pieces_ascii ";" v A). revert F. generalize (split_char ";" v) style0. induction l as [|d l IH]; intros y F; [discriminate|]. inversion_clear F. cbn [declare_all].
  assert (D : declare trim lower upper font_size y d <> Panic).
  { apply ascii_trim in H. unfold declare. destruct (split_once ":" (trim d)) as [[p w]|] eqn:S; [|discriminate]. apply split_once_some in S. rewrite S in H. unfold ascii_text in H. rewrite !sforall_app in H. apply andb_prop in H as [_ H]. apply andb_prop in H as [_ H].
    assert (C : css_color trim upper (trim w) <> Panic) by (apply css_ascii, ascii_trim, H).
    repeat match goal with |- (if ?b then _ else _) <> _ => destruct b end; try discriminate; destruct (css_color trim upper (trim w)); congruence || discriminate. }
  destruct (declare trim lower upper font_size y d); [|congruence]. cbn [bind]. now apply IH.
Qed.
End P.
