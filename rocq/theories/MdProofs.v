(** Lemmas: the exported markdown, read line by line. *)
From Coq Require Import String Ascii List Bool Arith NArith Lia.
From Verif Require Import Str EscapeModel EscapeSpec EscapeProofs TableModel ShapeModel SlideModel DeckModel ExportModel MdSpec MdWant.
Import ListNotations.
Open Scope nat_scope.
Open Scope string_scope.

Lemma sconcat_cons x l : sconcat (x :: l) = x ++ sconcat l.
Proof. reflexivity. Qed.
Lemma split_char_app c s t : split_char c (s ++ String c t) = (split_char c s ++ split_char c t)%list.
Proof.
  induction s as [|x s IH]; cbn [append split_char]; [now rewrite Ascii.eqb_refl|].
  destruct (Ascii.eqb x c); [now rewrite IH|]. rewrite IH. destruct (split_char c s) eqn:E; [|reflexivity].
  exfalso. destruct s as [|y s']; cbn in E; [discriminate|]. destruct (Ascii.eqb y c); [discriminate|]. destruct (split_char c s'); discriminate.
Qed.
Lemma split_char_none c s : sforall (fun x => negb (Ascii.eqb x c)) s = true -> split_char c s = [s].
Proof.
  induction s as [|x s IH]; cbn [split_char sforall]; [reflexivity|]. rewrite andb_true_iff, negb_true_iff. intros [-> H]. now rewrite (IH H).
Qed.
Lemma one_line_lf s : one_line s = true -> sforall (fun x => negb (Ascii.eqb x LF)) s = true.
Proof. apply sforall_weaken. intros c. rewrite !negb_true_iff, orb_false_iff. tauto. Qed.
Lemma one_line_split s : one_line s = true -> split_char LF s = [s].
Proof. intros H. now apply split_char_none, one_line_lf. Qed.

(** A piece of document that reads as these blocks whatever follows. *)
Definition reads (d : string) (e : list block) : Prop := forall t, read_md (d ++ t) = (e ++ read_md t)%list.
Lemma reads_nil : reads "" [].
Proof. intros t. reflexivity. Qed.
Lemma reads_app d1 e1 d2 e2 : reads d1 e1 -> reads d2 e2 -> reads (d1 ++ d2) (e1 ++ e2).
Proof. intros A B t. now rewrite sapp_assoc, A, B, app_assoc. Qed.
Lemma reads_doc d e : reads d e -> read_md d = e.
Proof. intros H. specialize (H ""). rewrite sapp_nil_r in H. rewrite H. change (read_md "") with (@nil block). apply app_nil_r. Qed.
Lemma reads_line l : one_line l = true -> strip_prefix "```" l = None -> reads (l ++ nl) (read_line l).
Proof.
  intros O F t. rewrite sapp_assoc. unfold nl, read_md. change (s1 _ ++ t) with (String LF t). rewrite split_char_app, (one_line_split l O). cbn [app blocks]. now rewrite F.
Qed.
Lemma reads_blank : reads nl [].
Proof. apply (reads_line ""); reflexivity. Qed.
Lemma blocks_code lang ls : forall acc r, forallb (fun l => negb (starts_with "```" l)) ls = true ->
  blocks (Some (lang, acc)) (ls ++ r) = blocks (Some (lang, rev ls ++ acc)%list) r.
Proof.
  induction ls as [|l ls IH]; intros acc r H; [reflexivity|]. cbn [forallb] in H. apply andb_true_iff in H. destruct H as [H1 H2]. apply negb_true_iff in H1.
  cbn [app blocks]. rewrite H1, IH by assumption. cbn [rev]. now rewrite <- app_assoc.
Qed.
Lemma reads_code lang code : one_line lang = true -> md_codes code = true ->
  reads ("```" ++ lang ++ nl ++ code ++ nl ++ "```" ++ nl) [Fenced lang (split_char LF code)].
Proof.
  intros L C t. unfold nl, read_md. change (s1 ?c) with (String LF "").
  replace (("```" ++ lang ++ String LF "" ++ code ++ String LF "" ++ "```" ++ String LF "") ++ t) with (("```" ++ lang) ++ String LF (code ++ String LF ("```" ++ String LF t)))
    by (rewrite !sapp_assoc; reflexivity).
  rewrite split_char_app, split_char_app. rewrite (one_line_split ("```" ++ lang)) by (unfold one_line in *; rewrite sforall_app, L; reflexivity).
  rewrite (split_char_app LF "```" t). cbn [app]. unfold blocks at 1. fold blocks. rewrite strip_prefix_app. change (split_char LF "```") with ["```"].
  rewrite blocks_code by assumption. cbn [app blocks starts_with]. rewrite app_nil_r, rev_involutive. reflexivity.
Qed.

(** ** Escaped text *)
Lemma md_esc_lines s : one_line s = true -> one_line (escape_markdown s) = true.
Proof.
  unfold one_line. rewrite escape_markdown_map. induction s as [|c s IH]; cbn [smap sforall]; [reflexivity|]. rewrite andb_true_iff. intros [H1 H2].
  rewrite sforall_app, (IH H2), andb_true_r. destruct (md_esc_shape c) as [(d & -> & -> & _)|(-> & _)]; cbn [s1 sforall]; now rewrite H1.
Qed.
Lemma esc_keeps (p : ascii -> bool) s : p "\"%char = true -> sforall p s = true -> sforall p (escape_markdown s) = true.
Proof.
  intros B. rewrite escape_markdown_map. induction s as [|c s IH]; cbn [smap sforall]; [reflexivity|]. rewrite andb_true_iff. intros [H1 H2].
  rewrite sforall_app, (IH H2), andb_true_r. destruct (md_esc_shape c) as [(d & -> & -> & _)|(-> & _)]; cbn [s1 sforall]; now rewrite ?B, H1.
Qed.
Lemma inline_esc s : sforall no_ref s = true -> read_inline (escape_markdown s) = Plain s.
Proof. intros H. unfold read_inline. now rewrite escape_markdown_inert, (esc_keeps no_ref s eq_refl H), escape_markdown_roundtrip. Qed.
Lemma inline_prefix p s : sforall (fun c => negb (md_active c || Ascii.eqb c "\")) p = true -> sforall no_ref p = true -> sforall no_ref s = true ->
  read_inline (p ++ escape_markdown s) = Plain (p ++ s).
Proof.
  intros A B H. unfold read_inline. rewrite sforall_app, B, (esc_keeps no_ref s eq_refl H).
  assert (E : md_inert (p ++ escape_markdown s) = true /\ md_unescape ascii_punct (p ++ escape_markdown s) = p ++ s).
  { clear B H. induction p as [|c p IH]; [split; [apply escape_markdown_inert|apply escape_markdown_roundtrip]|].
    cbn [sforall] in A. apply andb_true_iff in A. destruct A as [A1 A2]. apply negb_true_iff, orb_false_iff in A1. destruct A1 as [A0 A1]. apply Ascii.eqb_neq in A1.
    destruct (IH A2) as [I J]. cbn [append]. rewrite md_inert_plain, md_unescape_plain by assumption. now rewrite A0, I, J. }
  destruct E as [-> ->]. reflexivity.
Qed.
Lemma space_esc s : starts_with " " (smap md_esc_char s) = starts_with " " s.
Proof.
  destruct s as [|c s]; [reflexivity|]. cbn [smap]. unfold md_esc_char at 1. destruct (Ascii.eqb_spec c "\") as [->|N]; [reflexivity|].
  destruct (md_active c) eqn:M; [|reflexivity]. unfold md_active in M. destruct c as [[] [] [] [] [] [] [] []]; try discriminate M; reflexivity.
Qed.
Lemma list_mark_esc s : list_mark (escape_markdown s) = list_mark s.
Proof.
  rewrite escape_markdown_map. destruct s as [|c s]; [reflexivity|]. cbn [smap]. unfold md_esc_char at 1. destruct (Ascii.eqb_spec c "\") as [->|N]; [reflexivity|].
  destruct (md_active c) eqn:M; [unfold md_active in M; destruct c as [[] [] [] [] [] [] [] []]; try discriminate M; reflexivity|].
  change (s1 c ++ smap md_esc_char s) with (String c (smap md_esc_char s)). unfold list_mark.
  assert (E : forall x, starts_with (String x " ") (String c (smap md_esc_char s)) = starts_with (String x " ") (String c s)).
  { intros x. unfold starts_with; fold starts_with. destruct (Ascii.eqb x c); [|reflexivity]. apply space_esc. }
  rewrite !E. reflexivity.
Qed.
Lemma item_esc s : md_item s = true -> read_item (escape_markdown s) = Plain s.
Proof.
  unfold md_item, md_text. rewrite !andb_true_iff, negb_true_iff. intros [[_ H] M]. unfold read_item. now rewrite list_mark_esc, M, inline_esc.
Qed.

(** ** Pieces *)
Lemma reads_heading p s : sforall (fun c => negb (md_active c || Ascii.eqb c "\")) p = true -> md_text p = true -> md_text s = true ->
  reads (("## " ++ p ++ escape_markdown s) ++ nl) [Heading 2 (Plain (p ++ s))].
Proof.
  unfold md_text. rewrite !andb_true_iff. intros A [B B'] [C D]. rewrite <- (inline_prefix p s) by assumption. apply (reads_line ("## " ++ p ++ escape_markdown s)); [|reflexivity].
  apply md_esc_lines in C. unfold one_line in *. now rewrite !sforall_app, B, C.
Qed.
Lemma reads_item s : md_item s = true -> reads ("- " ++ escape_markdown s ++ nl) [Item (Plain s)].
Proof.
  intros H. rewrite <- (item_esc s H). unfold md_item, md_text in H. rewrite !andb_true_iff in H. destruct H as [[C _] _].
  rewrite <- sapp_assoc. apply (reads_line ("- " ++ escape_markdown s)); [|reflexivity]. unfold one_line. rewrite sforall_app. apply (md_esc_lines s C).
Qed.
Lemma reads_quote s : md_item s = true -> reads ("> " ++ escape_markdown s ++ nl) [Quote (Plain s)].
Proof.
  intros H. rewrite <- (item_esc s H). unfold md_item, md_text in H. rewrite !andb_true_iff in H. destruct H as [[C _] _].
  rewrite <- sapp_assoc. apply (reads_line ("> " ++ escape_markdown s)); [|reflexivity]. unfold one_line. rewrite sforall_app. apply (md_esc_lines s C).
Qed.
Lemma reads_list {A} (f : A -> string) (g : A -> list block) l : Forall (fun x => reads (f x) (g x)) l -> reads (sconcat (map f l)) (flat_map g l).
Proof. induction 1; [apply reads_nil|]. cbn [map flat_map]. apply (reads_app (f x)); assumption. Qed.

(** Table lines. *)
Lemma trim_spaces s : trim_one (" " ++ s ++ " ") = s.
Proof. unfold trim_one. cbn [append]. rewrite srev_sapp. cbn [srev srev_app append]. apply srev_involutive. Qed.
Lemma removelast_snoc {A} (l : list A) x : removelast (l ++ [x]) = l.
Proof. apply removelast_last. Qed.
Lemma cells_split {A} (f : A -> string) tail l : (forall x, In x l -> sforall (fun c => negb (Ascii.eqb c "|")) (f x) = true) ->
  sforall (fun c => negb (Ascii.eqb c "|")) tail = true ->
  split_char "|" (sconcat (map (fun x => " " ++ f x ++ " |") l) ++ tail) = app (map (fun x => " " ++ f x ++ " ") l) [tail].
Proof.
  intros H T. induction l as [|x l IH]; cbn [map app]; [apply (split_char_none "|" tail T)|]. 
  change (sconcat ((" " ++ f x ++ " |") :: map (fun x => " " ++ f x ++ " |") l)) with ((" " ++ f x ++ " |") ++ sconcat (map (fun x => " " ++ f x ++ " |") l)).
  replace (((" " ++ f x ++ " |") ++ sconcat (map (fun x => " " ++ f x ++ " |") l)) ++ tail) with ((" " ++ f x ++ " ") ++ String "|" (sconcat (map (fun x => " " ++ f x ++ " |") l) ++ tail)) by (rewrite !sapp_assoc; reflexivity).
  rewrite split_char_app, IH by (intros y Y; apply H; now right). rewrite (split_char_none "|" (" " ++ f x ++ " ")); [reflexivity|].
  rewrite !sforall_app, (H x) by now left. reflexivity.
Qed.
(** The code puts the spaces on the other side of the bars. *)
Lemma row_shift (l : list string) : "| " ++ sconcat (map (fun c => c ++ " | ") l) = "|" ++ sconcat (map (fun c => " " ++ c ++ " |") l) ++ " ".
Proof.
  change ("| " ++ sconcat (map (fun c => c ++ " | ") l)) with ("|" ++ (" " ++ sconcat (map (fun c => c ++ " | ") l))). f_equal.
  induction l as [|c l IH]; [reflexivity|]. cbn [map sconcat fold_right]. fold (sconcat (map (fun c => c ++ " | ") l)) (sconcat (map (fun c => " " ++ c ++ " |") l)).
  rewrite !sapp_assoc. cbn [append]. do 2 f_equal. cbn [append] in IH. now rewrite <- IH.
Qed.
Lemma md_cell_parts s : md_cell s = true -> one_line s = true /\ sforall no_ref s = true /\ sforall (fun c => negb (Ascii.eqb c "|")) s = true.
Proof. unfold md_cell, md_text. rewrite !andb_true_iff. tauto. Qed.
Lemma reads_row r : md_row_ok r = true -> reads (md_row r) [want_row r].
Proof.
  unfold md_row_ok, md_row, want_row. rewrite forallb_forall. intros H.
  rewrite <- (map_map (fun c => escape_markdown (ctext c)) (fun t => t ++ " | ")), <- sapp_assoc, row_shift, map_map.
  replace [Row (map (fun c => Plain (ctext c)) (cells r))] with (read_line ("|" ++ sconcat (map (fun c => " " ++ escape_markdown (ctext c) ++ " |") (cells r)) ++ " ")).
  - apply reads_line; [|reflexivity]. unfold one_line. rewrite !sforall_app. apply andb_true_iff. split; [reflexivity|]. rewrite andb_true_r.
    induction (cells r) as [|c l IH]; [reflexivity|]. cbn [map]. rewrite sconcat_cons, !sforall_app. rewrite IH by (intros x I; apply H; now right). rewrite andb_true_r.
    destruct (md_cell_parts _ (H c (or_introl eq_refl))) as (O & _). apply md_esc_lines in O. unfold one_line in O. rewrite O. reflexivity.
  - unfold read_line. rewrite strip_prefix_app. cbn [append strip_prefix Ascii.eqb Bool.eqb]. do 2 f_equal. unfold read_cells.
    rewrite (cells_split (fun c => escape_markdown (ctext c)) " "); [|intros c I; destruct (md_cell_parts _ (H c I)) as (_ & _ & B); now apply esc_keeps|reflexivity].
    rewrite removelast_snoc, map_map. apply map_ext_in. intros c I. rewrite trim_spaces. destruct (md_cell_parts _ (H c I)) as (_ & N & _). now apply inline_esc.
Qed.
Lemma reads_dashes {A} (l : list A) : reads ("|" ++ sconcat (map (fun _ => " --- |") l) ++ nl) [Row (map (fun _ => Plain "---") l)].
Proof.
  rewrite <- sapp_assoc. replace [Row (map (fun _ => Plain "---") l)] with (read_line ("|" ++ sconcat (map (fun _ : A => " --- |") l))).
  - apply reads_line; [|reflexivity]. unfold one_line. rewrite sforall_app. induction l; [reflexivity|]. cbn [map]. rewrite sconcat_cons, sforall_app. exact IHl.
  - unfold read_line. rewrite strip_prefix_app. cbn [append strip_prefix Ascii.eqb Bool.eqb]. do 2 f_equal. unfold read_cells.
    pose proof (cells_split (fun _ : A => "---") "" l (fun _ _ => eq_refl) eq_refl) as E. rewrite sapp_nil_r in E. cbn [append] in E. cbn [append]. rewrite E.
    rewrite removelast_snoc, map_map. reflexivity.
Qed.
Lemma reads_table t : forallb md_row_ok (rows t) = true -> reads (export_table_to_gfm t) (want_table t).
Proof.
  unfold export_table_to_gfm, want_table. destruct (rows t) as [|h l]; [intros _; apply reads_nil|]. cbn [forallb]. rewrite andb_true_iff. intros [H L].
  apply (reads_app (md_row h) [want_row h]); [now apply reads_row|]. rewrite <- !sapp_assoc. apply (reads_app _ [Row _]); [rewrite sapp_assoc; apply (reads_dashes (cells h))|].
  replace (map want_row l) with (flat_map (fun r => [want_row r]) l) by (induction l; cbn; [reflexivity|f_equal; apply IHl; cbn in L; apply andb_true_iff in L; tauto]).
  apply reads_list. apply Forall_forall. intros r I. apply reads_row. rewrite forallb_forall in L. now apply L.
Qed.

(** ** Slides and documents *)
Lemma map_flat {A B} (f : A -> B) l : map f l = flat_map (fun x => [f x]) l.
Proof. induction l; cbn; congruence. Qed.
Lemma each_reads {A} (P : A -> Prop) (f : nat -> A -> string) (g : nat * A -> list block) l : (forall k x, P x -> reads (f k x) (g (k + 1, x))) -> Forall P l ->
  forall k, reads (each_push f k l) (flat_map g (combine (seq (k + 1) (length l)) l)).
Proof.
  intros H F. induction F as [|x l Px F IH]; intros k; [apply reads_nil|]. cbn [each_push length seq combine flat_map]. apply reads_app; [now apply H|]. apply (IH (S k)).
Qed.
Lemma one_line_decn n : one_line (decn n) = true.
Proof.
  pose proof (decn_digits n) as H. revert H. unfold one_line. apply sforall_weaken. intros c. unfold is_digit, LF. intros H. apply negb_true_iff, orb_false_iff.
  split; apply Ascii.eqb_neq; intros ->; discriminate H.
Qed.
Lemma digits_plain n : sforall (fun c => negb (md_active c || Ascii.eqb c "\")) (decn n) = true /\ sforall no_ref (decn n) = true.
Proof.
  pose proof (decn_digits n) as H. split; revert H; apply sforall_weaken; intros c; unfold is_digit; destruct c as [[] [] [] [] [] [] [] []]; try discriminate; reflexivity.
Qed.
Lemma reads_image n k i : (String.eqb (im_format i) "PNG" || String.eqb (im_format i) "JPEG") = true -> reads (md_image n k i) [want_image n (k + 1, i)].
Proof.
  intros H. unfold md_image, want_image. cbn [fst snd].
  assert (E : replace_str "png" ".png" (replace_str "jpeg" ".jpg" (lowercase (im_format i))) = if String.eqb (im_format i) "PNG" then ".png" else ".jpg").
  { destruct (String.eqb_spec (im_format i) "PNG") as [->|N]; [reflexivity|]. cbn [orb] in H. apply String.eqb_eq in H. now rewrite H. }
  rewrite E. clear E H. set (x := if String.eqb (im_format i) "PNG" then ".png" else ".jpg").
  assert (X : one_line x = true) by (subst x; destruct (String.eqb _ _); reflexivity). clearbody x.
  set (l := "![Image " ++ _).
  match goal with |- reads _ [Line ?w] => change [Line w] with (app (read_line w) []); set (l' := w) end.
  assert (L : l = (l' ++ nl) ++ nl) by (subst l l'; rewrite !sapp_assoc; reflexivity). rewrite L. apply (reads_app (l' ++ nl) (read_line l')); [|apply reads_blank].
  apply reads_line; [|reflexivity]. subst l'. clear L. pose proof (one_line_decn n) as D1. pose proof (one_line_decn (k + 1)) as D2. unfold one_line in *. rewrite !sforall_app, D1, D2, X. reflexivity.
Qed.
Lemma reads_md_code c : one_line (cb_lang c) = true -> md_codes (cb_code c) = true -> reads (md_code c) [Fenced (cb_lang c) (split_char LF (cb_code c))].
Proof.
  intros L C. pose proof (reads_app _ _ _ _ (reads_code _ _ L C) reads_blank) as R. rewrite app_nil_r in R. unfold md_code. rewrite !sapp_assoc in R. exact R.
Qed.
Lemma reads_slide o k s : sep_ok o = true -> md_slide_ok s = true -> reads (md_slide o k s) (want_slide o (k + 1, s)).
Proof.
  unfold sep_ok, md_slide_ok. rewrite !andb_true_iff. intros [S1 S2] [[[[[T C] B] I] D] N]. unfold md_slide, want_slide.
  apply reads_app; [|apply reads_app; [|apply reads_app; [|apply reads_app; [|apply reads_app; [|apply reads_app]]]]].
  - replace (Nat.ltb 1 (k + 1)) with (Nat.ltb 0 k) by (destruct k; [reflexivity|]; replace (S k + 1) with (S (S k)) by lia; reflexivity).
    destruct (Nat.ltb 0 k || mo_numbers o); [|apply reads_nil]. rewrite <- (app_nil_r (read_line (mo_separator o))). apply (reads_app nl [] _ (app (read_line (mo_separator o)) [])); [apply reads_blank|]. rewrite <- sapp_assoc.
    apply reads_app; [|apply reads_blank]. apply reads_line; [assumption|]. destruct (strip_prefix "```" (mo_separator o)); [discriminate|reflexivity].
  - destruct (mo_numbers o).
    + destruct (digits_plain (k + 1)) as [P1 P2]. pose proof (one_line_decn (k + 1)) as P3.
      assert (R : reads (("## " ++ ("Slide " ++ decn (k + 1) ++ ": ") ++ escape_markdown (s_title s)) ++ nl) [Heading 2 (Plain (("Slide " ++ decn (k + 1) ++ ": ") ++ s_title s))]).
      { apply reads_heading; [rewrite !sforall_app, P1; reflexivity| |assumption]. unfold md_text, one_line in *. rewrite !sforall_app, P2, P3. reflexivity. }
      pose proof (reads_app _ _ _ _ R reads_blank) as Q. rewrite app_nil_r in Q. rewrite !sapp_assoc in Q. exact Q.
    + assert (R : reads (("## " ++ "" ++ escape_markdown (s_title s)) ++ nl) [Heading 2 (Plain ("" ++ s_title s))]) by (apply reads_heading; [reflexivity|reflexivity|assumption]).
      pose proof (reads_app _ _ _ _ R reads_blank) as Q. rewrite app_nil_r in Q. rewrite !sapp_assoc in Q. exact Q.
  - assert (R : reads (sconcat (map (fun item => "- " ++ escape_markdown item ++ nl) (s_content s))) (map (fun t => Item (Plain t)) (s_content s))).
    { replace (map (fun t => Item (Plain t)) (s_content s)) with (flat_map (fun t => [Item (Plain t)]) (s_content s)) by (clear; induction (s_content s); cbn; congruence).
      apply reads_list, Forall_forall. intros x X. apply reads_item. rewrite forallb_forall in C. now apply C. }
    destruct (s_content s) as [|x l]; [apply reads_nil|]. rewrite <- (app_nil_r (map (fun t => Item (Plain t)) (x :: l))). apply reads_app; [exact R|apply reads_blank].
  - destruct (mo_tables o); [|apply reads_nil]. destruct (s_table s) as [t|]; [|apply reads_nil]. rewrite <- (app_nil_r (want_table t)). apply reads_app; [now apply reads_table|apply reads_blank].
  - destruct (mo_images o); [|apply reads_nil]. unfold numbered_from1. rewrite map_flat.
    apply (each_reads (fun i => (String.eqb (im_format i) "PNG" || String.eqb (im_format i) "JPEG") = true) _ (fun p => [want_image (k + 1) p]) (s_images s)); [intros; now apply reads_image|]. apply Forall_forall. now apply forallb_forall.
  - rewrite (map_flat (fun c => Fenced (cb_lang c) (split_char LF (cb_code c)))).
    apply reads_list, Forall_forall. intros c X. rewrite forallb_forall in D. apply D in X. apply andb_true_iff in X. now apply reads_md_code.
  - unfold md_notes. destruct (s_notes s) as [t|]; [|destruct (mo_notes o); apply reads_nil]. destruct (mo_notes o); [|apply reads_nil]. destruct (String.eqb_spec t "") as [->|E]; [apply reads_nil|].
    cbn [negb andb]. rewrite <- !sapp_assoc.
    change [Line "**Notes:**"; Quote (Plain t)] with (app (app (app [Line "**Notes:**"] []) [Quote (Plain t)]) []).
    apply reads_app; [|apply reads_blank]. rewrite !(sapp_assoc _ (escape_markdown t) nl), (sapp_assoc _ "> "). apply reads_app; [|now apply reads_quote].
    apply reads_app; [|apply reads_blank]. apply (reads_line "**Notes:**"); reflexivity.
Qed.
Lemma reads_body o title slides : sep_ok o = true -> title_ok title = true -> forallb md_slide_ok slides = true -> read_md (md_body o title slides) = want_doc o title slides.
Proof.
  intros S T L. apply reads_doc. unfold md_body, want_doc, title_ok, md_text in *. rewrite !andb_true_iff in T. destruct T as [[T1 T2] T3].
  assert (E : Heading 1 (Plain title) = Heading 1 (read_inline title)).
  { f_equal. pose proof (inline_prefix title "" T3 T2 eq_refl) as P. change (escape_markdown "") with "" in P. now rewrite !sapp_nil_r in P. }
  rewrite E. rewrite <- !sapp_assoc. change (Heading 1 (read_inline title) :: flat_map (want_slide o) (numbered_from1 slides)) with (app (app [Heading 1 (read_inline title)] []) (flat_map (want_slide o) (numbered_from1 slides))).
  apply reads_app.
  - apply reads_app; [|apply reads_blank]. apply (reads_line ("# " ++ title)); [|reflexivity]. unfold one_line in *. rewrite sforall_app, T1. reflexivity.
  - apply (each_reads (fun s => md_slide_ok s = true)); [intros; now apply reads_slide|]. apply Forall_forall. now apply forallb_forall.
Qed.
