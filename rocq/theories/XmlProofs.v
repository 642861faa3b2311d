(** Lemmas about the XML reader of XmlSpec. *)
From Coq Require Import String Ascii List Bool NArith Lia.
From Verif Require Import Str EscapeModel EscapeProofs XmlSpec.
Import ListNotations.
Open Scope string_scope.

Lemma xrun_app s t o : xrun (s ++ t) o = xrun t (xrun s o).
Proof. revert o; induction s; intros; simpl; auto. Qed.

Lemma xrun_none s : xrun s None = None.
Proof. induction s; simpl; auto. Qed.

Lemma snoc_app b c s : snoc b c ++ s = b ++ String c s.
Proof. unfold snoc. now rewrite sapp_assoc. Qed.

Lemma snoc_nonempty b c : snoc b c <> "".
Proof. destruct b; discriminate. Qed.

(** Characters that stand for themselves in character data. *)
Definition plain_text (c : ascii) : bool :=
  xml_char c && negb (Ascii.eqb c "<") && negb (Ascii.eqb c "&").
(** ... in a double-quoted attribute value. *)
Definition plain_val (c : ascii) : bool :=
  xml_char c && negb (Ascii.eqb c "<") && negb (Ascii.eqb c "&") && negb (Ascii.eqb c c_quot)
  && negb (Ascii.eqb c c_cr || Ascii.eqb c c_lf || Ascii.eqb c c_tab).

Lemma xstep_plain_text b fs c : plain_text c = true ->
  xstep (Some (St (LText b) fs)) c = Some (St (LText (snoc b c)) fs).
Proof.
  unfold plain_text. rewrite !andb_true_iff, !negb_true_iff. intros [[H1 H2] H3].
  simpl. now rewrite H1, H2, H3.
Qed.

Lemma xstep_plain_val n a k v fs c : plain_val c = true ->
  xstep (Some (St (LVal n a k c_quot v) fs)) c = Some (St (LVal n a k c_quot (snoc v c)) fs).
Proof.
  unfold plain_val. rewrite !andb_true_iff, !negb_true_iff. intros [[[[H1 H2] H3] H4] H5].
  rewrite !orb_false_iff in H5. destruct H5 as [[H5 H6] H7].
  unfold xstep, step1. rewrite H1, H2, H3, H4. unfold xml_space. rewrite H5, H6, H7.
  destruct (Ascii.eqb_spec c " ") as [->|]; reflexivity.
Qed.

Lemma xrun_plain_text b fs s : sforall plain_text s = true ->
  xrun s (Some (St (LText b) fs)) = Some (St (LText (b ++ s)) fs).
Proof.
  revert b; induction s as [|c s IH]; intros b; [simpl; now rewrite sapp_nil_r|].
  cbn [sforall xrun]. rewrite andb_true_iff. intros [H1 H2].
  rewrite xstep_plain_text by assumption. rewrite IH by assumption. now rewrite snoc_app.
Qed.

Lemma xrun_plain_val n a k v fs s : sforall plain_val s = true ->
  xrun s (Some (St (LVal n a k c_quot v) fs)) = Some (St (LVal n a k c_quot (v ++ s)) fs).
Proof.
  revert v; induction s as [|c s IH]; intros v; [simpl; now rewrite sapp_nil_r|].
  cbn [sforall xrun]. rewrite andb_true_iff. intros [H1 H2].
  rewrite xstep_plain_val by assumption. rewrite IH by assumption. now rewrite snoc_app.
Qed.

(** ** Escaped strings *)

Lemma special_cases (P : ascii -> Prop) c :
  P "&"%char -> P "<"%char -> P ">"%char -> P DQ -> P SQ ->
  (c <> "&"%char -> c <> "<"%char -> c <> ">"%char -> c <> DQ -> c <> SQ -> P c) -> P c.
Proof.
  intros. destruct (ascii_dec c "&"); [subst; auto|]. destruct (ascii_dec c "<"); [subst; auto|].
  destruct (ascii_dec c ">"); [subst; auto|]. destruct (ascii_dec c DQ); [subst; auto|].
  destruct (ascii_dec c SQ); [subst; auto|]. auto.
Qed.

Lemma esc_char_other c :
  c <> "&"%char -> c <> "<"%char -> c <> ">"%char -> c <> DQ -> c <> SQ -> esc_char c = s1 c.
Proof.
  intros A B C D E. unfold esc_char.
  rewrite (proj2 (Ascii.eqb_neq c _) A), (proj2 (Ascii.eqb_neq c _) B), (proj2 (Ascii.eqb_neq c _) C),
    (proj2 (Ascii.eqb_neq c _) D), (proj2 (Ascii.eqb_neq c _) E). reflexivity.
Qed.

Lemma xrun_esc_char_text b fs c : xml_char c = true ->
  xrun (esc_char c) (Some (St (LText b) fs)) = Some (St (LText (snoc b c)) fs).
Proof.
  pattern c. apply special_cases; try reflexivity.
  intros A B C D E H. rewrite esc_char_other by assumption. cbn [s1 xrun].
  apply xstep_plain_text. unfold plain_text.
  rewrite H, (proj2 (Ascii.eqb_neq c _) A), (proj2 (Ascii.eqb_neq c _) B). reflexivity.
Qed.

Lemma xrun_esc_char_val n a k v fs c :
  xml_char c && negb (Ascii.eqb c c_cr || Ascii.eqb c c_lf || Ascii.eqb c c_tab) = true ->
  xrun (esc_char c) (Some (St (LVal n a k c_quot v) fs)) = Some (St (LVal n a k c_quot (snoc v c)) fs).
Proof.
  pattern c. apply special_cases; try reflexivity.
  intros A B C D E H. rewrite esc_char_other by assumption. cbn [s1 xrun].
  apply xstep_plain_val. unfold plain_val.
  apply andb_true_iff in H. destruct H as [H1 H2].
  rewrite H1, H2, (proj2 (Ascii.eqb_neq c _) A), (proj2 (Ascii.eqb_neq c _) B).
  change c_quot with DQ. now rewrite (proj2 (Ascii.eqb_neq c _) D).
Qed.

Lemma chars_ok_sforall s : chars_ok s = sforall xml_char s.
Proof. induction s; simpl; congruence. Qed.
Lemma text_ok_chars s : text_ok s = true -> chars_ok s = true.
Proof. induction s; simpl; [auto|]. rewrite !andb_true_iff. tauto. Qed.
Lemma attr_ok_text s : attr_ok s = true -> text_ok s = true.
Proof.
  induction s; simpl; [auto|]. rewrite !andb_true_iff, !negb_true_iff, !orb_false_iff. tauto.
Qed.

Lemma xrun_escape_text b fs s : chars_ok s = true ->
  xrun (escape_xml s) (Some (St (LText b) fs)) = Some (St (LText (b ++ s)) fs).
Proof.
  rewrite escape_xml_map.
  revert b; induction s as [|c s IH]; intros b; [simpl; now rewrite sapp_nil_r|].
  cbn [chars_ok smap]. rewrite andb_true_iff. intros [H1 H2].
  rewrite xrun_app, xrun_esc_char_text by assumption. rewrite IH by assumption. now rewrite snoc_app.
Qed.

Lemma xrun_escape_val n a k v fs s : attr_ok s = true ->
  xrun (escape_xml s) (Some (St (LVal n a k c_quot v) fs)) = Some (St (LVal n a k c_quot (v ++ s)) fs).
Proof.
  rewrite escape_xml_map.
  revert v; induction s as [|c s IH]; intros v; [simpl; now rewrite sapp_nil_r|].
  cbn [attr_ok smap]. rewrite andb_true_iff. intros [H1 H2].
  rewrite xrun_app, xrun_esc_char_val by assumption. rewrite IH by assumption. now rewrite snoc_app.
Qed.

(** ** Names *)

Lemma is_name_cons c s : is_name (String c s) = name_start c && sforall name_char s.
Proof. simpl. f_equal. induction s; simpl; congruence. Qed.

Lemma name_start_char c : name_start c = true -> name_char c = true.
Proof. unfold name_char. now intros ->. Qed.

Lemma name_char_xml c : name_char c = true -> xml_char c = true.
Proof. destruct c as [[] [] [] [] [] [] [] []]; vm_compute; congruence. Qed.

Lemma name_char_not c x : name_char c = true -> name_char x = false -> Ascii.eqb c x = false.
Proof. intros A B. apply Ascii.eqb_neq. intros ->. congruence. Qed.

Lemma xrun_open_rest n fs s : sforall name_char s = true ->
  xrun s (Some (St (LOpen n) fs)) = Some (St (LOpen (n ++ s)) fs).
Proof.
  revert n; induction s as [|c s IH]; intros n; [simpl; now rewrite sapp_nil_r|].
  cbn [sforall xrun]. rewrite andb_true_iff. intros [H1 H2].
  unfold xstep, step1. rewrite name_char_xml, H1 by assumption.
  rewrite IH by assumption. now rewrite snoc_app.
Qed.

Lemma xrun_open_name fs s : is_name s = true ->
  xrun s (Some (St LLt fs)) = Some (St (LOpen s) fs).
Proof.
  destruct s as [|c s]; [discriminate|]. rewrite is_name_cons, andb_true_iff. intros [H1 H2].
  cbn [xrun]. pose proof (name_start_char c H1) as H3.
  unfold xstep, step1. rewrite name_char_xml, H1 by assumption.
  rewrite (name_char_not c "/"), (name_char_not c "?") by (auto; reflexivity).
  rewrite xrun_open_rest by assumption. reflexivity.
Qed.

Lemma xrun_attr_rest n a k fs s : sforall name_char s = true ->
  xrun s (Some (St (LAttr n a k) fs)) = Some (St (LAttr n a (k ++ s)) fs).
Proof.
  revert k; induction s as [|c s IH]; intros k; [simpl; now rewrite sapp_nil_r|].
  cbn [sforall xrun]. rewrite andb_true_iff. intros [H1 H2].
  unfold xstep, step1. rewrite name_char_xml, H1 by assumption.
  rewrite IH by assumption. now rewrite snoc_app.
Qed.

Lemma name_start_not_space c : name_start c = true -> xml_space c = false.
Proof. destruct c as [[] [] [] [] [] [] [] []]; vm_compute; congruence. Qed.

Lemma xrun_attr_name n a fs s : is_name s = true ->
  xrun s (Some (St (LTag n a) fs)) = Some (St (LAttr n a s) fs).
Proof.
  destruct s as [|c s]; [discriminate|]. rewrite is_name_cons, andb_true_iff. intros [H1 H2].
  cbn [xrun]. pose proof (name_start_char c H1) as H3.
  unfold xstep, step1. rewrite name_char_xml, name_start_not_space, H1 by assumption.
  rewrite (name_char_not c "/"), (name_char_not c ">") by (auto; reflexivity).
  rewrite xrun_attr_rest by assumption. reflexivity.
Qed.

Lemma xrun_close_rest n fs s : n <> "" -> sforall name_char s = true ->
  xrun s (Some (St (LClose n) fs)) = Some (St (LClose (n ++ s)) fs).
Proof.
  revert n; induction s as [|c s IH]; intros n Hn; [simpl; now rewrite sapp_nil_r|].
  cbn [sforall xrun]. rewrite andb_true_iff. intros [H1 H2].
  unfold xstep, step1. rewrite (proj2 (String.eqb_neq n "") Hn), name_char_xml, H1 by assumption.
  rewrite IH; [now rewrite snoc_app|apply snoc_nonempty|assumption].
Qed.

Lemma xrun_close_name fs s : is_name s = true ->
  xrun s (Some (St (LClose "") fs)) = Some (St (LClose s) fs).
Proof.
  destruct s as [|c s]; [discriminate|]. rewrite is_name_cons, andb_true_iff. intros [H1 H2].
  cbn [xrun]. pose proof (name_start_char c H1) as H3.
  unfold xstep, step1. rewrite name_char_xml by assumption. cbn [String.eqb]. rewrite H1.
  rewrite xrun_close_rest; [reflexivity|discriminate|assumption].
Qed.

(** ** End-of-line handling *)

Definition not_cr (c : ascii) : bool := negb (Ascii.eqb c c_cr).

Lemma eol_id s : sforall not_cr s = true -> eol s = s.
Proof.
  induction s as [|c s IH]; [reflexivity|]. cbn [sforall eol]. rewrite andb_true_iff. intros [H1 H2].
  unfold not_cr in H1. apply negb_true_iff in H1. rewrite H1. now rewrite IH.
Qed.

Lemma name_not_cr c : name_char c = true -> not_cr c = true.
Proof. destruct c as [[] [] [] [] [] [] [] []]; vm_compute; congruence. Qed.

Lemma is_name_chars s : is_name s = true -> sforall name_char s = true.
Proof.
  destruct s as [|c s]; [discriminate|]. rewrite is_name_cons. cbn [sforall].
  rewrite !andb_true_iff. intros [H1 H2]. split; [now apply name_start_char|assumption].
Qed.

Lemma is_name_not_cr s : is_name s = true -> sforall not_cr s = true.
Proof. intros H. apply is_name_chars in H. revert H. apply sforall_weaken, name_not_cr. Qed.

Lemma esc_char_not_cr c : not_cr c = true -> sforall not_cr (esc_char c) = true.
Proof.
  pattern c. apply special_cases; try reflexivity.
  intros. rewrite esc_char_other by assumption. simpl. now rewrite H4.
Qed.

Lemma escape_not_cr s : sforall not_cr s = true -> sforall not_cr (escape_xml s) = true.
Proof.
  rewrite escape_xml_map. induction s as [|c s IH]; [reflexivity|].
  cbn [sforall smap]. rewrite andb_true_iff, sforall_app. intros [H1 H2].
  now rewrite esc_char_not_cr, IH.
Qed.

Lemma text_ok_not_cr s : text_ok s = true -> sforall not_cr s = true.
Proof.
  induction s as [|c s IH]; [reflexivity|]. cbn [text_ok sforall]. unfold not_cr at 1.
  rewrite !andb_true_iff. tauto.
Qed.

Lemma attr_ok_not_cr s : attr_ok s = true -> sforall not_cr s = true.
Proof. intros H. now apply text_ok_not_cr, attr_ok_text. Qed.

(** ** Digits *)

Lemma digit_plain_val c : is_digit c = true -> plain_val c = true.
Proof. destruct c as [[] [] [] [] [] [] [] []]; vm_compute; congruence. Qed.
Lemma digit_plain_text c : is_digit c = true -> plain_text c = true.
Proof. destruct c as [[] [] [] [] [] [] [] []]; vm_compute; congruence. Qed.
Lemma digit_not_cr c : is_digit c = true -> not_cr c = true.
Proof. destruct c as [[] [] [] [] [] [] [] []]; vm_compute; congruence. Qed.

Lemma plain_val_not_cr c : plain_val c = true -> not_cr c = true.
Proof. destruct c as [[] [] [] [] [] [] [] []]; vm_compute; congruence. Qed.

(** ** The tree collected in a frame *)

Definition fl (b : string) (k : list node) : list node := if String.eqb b "" then k else Txt b :: k.

Lemma flush_fl b n a k fs : flush b (Frame n a k :: fs) = Frame n a (fl b k) :: fs.
Proof. unfold flush, fl. destruct (String.eqb b ""); reflexivity. Qed.

Lemma merge_text_cons_elem n a k l : merge_text (Elem n a k :: l) = Elem n a k :: merge_text l.
Proof. reflexivity. Qed.

Lemma merge_text_empty l : merge_text (Txt "" :: l) = merge_text l.
Proof. simpl. destruct (merge_text l) as [|[]]; reflexivity. Qed.

Lemma merge_text_two b s l : merge_text (Txt b :: Txt s :: l) = merge_text (Txt (b ++ s) :: l).
Proof.
  cbn [merge_text]. destruct (merge_text l) as [|[n a k|t] m] eqn:E.
  - destruct (String.eqb_spec s "") as [->|N]; [now rewrite sapp_nil_r|].
    destruct (String.eqb_spec (b ++ s) "") as [X|X]; [|reflexivity].
    apply sapp_nil_iff in X. tauto.
  - destruct (String.eqb_spec s "") as [->|N]; [now rewrite sapp_nil_r|].
    destruct (String.eqb_spec (b ++ s) "") as [X|X]; [|reflexivity].
    apply sapp_nil_iff in X. tauto.
  - now rewrite sapp_assoc.
Qed.

Lemma merge_text_fl b n a k l :
  merge_text (Txt b :: Elem n a k :: l) = (rev (fl b []) ++ Elem n a k :: merge_text l)%list.
Proof. cbn [merge_text]. unfold fl. destruct (String.eqb b ""); reflexivity. Qed.
