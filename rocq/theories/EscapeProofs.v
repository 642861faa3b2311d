(** Lemmas about escaping. *)
From Coq Require Import String Ascii List Bool Arith Lia.
From Verif Require Import Str EscapeModel EscapeSpec.
Import ListNotations.
Open Scope string_scope.

Lemma is_special_esc c : is_special c = false -> esc_char c = s1 c.
Proof.
  unfold is_special, esc_char.
  destruct (Ascii.eqb c "&"), (Ascii.eqb c "<"), (Ascii.eqb c ">"), (Ascii.eqb c DQ), (Ascii.eqb c SQ);
    simpl; congruence.
Qed.

Lemma no_special_map s : sexists is_special s = false -> smap esc_char s = s.
Proof.
  unfold sexists. rewrite negb_false_iff.
  induction s as [|c s IH]; simpl; [reflexivity|].
  rewrite andb_true_iff, negb_true_iff. intros [H1 H2].
  now rewrite is_special_esc, IH.
Qed.

(** The fast path is invisible. *)
Lemma escape_xml_map s : escape_xml s = smap esc_char s.
Proof.
  unfold escape_xml. destruct (sexists is_special s) eqn:E; simpl; [reflexivity|].
  now rewrite no_special_map.
Qed.

Lemma sfold_push f s b : sfold (fun b c => b ++ f c) s b = b ++ smap f s.
Proof.
  revert b; induction s as [|c s IH]; intros b; simpl; [now rewrite sapp_nil_r|].
  now rewrite IH, sapp_assoc.
Qed.

Lemma append_escape_eq buf s : append_escape_xml buf s = buf ++ escape_xml s.
Proof.
  rewrite escape_xml_map. unfold append_escape_xml.
  destruct (sexists is_special s) eqn:E; simpl.
  - apply sfold_push.
  - now rewrite no_special_map.
Qed.

Lemma props_xml_escape_eq s : props_xml_escape s = escape_xml s.
Proof. unfold props_xml_escape. now rewrite sfold_push, escape_xml_map. Qed.

Lemma chained_escape_eq s : chained_escape s = escape_xml s.
Proof.
  rewrite escape_xml_map. unfold chained_escape, replace_char.
  rewrite !smap_smap. apply smap_ext. intros c.
  unfold esc_char.
  destruct (Ascii.eqb_spec c "&") as [->|N1]; [reflexivity|].
  destruct (Ascii.eqb_spec c "<") as [->|N2]; [reflexivity|].
  destruct (Ascii.eqb_spec c ">") as [->|N3]; [reflexivity|].
  destruct (Ascii.eqb_spec c DQ) as [->|N4]; [reflexivity|].
  destruct (Ascii.eqb_spec c SQ) as [->|N5]; [reflexivity|].
  simpl. rewrite (proj2 (Ascii.eqb_neq c "<") N2). simpl.
  rewrite (proj2 (Ascii.eqb_neq c ">") N3). simpl.
  rewrite (proj2 (Ascii.eqb_neq c DQ) N4). simpl.
  rewrite (proj2 (Ascii.eqb_neq c SQ) N5). reflexivity.
Qed.

Lemma escape_html_map s :
  escape_html s = smap (fun c => if Ascii.eqb c SQ then "&#39;" else esc_char c) s.
Proof.
  unfold escape_html, replace_char.
  rewrite !smap_smap. apply smap_ext. intros c.
  unfold esc_char.
  destruct (Ascii.eqb_spec c "&") as [->|N1]; [reflexivity|].
  destruct (Ascii.eqb_spec c "<") as [->|N2]; [reflexivity|].
  destruct (Ascii.eqb_spec c ">") as [->|N3]; [reflexivity|].
  destruct (Ascii.eqb_spec c DQ) as [->|N4]; [reflexivity|].
  destruct (Ascii.eqb_spec c SQ) as [->|N5]; [reflexivity|].
  simpl. rewrite (proj2 (Ascii.eqb_neq c "<") N2). simpl.
  rewrite (proj2 (Ascii.eqb_neq c ">") N3). simpl.
  rewrite (proj2 (Ascii.eqb_neq c DQ) N4). simpl.
  rewrite (proj2 (Ascii.eqb_neq c SQ) N5). reflexivity.
Qed.

Lemma escape_xml_app s t : escape_xml (s ++ t) = escape_xml s ++ escape_xml t.
Proof. rewrite !escape_xml_map. apply smap_app. Qed.

Lemma escape_xml_cons c s : escape_xml (String c s) = esc_char c ++ escape_xml s.
Proof. now rewrite !escape_xml_map. Qed.

(** ** Decoding *)

Lemma escape_Decodes s : Decodes (escape_xml s) s.
Proof.
  rewrite escape_xml_map. induction s as [|c s IH]; simpl; [constructor|].
  unfold esc_char.
  destruct (Ascii.eqb_spec c "&") as [->|N1]; [now apply (D_amp _ s)|].
  destruct (Ascii.eqb_spec c "<") as [->|N2]; [now apply (D_lt _ s)|].
  destruct (Ascii.eqb_spec c ">") as [->|N3]; [now apply (D_gt _ s)|].
  destruct (Ascii.eqb_spec c DQ) as [->|N4]; [now apply (D_quot _ s)|].
  destruct (Ascii.eqb_spec c SQ) as [->|N5]; [now apply (D_apos _ s)|].
  simpl. constructor; auto.
Qed.

Lemma escape_html_Decodes s : HtmlDecodes (escape_html s) s.
Proof.
  rewrite escape_html_map. induction s as [|c s IH]; simpl; [constructor|].
  unfold esc_char.
  destruct (Ascii.eqb_spec c SQ) as [->|N5]; [now apply (H_apos _ s)|].
  destruct (Ascii.eqb_spec c "&") as [->|N1]; [now apply (H_amp _ s)|].
  destruct (Ascii.eqb_spec c "<") as [->|N2]; [now apply (H_lt _ s)|].
  destruct (Ascii.eqb_spec c ">") as [->|N3]; [now apply (H_gt _ s)|].
  destruct (Ascii.eqb_spec c DQ) as [->|N4]; [now apply (H_quot _ s)|].
  simpl. constructor; auto.
Qed.

Lemma Decodes_functional r t1 t2 : Decodes r t1 -> Decodes r t2 -> t1 = t2.
Proof.
  intros H; revert t2; induction H; intros t2 K2;
    inversion K2; subst; try congruence; simpl; f_equal; auto.
Qed.

Lemma occurs_app c s t : occurs c (s ++ t) <-> occurs c s \/ occurs c t.
Proof. induction s; simpl; [tauto|]. rewrite IHs. tauto. Qed.

Lemma Decodes_clean r t c : Decodes r t ->
  c = "<"%char \/ c = ">"%char \/ c = """"%char \/ c = "'"%char -> ~ occurs c r.
Proof.
  intros H Hc; induction H; simpl; try (intuition congruence).
Qed.

Lemma escape_clean s c :
  c = "<"%char \/ c = ">"%char \/ c = """"%char \/ c = "'"%char -> ~ occurs c (escape_xml s).
Proof. apply (Decodes_clean _ s), escape_Decodes. Qed.

Lemma HtmlDecodes_clean r t c : HtmlDecodes r t ->
  c = "<"%char \/ c = ">"%char \/ c = """"%char \/ c = "'"%char -> ~ occurs c r.
Proof. intros H Hc; induction H; simpl; try (intuition congruence). Qed.

Lemma HtmlDecodes_functional r t1 t2 : HtmlDecodes r t1 -> HtmlDecodes r t2 -> t1 = t2.
Proof.
  intros H; revert t2; induction H; intros t2 K2;
    inversion K2; subst; try congruence; simpl; f_equal; auto.
Qed.

Lemma escape_inj s t : escape_xml s = escape_xml t -> s = t.
Proof.
  intros H. apply (Decodes_functional (escape_xml s)).
  - apply escape_Decodes.
  - rewrite H. apply escape_Decodes.
Qed.

Lemma escape_plain s :
  (~ occurs "&" s) -> (~ occurs "<" s) -> (~ occurs ">" s) -> (~ occurs """" s) -> (~ occurs "'" s) ->
  escape_xml s = s.
Proof.
  rewrite escape_xml_map. induction s as [|c s IH]; simpl; [reflexivity|].
  intros A B C D E. rewrite IH by tauto. unfold esc_char.
  destruct (Ascii.eqb_spec c "&"); [subst; tauto|].
  destruct (Ascii.eqb_spec c "<"); [subst; tauto|].
  destruct (Ascii.eqb_spec c ">"); [subst; tauto|].
  destruct (Ascii.eqb_spec c DQ); [subst; exfalso; apply D; now left|].
  destruct (Ascii.eqb_spec c SQ); [subst; exfalso; apply E; now left|].
  reflexivity.
Qed.

(** ** The attribute escaper of the theme writer *)

Lemma escape_xml_attr_map s :
  escape_xml_attr s =
  smap (fun c => if Ascii.eqb c "&" then "&amp;" else if Ascii.eqb c DQ then "&quot;"
                 else if Ascii.eqb c "<" then "&lt;" else s1 c) s.
Proof.
  unfold escape_xml_attr, replace_char. rewrite !smap_smap. apply smap_ext. intros c.
  destruct (Ascii.eqb_spec c "&") as [->|N1]; [reflexivity|].
  destruct (Ascii.eqb_spec c DQ) as [->|N4]; [reflexivity|].
  simpl. rewrite (proj2 (Ascii.eqb_neq c DQ) N4). simpl.
  destruct (Ascii.eqb_spec c "<") as [->|N2]; reflexivity.
Qed.

(** ** Markdown *)

Definition md_esc_char (c : ascii) : string :=
  if Ascii.eqb c "\" then "\\" else if md_active c then String "\" (s1 c) else s1 c.

Lemma escape_markdown_map s : escape_markdown s = smap md_esc_char s.
Proof.
  unfold escape_markdown, replace_char. rewrite !smap_smap. apply smap_ext. intros c.
  destruct c as [[] [] [] [] [] [] [] []]; reflexivity.
Qed.

Lemma md_esc_shape c :
  (exists d, md_esc_char c = String "\" (s1 d) /\ d = c /\ ascii_punct c = true) \/
  (md_esc_char c = s1 c /\ c <> "\"%char /\ md_active c = false).
Proof.
  unfold md_esc_char.
  destruct (Ascii.eqb_spec c "\") as [->|N]; [left; exists "\"%char; auto|].
  destruct (md_active c) eqn:E.
  - left. exists c. repeat split. destruct c as [[] [] [] [] [] [] [] []]; vm_compute in E |- *; congruence.
  - right. auto.
Qed.

Lemma md_unescape_plain e c s : c <> "\"%char -> md_unescape e (String c s) = String c (md_unescape e s).
Proof. intros H. destruct c as [[] [] [] [] [] [] [] []]; try reflexivity. congruence. Qed.

Lemma md_inert_plain c s : c <> "\"%char -> md_inert (String c s) = negb (md_active c) && md_inert s.
Proof. intros H. destruct c as [[] [] [] [] [] [] [] []]; try reflexivity. congruence. Qed.

Lemma escape_markdown_roundtrip s : md_unescape ascii_punct (escape_markdown s) = s.
Proof.
  rewrite escape_markdown_map. induction s as [|c s IH]; simpl; [reflexivity|].
  destruct (md_esc_shape c) as [(d & -> & -> & P)|(-> & N & _)].
  - simpl. now rewrite P, IH.
  - change (s1 c ++ smap md_esc_char s) with (String c (smap md_esc_char s)).
    rewrite md_unescape_plain by assumption. now rewrite IH.
Qed.

Lemma escape_markdown_inert s : md_inert (escape_markdown s) = true.
Proof.
  rewrite escape_markdown_map. induction s as [|c s IH]; simpl; [reflexivity|].
  destruct (md_esc_shape c) as [(d & -> & -> & P)|(-> & N & A)].
  - simpl. exact IH.
  - change (s1 c ++ smap md_esc_char s) with (String c (smap md_esc_char s)).
    rewrite md_inert_plain by assumption. now rewrite A, IH.
Qed.
