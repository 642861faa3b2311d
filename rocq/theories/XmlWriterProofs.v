(** Lemmas about XmlWriter. *)
From Coq Require Import String Ascii List Bool NArith Lia.
From Verif Require Import Str EscapeModel EscapeProofs XmlSpec XmlProofs XmlWriterModel XmlWriterSpec.
Import ListNotations.
Open Scope string_scope.

(** The text a call appends to the buffer. *)
Definition attrs_str (a : list (string * string)) : string :=
  sconcat (map (fun p => " " ++ fst p ++ "=""" ++ escape_xml (snd p) ++ """") a).

Fixpoint call_str (c : call) : string :=
  match c with
  | CElem n a body =>
      "<" ++ n ++ attrs_str a ++ ">" ++ sconcat (map call_str body) ++ "</" ++ n ++ ">"
  | CEmpty n a => "<" ++ n ++ attrs_str a ++ "/>"
  | CText s => escape_xml s
  end.

Section call_ind.
  Variable P : call -> Prop.
  Hypothesis HE : forall n a l, Forall P l -> P (CElem n a l).
  Hypothesis HM : forall n a, P (CEmpty n a).
  Hypothesis HT : forall s, P (CText s).
  Fixpoint call_ind' (c : call) : P c :=
    match c with
    | CElem n a l =>
        HE n a l ((fix go (l : list call) : Forall P l :=
                     match l with [] => Forall_nil _ | c :: l => Forall_cons _ (call_ind' c) (go l) end) l)
    | CEmpty n a => HM n a
    | CText s => HT s
    end.
End call_ind.

Lemma push_attrs_str a buf : push_attrs a buf = buf ++ attrs_str a.
Proof.
  unfold push_attrs, attrs_str. revert buf.
  induction a as [|[k v] a IH]; intros buf; cbn [fold_left map sconcat fold_right];
    [now rewrite sapp_nil_r|].
  rewrite IH, append_escape_eq. cbn [fst snd]. fold (sconcat (map (fun p => " " ++ fst p ++ "=""" ++ escape_xml (snd p) ++ """") a)).
  rewrite !sapp_assoc. reflexivity.
Qed.

Lemma emit_str c buf : emit c buf = buf ++ call_str c.
Proof.
  revert buf. induction c as [n a l IH|n a|s] using call_ind'; intros buf.
  - cbn [emit call_str]. unfold end_element, start_element. rewrite push_attrs_str.
    assert (E : forall b, (fix emits (l : list call) (buf : string) : string :=
               match l with [] => buf | c :: l => emits l (emit c buf) end) l b
               = b ++ sconcat (map call_str l)).
    { induction IH as [|c l Hc Hl IHl]; intros b; [cbn; now rewrite sapp_nil_r|].
      rewrite IHl, Hc. cbn [map sconcat fold_right]. now rewrite sapp_assoc. }
    rewrite E. now rewrite !sapp_assoc.
  - cbn [emit call_str]. unfold empty_element. rewrite push_attrs_str. now rewrite !sapp_assoc.
  - cbn [emit call_str]. unfold text. now rewrite append_escape_eq.
Qed.

(** Start of an element: from < to just after the attributes. *)
Definition tag_state (n : string) (a : list (string * string)) : lex :=
  match a with [] => LOpen n | _ => LAfter n a end.

Lemma has_key_false k a : ~ In k (map fst a) -> has_key k a = false.
Proof.
  unfold has_key. induction a as [|[k' v] a IH]; simpl; [auto|].
  intros H. rewrite IH by tauto. destruct (String.eqb_spec k k'); [subst; tauto|reflexivity].
Qed.

Lemma xrun_attrs n a0 a fs : NoDup (map fst (a0 ++ a)%list) ->
  Forall (fun p => is_name (fst p) = true /\ attr_ok (snd p) = true) a ->
  xrun (attrs_str a) (Some (St (tag_state n a0) fs)) = Some (St (tag_state n (a0 ++ a)%list) fs).
Proof.
  revert a0; induction a as [|[k v] a IH]; intros a0 ND F.
  - simpl. now rewrite app_nil_r.
  - inversion F as [|x y [Hk Hv] F']; subst. cbn [fst snd] in *.
    unfold attrs_str. cbn [map sconcat fold_right].
    fold (sconcat (map (fun p => " " ++ fst p ++ "=""" ++ escape_xml (snd p) ++ """") a)).
    fold (attrs_str a). cbn [fst snd].
    rewrite !xrun_app.
    assert (E1 : xrun " " (Some (St (tag_state n a0) fs)) = Some (St (LTag n a0) fs)).
    { destruct a0; reflexivity. }
    rewrite E1, xrun_attr_name by assumption.
    assert (E2 : xrun "=""" (Some (St (LAttr n a0 k) fs)) = Some (St (LVal n a0 k c_quot "") fs)).
    { cbn [xrun]. unfold xstep at 2. unfold step1 at 1.
      change (xml_char "=") with true. change (name_char "=") with false.
      change (Ascii.eqb "=" "=") with true. cbv iota.
      rewrite has_key_false; [reflexivity|].
      rewrite map_app in ND. apply NoDup_remove_2 in ND. rewrite in_app_iff in ND. tauto. }
    rewrite E2, xrun_escape_val by assumption.
    change ("" ++ v) with v.
    assert (E3 : xrun """" (Some (St (LVal n a0 k c_quot v) fs)) = Some (St (tag_state n (a0 ++ [(k, v)])%list) fs)).
    { simpl. destruct a0; reflexivity. }
    rewrite E3.
    replace (a0 ++ (k, v) :: a)%list with ((a0 ++ [(k, v)]) ++ a)%list in * by (rewrite <- app_assoc; reflexivity).
    apply IH; assumption.
Qed.

Lemma xrun_start n a fs b : is_name n = true -> attrs_ok a ->
  xrun ("<" ++ n ++ attrs_str a) (Some (St (LText b) fs)) = Some (St (tag_state n a) (flush b fs)).
Proof.
  intros Hn [ND F]. rewrite !xrun_app.
  change (xrun "<" (Some (St (LText b) fs))) with (Some (St LLt (flush b fs))).
  rewrite xrun_open_name by assumption.
  exact (xrun_attrs n [] a (flush b fs) ND F).
Qed.

Fixpoint acc (l : list node) (b : string) (k : list node) : string * list node :=
  match l with
  | [] => (b, k)
  | Txt s :: l => acc l (b ++ s) k
  | Elem n a x :: l => acc l "" (Elem n a x :: fl b k)
  end.

Lemma acc_merge l b k : let r := acc l b k in rev (fl (fst r) (snd r)) = (rev k ++ merge_text (Txt b :: l))%list.
Proof.
  revert b k. induction l as [|[n a x|s] l IH]; intros b k r; subst r.
  - cbn [acc fst snd]. cbn [merge_text]. unfold fl. destruct (String.eqb b ""); simpl; [now rewrite app_nil_r|reflexivity].
  - cbn [acc]. rewrite IH, merge_text_empty, merge_text_fl. cbn [rev].
    unfold fl. destruct (String.eqb b ""); cbn [rev app]; rewrite <- !app_assoc; reflexivity.
  - cbn [acc]. rewrite IH. now rewrite merge_text_two.
Qed.

Lemma call_ok_forall l :
  (fix all (l : list call) : Prop := match l with [] => True | c :: l => call_ok c /\ all l end) l
  <-> Forall call_ok l.
Proof.
  induction l as [|c l IH]; split; intros H; auto.
  - destruct H as [A B]. constructor; [assumption|now apply IH].
  - inversion H; subst. split; [assumption|now apply IH].
Qed.

Lemma xrun_call c : call_ok c -> forall b fn fa k fs,
  xrun (call_str c) (Some (St (LText b) (Frame fn fa k :: fs))) =
  let r := acc [node_of c] b k in Some (St (LText (fst r)) (Frame fn fa (snd r) :: fs)).
Proof.
  induction c as [n a l IH|n a|s] using call_ind'; intros Hok b fn fa k fs.
  - cbn [call_ok] in Hok. destruct Hok as (Hn & Ha & Hl). rewrite call_ok_forall in Hl.
    cbn [call_str node_of acc fst snd].
    rewrite <- sapp_assoc, <- sapp_assoc. rewrite (xrun_app _ (">" ++ _)).
    rewrite sapp_assoc, xrun_start by assumption. rewrite flush_fl.
    rewrite (xrun_app ">").
    assert (E : xrun ">" (Some (St (tag_state n a) (Frame fn fa (fl b k) :: fs)))
                = Some (St (LText "") (Frame n a [] :: Frame fn fa (fl b k) :: fs))).
    { destruct a; reflexivity. }
    rewrite E; clear E. rewrite xrun_app.
    assert (E : forall b0 k0, xrun (sconcat (map call_str l)) (Some (St (LText b0) (Frame n a k0 :: Frame fn fa (fl b k) :: fs)))
                = let r := acc (map node_of l) b0 k0 in
                  Some (St (LText (fst r)) (Frame n a (snd r) :: Frame fn fa (fl b k) :: fs))).
    { clear Hn Ha. induction IH as [|c l Hc Hl' IHl]; intros b0 k0; [reflexivity|].
      inversion Hl; subst. cbn [map sconcat fold_right]. rewrite xrun_app, Hc by assumption.
      fold (sconcat (map call_str l)).
      destruct (node_of c) as [n1 a1 x1|s1]; cbn [acc fst snd]; apply IHl; assumption. }
    rewrite E; clear E. cbv zeta.
    pose proof (acc_merge (map node_of l) "" []) as M. cbv zeta in M.
    rewrite merge_text_empty in M. cbn [rev app] in M.
    destruct (acc (map node_of l) "" []) as [b' k']. cbn [fst snd] in *.
    rewrite !xrun_app.
    change (xrun "</" (Some (St (LText b') (Frame n a k' :: Frame fn fa (fl b k) :: fs))))
      with (Some (St (LClose "") (flush b' (Frame n a k' :: Frame fn fa (fl b k) :: fs)))).
    rewrite flush_fl, xrun_close_name by assumption.
    cbn [xrun]. unfold xstep, step1. change (xml_char ">") with true. change (name_start ">") with false.
    change (name_char ">") with false. destruct (String.eqb n ""); cbv iota;
      change (Ascii.eqb ">" ">") with true; cbv iota; unfold close_elem; rewrite String.eqb_refl, M; reflexivity.
  - destruct Hok as (Hn & Ha). cbn [call_str node_of acc fst snd].
    rewrite <- sapp_assoc, <- sapp_assoc. rewrite (xrun_app _ "/>").
    rewrite sapp_assoc, xrun_start by assumption. rewrite flush_fl.
    destruct a; reflexivity.
  - cbn [call_str node_of acc fst snd]. apply xrun_escape_text, text_ok_chars, Hok.
Qed.

Lemma attrs_str_not_cr a : attrs_ok a -> sforall not_cr (attrs_str a) = true.
Proof.
  intros [_ F]. induction F as [|[k v] a [Hk Hv] F IH]; [reflexivity|].
  unfold attrs_str. cbn [map sconcat fold_right fst snd] in *.
  rewrite !sforall_app. fold (sconcat (map (fun p => " " ++ fst p ++ "=""" ++ escape_xml (snd p) ++ """") a)).
  fold (attrs_str a). rewrite IH, (is_name_not_cr k) by assumption.
  rewrite (escape_not_cr v) by (now apply attr_ok_not_cr). reflexivity.
Qed.

Lemma call_str_not_cr c : call_ok c -> sforall not_cr (call_str c) = true.
Proof.
  induction c as [n a l IH|n a|s] using call_ind'; intros Hok.
  - cbn [call_ok] in Hok. destruct Hok as (Hn & Ha & Hl). rewrite call_ok_forall in Hl.
    cbn [call_str]. rewrite !sforall_app, attrs_str_not_cr, (is_name_not_cr n) by assumption.
    assert (E : sforall not_cr (sconcat (map call_str l)) = true).
    { clear Hn Ha. induction IH as [|c l Hc Hl' IHl]; [reflexivity|]. inversion Hl; subst.
      cbn [map sconcat fold_right]. rewrite sforall_app, Hc by assumption. now apply IHl. }
    rewrite E. reflexivity.
  - destruct Hok as (Hn & Ha). cbn [call_str].
    rewrite !sforall_app, attrs_str_not_cr, (is_name_not_cr n) by assumption. reflexivity.
  - cbn [call_str]. apply escape_not_cr, text_ok_not_cr, Hok.
Qed.

Lemma write_document_read n a body : call_ok (CElem n a body) ->
  xml_read (write_document n a body) = Some (node_of (CElem n a body)).
Proof.
  intros Hok. unfold write_document. rewrite emit_str.
  unfold xml_read. rewrite eol_id.
  2:{ rewrite sforall_app, call_str_not_cr by assumption. reflexivity. }
  rewrite xrun_app.
  change (xrun (xml_declaration writer_new) start) with (Some (St (LText nl) [Frame "" [] []])).
  rewrite xrun_call by assumption. cbn [node_of acc fst snd]. reflexivity.
Qed.
