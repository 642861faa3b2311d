(** Lemma: in what the XML reader returns no element has an attribute twice. *)
From Coq Require Import String Ascii List Bool.
From Verif Require Import Str XmlSpec.
Import ListNotations.
Open Scope string_scope.

Fixpoint keys_ok (x : node) : Prop :=
  match x with
  | Elem _ a ks => NoDup (map fst a) /\ (fix all (l : list node) : Prop := match l with [] => True | k :: l => keys_ok k /\ all l end) ks
  | Txt _ => True
  end.
Lemma keys_elem n a ks : keys_ok (Elem n a ks) <-> NoDup (map fst a) /\ Forall keys_ok ks.
Proof.
  cbn [keys_ok]. split; intros [A B]; (split; [exact A|]).
  - induction ks as [|k ks IH]; constructor; [apply B|apply IH, B].
  - induction B as [|k ks K _ IH]; [exact I|]. split; assumption.
Qed.
Definition frame_ok (f : frame) : Prop := NoDup (map fst (f_attrs f)) /\ Forall keys_ok (f_kids f).
Definition lex_ok (l : lex) : Prop :=
  match l with
  | LTag _ a | LAfter _ a | LSlash _ a => NoDup (map fst a)
  | LAttr _ a k => NoDup (map fst a)
  | LEq _ a k | LVal _ a k _ _ | LValEnt _ a k _ _ _ => NoDup (map fst a) /\ ~ In k (map fst a)
  | _ => True
  end.
Definition st_ok (s : st) : Prop := lex_ok (lx s) /\ Forall frame_ok (stack s).
Lemma add_kid_ok x fs : keys_ok x -> Forall frame_ok fs -> Forall frame_ok (add_kid x fs).
Proof. intros X F. destruct F as [|[n a k] fs [A B] F]; [constructor|]. constructor; [|exact F]. split; [exact A|]. now constructor. Qed.
Lemma flush_ok b fs : Forall frame_ok fs -> Forall frame_ok (flush b fs).
Proof. intros F. unfold flush. destruct (String.eqb b ""); [exact F|]. now apply add_kid_ok. Qed.
Lemma has_key_in k a : has_key k a = false -> ~ In k (map fst a).
Proof.
  intros H I. apply in_map_iff in I. destruct I as (p & <- & I). unfold has_key in H. rewrite <- not_true_iff_false in H. apply H.
  apply existsb_exists. exists p. split; [exact I|apply String.eqb_refl].
Qed.
Lemma close_ok n fs s : Forall frame_ok fs -> close_elem n fs = Some s -> st_ok s.
Proof.
  intros F. destruct F as [|[m a k] fs [A B] F]; [discriminate|]. destruct fs as [|f fs]; [discriminate|]. cbn [close_elem].
  destruct (String.eqb n m); [|discriminate]. intros E. injection E as <-. split; [exact I|]. apply (add_kid_ok _ (f :: fs)); [|exact F].
  apply keys_elem. split; [exact A|]. now apply Forall_rev.
Qed.
Lemma step_ok l fs c s : lex_ok l -> Forall frame_ok fs -> step1 l fs c = Some s -> st_ok s.
Proof.
  intros L F. pose proof (fun b => flush_ok b fs F) as FF.
  destruct l; cbn [step1 lex_ok] in *; repeat match goal with |- context [if ?b then _ else _] => destruct b eqn:?; [|] end;
    try discriminate; try (intros E; injection E as <-; split; cbn [lx stack lex_ok]; auto; fail).
  - destruct (entity e); [|discriminate]. intros E; injection E as <-. split; cbn; auto.
  - intros E; injection E as <-. split; cbn; [constructor|auto].
  - intros E; injection E as <-. split; cbn; [constructor|auto].
  - intros E; injection E as <-. split; cbn; [auto|]. constructor; [split; constructor|exact F].
  - intros E; injection E as <-. split; cbn; [auto|]. constructor; [split; [exact L|constructor]|exact F].
  - intros E; injection E as <-. split; cbn; [|auto]. split; [exact L|]. now apply has_key_in.
  - intros E; injection E as <-. split; cbn; [|auto]. rewrite map_app. cbn. destruct L as [L1 L2]. rewrite <- (rev_involutive (map fst a ++ [k])). apply NoDup_rev. rewrite rev_app_distr. cbn. constructor; [now rewrite <- in_rev|now apply NoDup_rev].
  - destruct (entity e); [|discriminate]. intros E; injection E as <-. split; cbn; auto.
  - intros E; injection E as <-. split; cbn; [auto|]. constructor; [split; [exact L|constructor]|exact F].
  - intros E; injection E as <-. split; cbn; [auto|]. apply add_kid_ok; [|exact F]. apply keys_elem. split; [exact L|constructor].
  - intros E. exact (close_ok _ _ _ F E).
  - intros E. exact (close_ok _ _ _ F E).
Qed.
Lemma run_ok s : forall o, (forall x, o = Some x -> st_ok x) -> forall x, xrun s o = Some x -> st_ok x.
Proof.
  induction s as [|c s IH]; intros o H; [exact H|]. cbn [xrun]. apply IH. intros x. unfold xstep. destruct o as [[l fs]|]; [|discriminate].
  destruct (H _ eq_refl) as [A B]. destruct (xml_char c); [|discriminate]. now apply step_ok.
Qed.
Lemma read_keys s x : xml_read s = Some x -> keys_ok x.
Proof.
  unfold xml_read. destruct (xrun (eol s) start) as [[l fs]|] eqn:E; [|discriminate].
  assert (S : st_ok (St l fs)). { apply (run_ok (eol s) start); [|exact E]. intros y Y. injection Y as <-. split; [exact I|]. repeat constructor. }
  destruct S as [_ S]. cbn [stack] in S. destruct l; try discriminate. apply (flush_ok b) in S.
  destruct (flush b fs) as [|[n a k] [|? ?]]; try discriminate. inversion S as [|? ? [_ K] _]; subst. cbn [f_kids] in K. unfold root_of.
  destruct (filter _ (rev k)) as [|[m a' k'|] [|? ?]] eqn:R; try discriminate. intros Q. injection Q as <-.
  assert (I : In (Elem m a' k') (filter (fun x => negb (is_blank_text x)) (rev k))) by (rewrite R; now left).
  apply filter_In in I. rewrite Forall_forall in K. apply K. rewrite in_rev. apply I.
Qed.
