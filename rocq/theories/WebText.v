(** Shortened texts. *)
From Coq Require Import String Ascii List Bool Arith NArith Lia.
From Verif Require Import Str StrRefl XmlSpec ValidProofs ColorModel WebModel WebSpec.
Import ListNotations.
Open Scope nat_scope.
Open Scope string_scope.

Lemma sub_whole s : substring 0 (String.length s) s = s.
Proof. induction s as [|c s IH]; [reflexivity|]. cbn. now rewrite IH. Qed.
Lemma sub_split n : forall s, n <= String.length s -> exists r, s = substring 0 n s ++ r /\ String.length (substring 0 n s) = n.
Proof.
  induction n as [|n IH]; intros s L; [exists s; split; [now destruct s|now destruct s]|]. destruct s as [|c s]; [cbn in L; lia|]. cbn in L. destruct (IH s) as (r & E & Q); [lia|].
  exists r. cbn. split; [now rewrite E at 1|now rewrite Q].
Qed.
Lemma get_at p : forall c r, String.get (String.length p) (p ++ String c r) = Some c.
Proof. induction p as [|d p IH]; intros c r; [reflexivity|]. cbn. apply IH. Qed.
Lemma get_left p : forall k r, k < String.length p -> String.get k (p ++ r) = String.get k p.
Proof. induction p as [|d p IH]; intros k r L; [cbn in L; lia|]. destruct k; [reflexivity|]. cbn in *. apply IH. lia. Qed.
Lemma boundary_get k t x : String.get k t = Some x -> boundary k t = negb (continuing x).
Proof. intros E. unfold boundary. now rewrite E. Qed.
Lemma back_spec n : forall t, back_to n t <= n /\ (back_to n t <> 0 -> boundary (back_to n t) t = true) /\ (forall k, back_to n t < k <= n -> boundary k t = false).
Proof.
  induction n as [|n IH]; intros t; [cbn; repeat split; [lia|congruence|lia]|]. cbn [back_to]. destruct (boundary (S n) t) eqn:E.
  - split; [lia|]. split; [intros _; exact E|lia].
  - destruct (IH t) as (A & B & C). split; [lia|]. split; [exact B|]. intros k K. destruct (Nat.eq_dec k (S n)) as [->|NE]; [exact E|apply C; lia].
Qed.
Lemma rfind_at c s : forall i, rfind c s = Some i -> i < String.length s /\ String.get i s = Some c.
Proof.
  induction s as [|x s IH]; intros i E; [discriminate|]. cbn in E. destruct (rfind c s) as [j|].
  - injection E as <-. destruct (IH j eq_refl). cbn. split; [lia|assumption].
  - destruct (Ascii.eqb x c) eqn:Q; [|discriminate]. injection E as <-. apply Ascii.eqb_eq in Q. subst. cbn. split; [lia|reflexivity].
Qed.
Lemma get_split i t c : String.get i t = Some c -> exists r, t = substring 0 i t ++ String c r /\ String.length (substring 0 i t) = i.
Proof.
  revert t. induction i as [|i IH]; intros t E; destruct t as [|x t]; try discriminate.
  - injection E as ->. exists t. split; reflexivity.
  - destruct (IH t E) as (r & Q & L). exists r. cbn. split; [now rewrite Q at 1|now rewrite L].
Qed.
Lemma short_text t n : shortened n t (truncate_text t n).
Proof.
  unfold truncate_text, shortened. destruct (Nat.leb_spec (String.length t) n) as [L|L]; [left; split; [exact L|reflexivity]|]. right. split; [exact L|]. cbv zeta.
  destruct (back_spec n t) as (A & B & C). set (e := back_to n t) in *. clearbody e.
  destruct (sub_split e t) as (r & E & Q); [lia|].
  assert (D : forall u, u = trim_end_by is_ws (substring 0 e t) ++ "..." -> exists p c rest, t = p ++ String c rest /\ String.length p <= n /\ (p <> "" -> continuing c = false)
     /\ (c = " "%char /\ n / 2 < String.length p \/ forall k x, String.length p < k <= n -> String.get k t = Some x -> continuing x = true) /\ u = trim_end_by is_ws p ++ "...").
  { intros u ->. destruct r as [|c r].
    - exfalso. rewrite E, app_len, Q in L. cbn in L. lia.
    - exists (substring 0 e t), c, r. rewrite Q. split; [exact E|]. split; [lia|].
      assert (G : String.get e t = Some c) by (rewrite E at 1; rewrite <- Q at 1; apply get_at).
      split; [|split; [right|reflexivity]].
      + intros NE. assert (e <> 0) by (intros ->; apply NE; now destruct t). pose proof (B H) as Bo. rewrite (boundary_get _ _ _ G) in Bo. now apply negb_true_iff.
      + intros k x K X. pose proof (C k K) as Bo. rewrite (boundary_get _ _ _ X) in Bo. now apply negb_false_iff. }
  destruct (rfind " " (substring 0 e t)) as [i|] eqn:R; [|now apply D]. destruct (Nat.ltb_spec (n / 2) i) as [I|I]; [|now apply D].
  destruct (rfind_at _ _ _ R) as (LI & G). rewrite Q in LI. assert (G' : String.get i t = Some " "%char) by (rewrite E at 1; rewrite get_left by (rewrite Q; exact LI); exact G).
  destruct (get_split i t _ G') as (r' & E' & Q'). exists (substring 0 i t), " "%char, r'. rewrite Q'. split; [exact E'|]. split; [lia|]. split; [intros _; reflexivity|]. split; [left; split; [reflexivity|exact I]|reflexivity].
Qed.
Lemma text_ok_app a b : text_ok (a ++ b) = text_ok a && text_ok b.
Proof. induction a as [|c a IH]; [reflexivity|]. change (String c a ++ b) with (String c (a ++ b)). cbn [text_ok]. rewrite IH. now rewrite andb_assoc. Qed.
Lemma trim_end_prefix p s : exists r, s = trim_end_by p s ++ r.
Proof.
  unfold trim_end_by. assert (Q : exists y, srev s = y ++ trim_start_by p (srev s)).
  { induction (srev s) as [|d r (y & IH)]; [exists ""; reflexivity|]. cbn [trim_start_by]. destruct (p d); [exists (String d y); rewrite IH at 1; reflexivity|exists ""; reflexivity]. }
  destruct Q as (y & Q). exists (srev y). rewrite <- srev_sapp, <- Q. now rewrite srev_involutive.
Qed.
Lemma shortened_ok n t u : shortened n t u -> text_ok t = true -> text_ok u = true.
Proof.
  intros [[_ ->]|(_ & p & c & rest & E & _ & _ & _ & ->)] T; [exact T|]. rewrite E, text_ok_app in T. apply andb_prop in T as [T _].
  destruct (trim_end_prefix is_ws p) as (r & P). rewrite P, text_ok_app in T. apply andb_prop in T as [T _]. now rewrite text_ok_app, T.
Qed.
