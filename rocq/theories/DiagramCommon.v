(** Lemmas for all diagrams. *)
From Coq Require Import String Ascii List Bool Arith NArith ZArith Permutation Lia.
From Verif Require Import Str Num ColorModel TableModel ShapeModel ConnectorModel ValidSpec ValidProofs FlowModel FlowSpec FlowText FlowDraw FlowThms DiagramModel DiagramSpec.
Import ListNotations.
Open Scope nat_scope.
Open Scope string_scope.

(** ** Numbers *)
Lemma idxe n : (N.of_nat n <= 4294967295)%N -> idx n = N.of_nat n.
Proof. intros H. now apply idx_exact. Qed.
Lemma sub_exact a b : (b <= a <= 4294967295)%N -> sub a b = (a - b)%N.
Proof.
  intros H. unfold sub. apply wsub_exact; unfold u32_max; lia.
Qed.
(** ** Texts *)
Lemma not_free s l c : without l s = true -> existsb (Ascii.eqb c) l = true -> free c s.
Proof.
  unfold without. intros W C. revert W. apply sforall_weaken. intros d D. apply negb_true_iff in D. apply negb_true_iff. destruct (Ascii.eqb_spec c d); [subst; congruence|reflexivity].
Qed.
Lemma trim_ends s : trim s = s -> s <> "" -> solid s.
Proof.
  intros T N. assert (A : trim_start_by is_ws s = s).
  { destruct s as [|c s]; [reflexivity|]. cbn [trim_start_by]. destruct (is_ws c) eqn:C; [|reflexivity]. exfalso.
    assert (LE : forall p x, String.length (trim_start_by p x) <= String.length x). { intros p x. induction x as [|y x IH]; [cbn; lia|]. cbn [trim_start_by]. destruct (p y); cbn [String.length]; lia. }
    assert (SR : forall x, String.length (srev x) = String.length x). { induction x as [|y x IH]; [reflexivity|]. rewrite srev_cons, app_len, IH. cbn. lia. }
    apply (f_equal String.length) in T. unfold trim, trim_end_by in T. cbn [trim_start_by] in T. rewrite C, SR in T. pose proof (LE is_ws (srev (trim_start_by is_ws s))) as X. rewrite SR in X. pose proof (LE is_ws s). cbn [String.length] in T. lia. }
  split.
  - destruct s as [|c x]; [congruence|]. exists c, x. split; [reflexivity|]. cbn in A. destruct (is_ws c); [|reflexivity]. exfalso. apply (f_equal String.length) in A.
    assert (LE : forall p x, String.length (trim_start_by p x) <= String.length x). { intros p y. induction y as [|z y IH]; [cbn; lia|]. cbn [trim_start_by]. destruct (p z); cbn [String.length]; lia. }
    pose proof (LE is_ws x). cbn in A. lia.
  - unfold trim in T. rewrite A in T. unfold trim_end_by in T. apply (f_equal srev) in T. rewrite srev_involutive in T.
    destruct (srev s) as [|c x] eqn:E; [apply (f_equal srev) in E; rewrite srev_involutive in E; now subst|]. exists c, (srev x). split; [rewrite <- (srev_involutive s), E; apply srev_cons|].
    cbn in T. destruct (is_ws c); [|reflexivity]. exfalso. apply (f_equal String.length) in T.
    assert (LE : forall p x, String.length (trim_start_by p x) <= String.length x). { intros p y. induction y as [|z y IH]; [cbn; lia|]. cbn [trim_start_by]. destruct (p z); cbn [String.length]; lia. }
    pose proof (LE is_ws x). cbn in T. lia.
Qed.
Lemma tidy_solid s : tidy s = true -> solid s.
Proof. unfold tidy. intros H. apply andb_prop in H as [T N]. apply String.eqb_eq in T. apply trim_ends; [exact T|]. intros ->. discriminate. Qed.
Lemma tidy_trim s : tidy s = true -> trim s = s.
Proof. intros H. apply trim_solid. now apply tidy_solid. Qed.
Lemma tidy_before s : tidy s = true -> trim (" " ++ s) = s.
Proof. intros H. rewrite trim_before. now apply tidy_trim. Qed.
Lemma tidy_some s : tidy s = true -> String.eqb s "" = false.
Proof. unfold tidy. intros H. apply andb_prop in H as [_ H]. now apply negb_true_iff. Qed.
Lemma solid_some s : solid s -> String.eqb s "" = false.
Proof. intros [(c & x & -> & _) _]. reflexivity. Qed.
Lemma solid_app a b c : solid a -> solid c -> solid (a ++ b ++ c).
Proof.
  intros [(x & y & -> & X) _] [_ (z & t & -> & Z)]. split; [exists x, (y ++ b ++ t ++ s1 z); auto|]. exists z, (String x y ++ b ++ t). split; [now rewrite !sapp_assoc|exact Z].
Qed.
Lemma contains_split p s : contains p s = match split_once p s with Some _ => true | None => false end.
Proof. unfold contains. destruct (split_once p s) as [[? ?]|]; reflexivity. Qed.
Lemma starts_word p i s : starts_with p (i ++ s) = true -> starts_with p i = true \/ exists u, p = i ++ u /\ starts_with u s = true.
Proof.
  revert i. induction p as [|c p IH]; intros i H; [now left|]. destruct i as [|d i]; [right; exists (String c p); auto|]. cbn [append starts_with] in H. cbn [starts_with].
  destruct (Ascii.eqb c d) eqn:E; [|discriminate]. apply Ascii.eqb_eq in E. subst. destruct (IH i H) as [A|(u & -> & B)]; [now left|right; exists u; auto].
Qed.
(** A word does not begin a line if the line begins with other text that ends in
    a character the word does not have. *)
Lemma not_start p i c s : starts_with p i = false -> free c p -> starts_with p (i ++ String c s) = false.
Proof.
  intros I F. destruct (starts_with p (i ++ String c s)) eqn:E; [|reflexivity]. apply starts_word in E as [E|(u & -> & E)]; [congruence|].
  rewrite sforall_app in F. apply andb_prop in F as [_ F]. destruct u as [|d u].
  - rewrite sapp_nil_r in I. rewrite <- I. clear. induction i as [|x i IH]; [reflexivity|]. cbn. now rewrite Ascii.eqb_refl.
  - cbn in E, F. destruct (Ascii.eqb_spec d c); [|discriminate]. subst. rewrite Ascii.eqb_refl in F. discriminate.
Qed.
Lemma not_starts l w s : not_word l s = true -> In w l -> starts_with w s = false.
Proof. unfold not_word. intros H I. rewrite forallb_forall in H. apply negb_true_iff. now apply H. Qed.

(** ** Lists *)
Lemma num_in {A} (l : list A) k a : In (k, a) (numbered l) <-> nth_error l k = Some a.
Proof. apply numbered_in. Qed.
Lemma num_lt {A} (l : list A) k a : In (k, a) (numbered l) -> k < length l.
Proof. intros H. apply num_in in H. apply nth_error_Some. congruence. Qed.
Lemma num_forall {A} (P : nat * A -> Prop) l : (forall k a, k < length l -> nth_error l k = Some a -> P (k, a)) -> Forall P (numbered l).
Proof. intros H. apply Forall_forall. intros [k a] I. apply H; [now apply (num_lt l k a)|now apply num_in]. Qed.
Lemma num_snd {A} (l : list A) : map snd (numbered l) = l.
Proof.
  unfold numbered. generalize 0. induction l as [|a l IH]; intros s; [reflexivity|]. cbn [length seq combine map snd]. now rewrite IH.
Qed.
Lemma num_pairs {A} (R : nat * A -> nat * A -> Prop) l :
  (forall i j a b, i < j < length l -> nth_error l i = Some a -> nth_error l j = Some b -> R (i, a) (j, b)) -> ForallOrdPairs R (numbered l).
Proof.
  intros H. unfold numbered. assert (X : forall s m, (forall i a, nth_error m i = Some a -> nth_error l (s + i) = Some a) -> s + length m <= length l -> ForallOrdPairs R (combine (seq s (length m)) m)).
  { intros s m. revert s. induction m as [|a m IH]; intros s E LE; [constructor|]. cbn [length seq combine] in *. constructor.
    - apply Forall_forall. intros [j b] I. apply combine_seq_in in I as [SJ J]. cbn [fst snd] in SJ, J. assert (j - S s < length m) by (apply nth_error_Some; congruence).
      apply H; [lia|rewrite <- (Nat.add_0_r s); apply E; reflexivity|]. replace j with (s + S (j - S s)) by lia. apply E. exact J.
    - apply IH; [|lia]. intros i b I. replace (S s + i) with (s + S i) by lia. apply E. exact I. }
  apply X; [intros i a I; exact I|lia].
Qed.
Lemma pairs_map {A B} (R : B -> B -> Prop) (f : A -> B) l : ForallOrdPairs (fun a b => R (f a) (f b)) l -> ForallOrdPairs R (map f l).
Proof. induction 1 as [|a l F _ IH]; [constructor|]. cbn. constructor; [now apply Forall_map|exact IH]. Qed.
Lemma both_map {A B C} (R : B -> C -> Prop) (f : A -> B) (g : A -> C) l : Forall (fun a => R (f a) (g a)) l -> Forall2 R (map f l) (map g l).
Proof. induction 1; constructor; auto. Qed.
Lemma both_left {A C} (R : A -> C -> Prop) (g : nat * A -> C) l : Forall (fun ka => R (snd ka) (g ka)) (numbered l) -> Forall2 R l (map g (numbered l)).
Proof. intros H. rewrite <- (num_snd l) at 1. now apply both_map. Qed.
Lemma map_const {A B C} (f : A -> B) (g : A -> C) (h : B -> C) l : (forall a, h (f a) = g a) -> map h (map f l) = map g l.
Proof. intros H. rewrite map_map. apply map_ext. exact H. Qed.
Lemma num_map {A B} (f : A -> B) l : map (fun ka => f (snd ka)) (numbered l) = map f l.
Proof. rewrite <- (num_snd l) at 2. now rewrite map_map. Qed.
Lemma flat2 {A B} (f g : A -> B) l : Permutation (flat_map (fun a => [f a; g a]) l) (map f l ++ map g l).
Proof.
  induction l as [|a l IH]; [constructor|]. cbn [flat_map map app]. constructor. apply Permutation_cons_app. exact IH.
Qed.
Lemma flat3 {A B} (f g h : A -> B) l : Permutation (flat_map (fun a => [f a; g a; h a]) l) (map f l ++ map g l ++ map h l).
Proof.
  induction l as [|a l IH]; [constructor|]. cbn [flat_map map app]. constructor.
  apply Permutation_cons_app. rewrite app_assoc. apply Permutation_cons_app. rewrite <- app_assoc. exact IH.
Qed.
Lemma num_nth {A} (l : list A) k a : nth_error l k = Some a -> nth_error (numbered l) k = Some (k, a).
Proof.
  unfold numbered. assert (X : forall s (m : list A) k a, nth_error m k = Some a -> nth_error (combine (seq s (length m)) m) k = Some (s + k, a)).
  { intros s m. revert s. induction m as [|b m IH]; intros s k' a' E; [destruct k'; discriminate|]. destruct k' as [|k']; cbn in E |- *; [injection E as ->; now rewrite Nat.add_0_r|].
    rewrite (IH (S s) k' a' E). f_equal. f_equal. lia. }
  intros E. apply (X 0 l k a E).
Qed.
Lemma lookup_rev {A} (l : list (string * A)) k v : NoDup (map fst l) -> In (k, v) l -> lookup k (rev l) = Some v.
Proof.
  assert (X : forall m, NoDup (map fst m) -> In (k, v) m -> lookup k m = Some v).
  { induction m as [|[k' v'] m IH]; [destruct 2|]. cbn [map fst lookup]. intros N [E|I].
    - injection E as -> ->. now rewrite String.eqb_refl.
    - inversion_clear N as [|? ? NI N']. destruct (String.eqb_spec k k') as [->|]; [|now apply IH]. exfalso. apply NI. apply in_map_iff. now exists (k', v). }
  intros N I. apply X; [rewrite map_rev; now apply NoDup_rev|now apply in_rev in I].
Qed.
(** ** First entries *)
Section Early.
Context {A : Type} (key : A -> string).
Lemma early_in seen l a : In a (earliest key seen l) -> In a l /\ ~ In (key a) seen.
Proof.
  revert seen. induction l as [|b l IH]; intros seen; [intros []|]. cbn. destruct (existsb (String.eqb (key b)) seen) eqn:E; [intros H; destruct (IH _ H); auto|].
  intros [<-|H]; [split; [auto|]; intros I; assert (existsb (String.eqb (key b)) seen = true) by (apply existsb_exists; exists (key b); split; [exact I|apply String.eqb_refl]); congruence|].
  destruct (IH _ H) as [I N]. split; [auto|]. intros J. apply N. now right.
Qed.
Lemma early_nodup seen l : NoDup (map key (earliest key seen l)).
Proof.
  revert seen. induction l as [|b l IH]; intros seen; [constructor|]. cbn. destruct (existsb (String.eqb (key b)) seen); [apply IH|]. cbn. constructor; [|apply IH].
  intros I. apply in_map_iff in I as (a & E & I). apply early_in in I as [_ N]. apply N. rewrite E. now left.
Qed.
Lemma early_has seen l a : In a l -> ~ In (key a) seen -> exists b, In b (earliest key seen l) /\ key b = key a.
Proof.
  revert seen. induction l as [|b l IH]; intros seen; [intros []|]. cbn. intros I N. destruct (existsb (String.eqb (key b)) seen) eqn:E.
  - destruct I as [<-|I]; [exfalso; apply existsb_exists in E as (k & K & Q); apply String.eqb_eq in Q; now subst|]. now apply IH.
  - destruct (String.eqb_spec (key a) (key b)) as [Q|Q]; [exists b; split; [now left|auto]|]. destruct I as [<-|I]; [congruence|].
    destruct (IH (key b :: seen) I) as (c & C & K); [intros [X|X]; [congruence|auto]|]. exists c. split; [now right|exact K].
Qed.
(** Adding to the end of a list unless there is such an entry. *)
Lemma early_fold (l : list A) (acc : list A) :
  fold_left (fun acc a => if existsb (fun b => String.eqb (key b) (key a)) acc then acc else (acc ++ [a])%list) l acc = (acc ++ earliest key (map key acc) l)%list.
Proof.
  assert (SAME : forall l s s', (forall k, In k s <-> In k s') -> earliest key s l = earliest key s' l).
  { clear. induction l as [|b l IH]; intros s s' H; [reflexivity|]. cbn. assert (E : existsb (String.eqb (key b)) s = existsb (String.eqb (key b)) s').
    { apply Bool.eq_iff_eq_true. rewrite !existsb_exists. split; intros (k & K & Q); exists k; (split; [now apply H|exact Q]). }
    rewrite E. destruct (existsb (String.eqb (key b)) s'); [now apply IH|]. f_equal. apply IH. intros k. cbn. rewrite H. reflexivity. }
  revert acc. induction l as [|a l IH]; intros acc; [cbn; now rewrite app_nil_r|]. cbn [fold_left earliest].
  assert (E : existsb (fun b => String.eqb (key b) (key a)) acc = existsb (String.eqb (key a)) (map key acc)).
  { clear. induction acc as [|b acc IH]; [reflexivity|]. cbn. now rewrite IH, String.eqb_sym. }
  rewrite E. destruct (existsb (String.eqb (key a)) (map key acc)); [apply IH|]. rewrite IH. rewrite <- app_assoc. cbn. do 2 f_equal. apply SAME. intros k. rewrite map_app, in_app_iff. cbn. tauto.
Qed.
End Early.
(** Folding item by item. *)
Lemma fold_items {S I} (step : S -> string -> S) (text : I -> list string) (eff : S -> I -> S) (ok : I -> bool) :
  (forall s i, ok i = true -> fold_left step (text i) s = eff s i) ->
  forall doc s, forallb ok doc = true -> fold_left step (flat_map text doc) s = fold_left eff doc s.
Proof.
  intros H doc. induction doc as [|i doc IH]; intros s F; [reflexivity|]. cbn in F. apply andb_prop in F as [Fi F]. cbn [flat_map fold_left]. rewrite fold_left_app, H by exact Fi. now apply IH.
Qed.
Lemma rows_written head body code : writes head body code -> rows code = body /\ first_line code = head.
Proof. intros (rest & E & M). unfold rows, first_line. now rewrite E. Qed.
