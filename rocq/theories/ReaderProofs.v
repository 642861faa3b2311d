(** Lemmas: the order in which the reader lists slides. *)
From Coq Require Import String Ascii List Bool NArith Sorted Permutation Lia.
From Verif Require Import Str Num XmlSpec XmlKeys OpcSpec XmlTreeModel XmlTreeSpec XmlTreeProofs PackageModel ReaderModel ReaderSpec.
Import ListNotations.
Open Scope string_scope.
Local Arguments String.append _ _ : simpl nomatch.

(** ** Sorting *)
Section S.
  Context {A : Type} (le : A -> A -> bool).
  Lemma insert_perm x l : Permutation (insert_by le x l) (x :: l).
  Proof. induction l as [|y l IH]; [reflexivity|]. cbn [insert_by]. destruct (le x y); [reflexivity|]. rewrite IH. apply perm_swap. Qed.
  Lemma sort_perm l : Permutation (sort_by le l) l.
  Proof. induction l as [|x l IH]; [reflexivity|]. cbn [sort_by fold_right]. rewrite insert_perm. now constructor. Qed.
  Context (tot : forall x y, le x y = false -> le y x = true) (tr : forall x y z, le x y = true -> le y z = true -> le x z = true).
  Notation R := (fun x y => le x y = true).
  Lemma insert_sorted x l : StronglySorted R l -> StronglySorted R (insert_by le x l).
  Proof.
    intros S. induction S as [|y l S IH F]; [repeat constructor|]. cbn [insert_by]. destruct (le x y) eqn:E.
    - constructor; [now constructor|]. constructor; [exact E|]. eapply Forall_impl; [|exact F]. cbn. intros z. now apply tr.
    - constructor; [exact IH|]. apply (Permutation_Forall (Permutation_sym (insert_perm x l))). constructor; [now apply tot|exact F].
  Qed.
  Lemma sort_sorted l : StronglySorted R (sort_by le l).
  Proof. induction l as [|x l IH]; [constructor|]. cbn [sort_by fold_right]. now apply insert_sorted. Qed.
  Lemma sort_id l : StronglySorted R l -> sort_by le l = l.
  Proof.
    intros S. induction S as [|x l S IH F]; [reflexivity|]. cbn [sort_by fold_right]. fold (sort_by le l). rewrite IH. destruct F as [|y l E F]; [reflexivity|].
    cbn [insert_by]. now rewrite E.
  Qed.
End S.
Lemma sort_map {A B} (f : A -> B) (le : A -> A -> bool) (le' : B -> B -> bool) l : (forall x y, In x l -> In y l -> le' (f x) (f y) = le x y) ->
  sort_by le' (map f l) = map f (sort_by le l).
Proof.
  induction l as [|x l IH]; [reflexivity|]. intros H. cbn [map sort_by fold_right]. fold (sort_by le' (map f l)) (sort_by le l). rewrite IH by (intros; apply H; now right).
  assert (G : incl (x :: sort_by le l) (x :: l)). { intros y [<-|Y]; [now left|]. right. apply (Permutation_in _ (sort_perm le l) Y). }
  clear IH. induction (sort_by le l) as [|y r IHr]; [reflexivity|]. cbn [map insert_by]. rewrite H by (apply G; cbn; auto).
  destruct (le x y); [reflexivity|]. cbn [map]. f_equal. apply IHr. intros z [<-|Z]; apply G; cbn; auto.
Qed.

(** ** Numbers of relationship ids *)
Lemma strip_digits k : strip_prefix "rId" (dec k) = None.
Proof.
  destruct (dec k) as [|c s] eqn:E; [reflexivity|]. pose proof (dec_head k c s E) as H. cbn [strip_prefix].
  destruct (Ascii.eqb_spec "r" c) as [<-|_]; [discriminate|reflexivity].
Qed.
Lemma trim_digits n k : trim_matches n "rId" (dec k) = dec k.
Proof. destruct n; cbn [trim_matches]; [reflexivity|]. now rewrite strip_digits. Qed.
Lemma number_dec k : (k <= u32_max)%N -> rid_number ("rId" ++ dec k) = k.
Proof.
  intros K. unfold rid_number. change (String.length ("rId" ++ dec k)) with (S (S (S (String.length (dec k))))). set (n := S (S (String.length (dec k)))).
  assert (E : trim_matches (S n) "rId" ("rId" ++ dec k) = trim_matches n "rId" (dec k)) by reflexivity. rewrite E, trim_digits, parse_uint_dec by exact K. reflexivity.
Qed.

(** ** Attributes of the element tree *)
Lemma find_rev {A} (f : A -> bool) l : (forall x y, In x l -> In y l -> f x = true -> f y = true -> x = y) -> find f (rev l) = find f l.
Proof.
  intros H. destruct (find f l) as [x|] eqn:E.
  - apply find_some in E. destruct E as [I F]. destruct (find f (rev l)) as [y|] eqn:G.
    + apply find_some in G. destruct G as [J K]. rewrite <- in_rev in J. f_equal. now apply H.
    + rewrite (find_none f (rev l) G x) in F; [discriminate|]. now rewrite <- in_rev.
  - destruct (find f (rev l)) as [y|] eqn:G; [|reflexivity]. apply find_some in G. destruct G as [J K]. rewrite <- in_rev in J. now rewrite (find_none f l E y J) in K.
Qed.
Lemma find_filter {A} (f g : A -> bool) l : (forall x, f x = true -> g x = true) -> find f (filter g l) = find f l.
Proof. intros H. induction l as [|x l IH]; [reflexivity|]. cbn [filter find]. destruct (f x) eqn:F; [rewrite (H x F); cbn [find]; now rewrite F|]. destruct (g x); cbn [find]; [now rewrite F|exact IH]. Qed.
Lemma same_key (a : list (string * string)) x y : NoDup (map fst a) -> In x a -> In y a -> fst x = fst y -> x = y.
Proof.
  induction a as [|z a IH]; [intros _ []|]. cbn [map]. intros N. inversion N as [|? ? N1 N2]; subst. intros [<-|X] [<-|Y] E; auto.
  - exfalso. apply N1. rewrite E. now apply in_map.
  - exfalso. apply N1. rewrite <- E. now apply in_map.
Qed.
Lemma tree_attr k n a ks e : NoDup (map fst a) -> is_xmlns k = false -> tree (Elem n a ks) = Some e -> attr_of k e = attr_opt k (Elem n a ks).
Proof.
  intros N K. rewrite tree_elem. intros E. injection E as <-. unfold attr_of, attr_opt. cbn [attributes]. f_equal.
  rewrite find_rev.
  - apply find_filter. intros p P. apply String.eqb_eq in P. now rewrite P, K.
  - intros x y X Y P Q. apply String.eqb_eq in P, Q. apply filter_In in X, Y. apply (same_key a); try tauto. congruence.
Qed.
Lemma after_colon_spec s : forall acc, (exists p, s = p ++ ":" ++ after_colon s acc) \/ (sforall (fun c => negb (Ascii.eqb c ":")) s = true /\ after_colon s acc = acc).
Proof.
  induction s as [|c s IH]; intros acc; [right; split; reflexivity|]. cbn [after_colon sforall]. destruct (Ascii.eqb_spec c ":") as [->|C].
  - left. destruct (IH s) as [[p E]|[_ ->]].
    + exists (":" ++ p). cbn [append]. f_equal. exact E.
    + exists "". reflexivity.
  - destruct (IH acc) as [[p E]|[F E]]; [left; exists (String c p); cbn [append]; f_equal; exact E|right; now rewrite F].
Qed.
Lemma after_colon_app p w : sforall (fun c => negb (Ascii.eqb c ":")) w = true -> forall acc, after_colon (p ++ ":" ++ w) acc = w.
Proof.
  intros W. assert (K : forall acc, after_colon w acc = acc).
  { induction w as [|c w IH]; intros acc; [reflexivity|]. cbn [sforall] in W. apply andb_true_iff in W. destruct W as [W1 W2]. cbn [after_colon]. apply negb_true_iff in W1. rewrite W1. now apply IH. }
  induction p as [|c p IH]; intros acc; [cbn; now rewrite K|]. change ((String c p ++ ":" ++ w)%string) with (String c (p ++ ":" ++ w)). cbn [after_colon]. destruct (Ascii.eqb c ":"); apply IH.
Qed.
Lemma local_unprefixed n w : sforall (fun c => negb (Ascii.eqb c ":")) w = true -> (local n = w <-> unprefixed n w).
Proof.
  intros W. unfold local, unprefixed. split.
  - intros <-. destruct (after_colon_spec n n) as [[p E]|[_ E]]; [right; exists p; exact E|left; now rewrite E].
  - intros [->|[p ->]]; [|now apply after_colon_app]. destruct (after_colon_spec w w) as [[p E]|[_ E]]; [|exact E].
    exfalso. rewrite E in W. rewrite sforall_app in W. cbn in W. apply andb_true_iff in W. destruct W as [_ W]. discriminate.
Qed.

(** ** The slide relationships *)
Lemma full_placed t p : placed_at t p <-> full_path t = p.
Proof.
  unfold placed_at, full_path. destruct t as [|c t]; cbn [strip_prefix starts_with].
  - split; [intros [E|[_ ->]]; [discriminate|reflexivity]|]. intros <-. right. split; reflexivity.
  - destruct (Ascii.eqb_spec "/" c) as [<-|C].
    + split; [intros [E|[E _]]; [now injection E|discriminate]|]. intros <-. now left.
    + split; [intros [E|[_ ->]]; [injection E as E _; congruence|reflexivity]|]. intros <-. right. split; reflexivity.
Qed.
Lemma slide_rels_eq ks r : Forall keys_ok ks -> slide_rels ks r ->
  flat_map slide_rel (filter (has_name "Relationship") (kid_trees ks)) = map (fun p => ("rId" ++ dec (fst p), full_path (snd p))) r.
Proof.
  intros F H. induction H as [|t l r H IH|n a k l r N H IH|n a k l r N T H IH|n a k l r i t N T I G H IH]; inversion F as [|? ? F1 F2]; subst; [reflexivity|now apply IH|..];
    specialize (IH F2); cbn [kid_trees flat_map]; fold (kid_trees l);
    (destruct (tree (Elem n a k)) as [e|] eqn:E; [|rewrite tree_elem in E; discriminate E]); apply keys_elem in F1; destruct F1 as [F1 _];
    pose proof (tree_attr "Type" n a k e F1 eq_refl E) as A1; pose proof (tree_attr "Id" n a k e F1 eq_refl E) as A2; pose proof (tree_attr "Target" n a k e F1 eq_refl E) as A3;
    cbn [app filter]; unfold has_name at 1; (replace (local_name e) with (local n) by (rewrite tree_elem in E; injection E as <-; reflexivity)).
  - rewrite <- local_unprefixed in N by reflexivity. destruct (String.eqb_spec (local n) "Relationship"); [contradiction|exact IH].
  - rewrite <- local_unprefixed in N by reflexivity. rewrite N. cbn [String.eqb Ascii.eqb Bool.eqb]. cbn [flat_map]. rewrite IH. unfold slide_rel at 1.
    rewrite A1. unfold attr in T. unfold or. unfold for_slide in T. fold (is_slide_type) in T. unfold is_slide_type. now rewrite T.
  - rewrite <- local_unprefixed in N by reflexivity. rewrite N. cbn [String.eqb Ascii.eqb Bool.eqb]. cbn [flat_map map]. rewrite IH. unfold slide_rel at 1.
    rewrite A1, A2, A3, I, G. unfold attr in T. unfold or. unfold for_slide in T. unfold is_slide_type. now rewrite T.
Qed.
(** The reader's order on any file. *)
Definition by_number (x y : N * string) : bool := (fst x <=? fst y)%N.
Lemma rels_paths_eq p xml n a ks r : get_part p "ppt/_rels/presentation.xml.rels" = Some xml -> xml_read xml = Some (Elem n a ks) -> slide_rels ks r ->
  Forall (fun e => (fst e <= u32_max)%N) r -> rels_paths p = map full_path (map snd (sort_by by_number r)).
Proof.
  intros G X S B. pose proof (read_keys _ _ X) as K. apply keys_elem in K. destruct K as [_ K].
  unfold rels_paths. rewrite G. cbn [bind]. rewrite (parse_tree xml n a ks X), tree_elem. unfold find_all. cbn [XmlTreeModel.kids].
  change (fun c : xel => String.eqb (local_name c) "Relationship") with (has_name "Relationship"). rewrite (slide_rels_eq ks r K S).
  rewrite (sort_map _ by_number).
  - rewrite !map_map. reflexivity.
  - intros x y Ix Iy. rewrite Forall_forall in B. cbn [fst]. rewrite !number_dec by (apply B; assumption). reflexivity.
Qed.
Lemma listed_order p keys xml n a ks r : get_part p "ppt/_rels/presentation.xml.rels" = Some xml -> xml_read xml = Some (Elem n a ks) -> slide_rels ks r -> r <> [] ->
  Forall (fun e => (fst e <= u32_max)%N) r ->
  exists l, Permutation l r /\ StronglySorted (fun x y => (fst x <= fst y)%N) l /\ Forall2 placed_at (map snd l) (rd_slides (reader_open p keys)).
Proof.
  intros G X S NE B. pose proof (rels_paths_eq p xml n a ks r G X S B) as RP.
  exists (sort_by by_number r). split; [apply sort_perm|]. split.
  - assert (SS := sort_sorted by_number). specialize (SS ltac:(intros x y; unfold by_number; rewrite N.leb_gt, N.leb_le; lia) ltac:(intros x y z; unfold by_number; rewrite !N.leb_le; lia) r).
    clear -SS. induction SS as [|x l SS IH F]; [constructor|]. constructor; [exact IH|]. eapply Forall_impl; [|exact F]. unfold by_number. cbn. intros y. now rewrite N.leb_le.
  - unfold reader_open. destruct (core_info p). cbn [rd_slides]. unfold slide_paths. rewrite RP.
    destruct (map full_path _) as [|q l] eqn:E.
    + apply map_eq_nil, map_eq_nil in E. pose proof (sort_perm by_number r) as P. rewrite E in P. apply Permutation_nil in P. contradiction.
    + rewrite <- E. clear. induction (map snd _) as [|x l IH]; constructor; [|exact IH]. now apply full_placed.
Qed.
Lemma slide_rels_app l1 r1 l2 r2 : slide_rels l1 r1 -> slide_rels l2 r2 -> slide_rels (l1 ++ l2) (r1 ++ r2).
Proof. intros A B. induction A; cbn [app]; [exact B|now constructor..|now apply related]. Qed.
Lemma slide_rels_merge l r : slide_rels l r -> slide_rels (merge_text l) r.
Proof.
  intros A. induction A; cbn [merge_text]; [constructor| |now constructor..|now apply related].
  destruct (merge_text l) as [|[n a ks|b] m]; [destruct (String.eqb t ""); [exact IHA|now apply text]..|]. inversion IHA; subst. now apply text.
Qed.
