From Coq Require Import String Ascii List Bool Arith Lia.
From Verif Require Import Str XmlSpec XmlTreeModel XmlTreeSpec.
Import ListNotations.
Open Scope string_scope.

Section xel_ind.
  Variable P : xel -> Prop.
  Hypothesis H : forall t n a ks x, Forall P ks -> P (XE t n a ks x).
  Fixpoint xel_ind' (e : xel) : P e :=
    match e with
    | XE t n a ks x => H t n a ks x ((fix go (l : list xel) : Forall P l :=
        match l with [] => Forall_nil _ | c :: l => Forall_cons _ (xel_ind' c) (go l) end) ks)
    end.
End xel_ind.
Section node_ind.
  Variable P : node -> Prop.
  Hypothesis HE : forall n a ks, Forall P ks -> P (Elem n a ks).
  Hypothesis HT : forall t, P (Txt t).
  Fixpoint node_ind' (e : node) : P e :=
    match e with
    | Elem n a ks => HE n a ks ((fix go (l : list node) : Forall P l :=
        match l with [] => Forall_nil _ | c :: l => Forall_cons _ (node_ind' c) (go l) end) ks)
    | Txt t => HT t
    end.
End node_ind.

Lemma collect_spec n e : forall acc, collect_descendants n e acc = (acc ++ filter (has_name n) (descendants e))%list.
Proof.
  induction e as [t l a ks x IH] using xel_ind'. cbn [collect_descendants descendants].
  induction IH as [|c ks Hc _ IHk]; intros acc; [cbn; now rewrite app_nil_r|].
  rewrite IHk, Hc. cbn [filter]. rewrite filter_app. unfold has_name at 3. destruct (String.eqb (local_name c) n).
  - rewrite <- !app_assoc. reflexivity.
  - now rewrite <- app_assoc.
Qed.
Lemma find_all_descendants_spec n e : find_all_descendants n e = filter (has_name n) (descendants e).
Proof. apply collect_spec. Qed.
Lemma hd_error_app {A} (l1 l2 : list A) : hd_error (l1 ++ l2) = match hd_error l1 with Some x => Some x | None => hd_error l2 end.
Proof. now destruct l1. Qed.
Lemma find_descendant_spec n e : find_descendant n e = hd_error (filter (has_name n) (descendants e)).
Proof.
  induction e as [t l a ks x IH] using xel_ind'. cbn [find_descendant descendants].
  induction IH as [|c ks Hc _ IHk]; [reflexivity|]. cbn [filter]. unfold has_name at 1.
  destruct (String.eqb (local_name c) n); [reflexivity|]. rewrite filter_app, hd_error_app, <- Hc, <- IHk. reflexivity.
Qed.

(** ** The parser *)
Definition kid_trees (ks : list node) : list xel := flat_map (fun k => match tree k with Some e => [e] | None => [] end) ks.
Definition own_text (ks : list node) : string := sconcat (map (fun k => match k with Txt t => if blank t then "" else t | _ => "" end) ks).
Lemma tree_elem n a ks : tree (Elem n a ks) =
  Some (XE n (local n) (rev (filter (fun p => negb (is_xmlns (fst p))) a)) (kid_trees ks) (own_text ks)).
Proof.
  cbn [tree]. f_equal. f_equal. induction ks as [|k ks IH]; [reflexivity|]. cbn [kid_trees flat_map].
  destruct (tree k); cbn [app]; [f_equal|]; exact IH.
Qed.
Lemma events_elem n a ks : events (Elem n a ks) =
  (Start n (filter (fun p => negb (is_xmlns (fst p))) a) :: flat_map events ks ++ [End_])%list.
Proof. reflexivity. Qed.
Lemma set_attrs a : forall t l b ks x, fold_left (fun x p => set_attr (fst p) (snd p) x) a (XE t l b ks x) = XE t l (rev a ++ b) ks x.
Proof.
  induction a as [|[k v] a IH]; intros; [reflexivity|]. cbn [fold_left set_attr fst snd rev]. rewrite IH. now rewrite <- app_assoc.
Qed.

Definition close_into (e : xel) (s : pst) : pst :=
  match pstack s with [] => Pst [] (Some e) | p :: st => Pst (add_child e p :: st) (proot s) end.
Definition absorb (x : node) (s : pst) : pst :=
  match x with
  | Txt t => if blank t then s else match pstack s with [] => s | e :: st => Pst (push_text t e :: st) (proot s) end
  | _ => match tree x with Some e => close_into e s | None => s end
  end.

Lemma build_node x : forall s, fold_left on_event (events x) s = absorb x s.
Proof.
  induction x as [n a ks IH|t] using node_ind'; intros s.
  - rewrite events_elem. cbn [fold_left]. rewrite fold_left_app.
    set (a' := filter _ a). unfold absorb. rewrite tree_elem. fold a'.
    assert (K : forall ks0 txt0 st, fold_left on_event (flat_map events ks) (Pst (XE n (local n) (rev a') ks0 txt0 :: st) (proot s)) =
      Pst (XE n (local n) (rev a') (ks0 ++ kid_trees ks) (txt0 ++ own_text ks) :: st) (proot s)).
    { clear - IH. induction IH as [|k ks Hk _ IHk]; intros ks0 txt0 st.
      - cbn. now rewrite app_nil_r, sapp_nil_r.
      - cbn [flat_map]. rewrite fold_left_app, Hk. unfold own_text. cbn [map sconcat fold_right kid_trees flat_map].
        fold (sconcat (map (fun k => match k with Txt t => if blank t then "" else t | _ => "" end) ks)). fold (own_text ks) (kid_trees ks).
        destruct k as [m b kk|t]; unfold absorb.
        + destruct (tree (Elem m b kk)) as [e|] eqn:Et; [|now rewrite tree_elem in Et].
          unfold close_into. cbn [pstack proot add_child]. rewrite IHk. cbn [app]. now rewrite <- app_assoc.
        + cbn [tree app]. destruct (blank t); [apply IHk|]. cbn [pstack proot push_text]. rewrite IHk. now rewrite sapp_assoc. }
    cbn [on_event]. unfold xel_new. rewrite set_attrs, app_nil_r. rewrite K. cbn [fold_left on_event pstack app append].
    unfold close_into. destruct (pstack s); reflexivity.
  - cbn [events fold_left absorb]. destruct (blank t); [reflexivity|]. cbn [on_event]. now destruct (pstack s).
Qed.

Lemma build_tree n a ks : build (events (Elem n a ks)) = tree (Elem n a ks).
Proof. unfold build. rewrite build_node. unfold absorb. rewrite tree_elem. reflexivity. Qed.
Lemma parse_tree s n a ks : xml_read s = Some (Elem n a ks) -> parse_str s = tree (Elem n a ks).
Proof. intros H. unfold parse_str. rewrite H. apply build_tree. Qed.

(** ** Text *)
Lemma text_content_go ks : forall acc,
  (fix go (l : list xel) (acc : string) : string := match l with [] => acc | c :: l => go l (acc ++ text_content c) end) ks acc
  = acc ++ sconcat (map text_content ks).
Proof.
  induction ks as [|c ks IH]; intros acc; [cbn; now rewrite sapp_nil_r|]. rewrite IH. cbn [map sconcat fold_right]. now rewrite sapp_assoc.
Qed.
Lemma text_content_eq e : text_content e = text e ++ sconcat (map text_content (kids e)).
Proof. destruct e as [t l a ks x]. cbn [text_content text kids]. apply text_content_go. Qed.

Lemma text_in_order x e : unmixed x = true -> tree x = Some e -> text_content e = all_text x.
Proof.
  revert e. induction x as [n a ks IH|t] using node_ind'; [|discriminate]. intros e U. rewrite tree_elem. intros Q.
  apply (f_equal (fun o => match o with Some x => x | None => e end)) in Q. subst e.
  rewrite text_content_eq. cbn [text kids all_text unmixed] in *.
  apply andb_true_iff in U. destruct U as [M U].
  assert (B : sconcat (map text_content (kid_trees ks)) = sconcat (map (fun k => match k with Elem _ _ _ => all_text k | Txt _ => "" end) ks)).
  { clear M. revert U. induction IH as [|k ks Hk _ IHk]; intros U; [reflexivity|].
    apply andb_true_iff in U. destruct U as [Uk Ur]. cbn [kid_trees flat_map map sconcat fold_right].
    destruct k as [m b kk|t].
    - destruct (tree (Elem m b kk)) as [e|] eqn:Et; [|now rewrite tree_elem in Et]. cbn [app map sconcat fold_right].
      rewrite (Hk e Uk eq_refl). f_equal. now apply IHk.
    - cbn [tree app append]. now apply IHk. }
  rewrite B. clear B U IH. apply orb_true_iff in M.
  assert (G : (fix go (l : list node) : string := match l with [] => "" | k :: l => all_text k ++ go l end) ks = sconcat (map all_text ks))
    by (induction ks as [|k ks IH]; [reflexivity|cbn; f_equal; apply IH; destruct M as [M|M]; [left|right]; cbn in M; now apply andb_true_iff in M]).
  rewrite G. clear G. destruct M as [M|M].
  - replace (own_text ks) with "".
    + cbn [append]. f_equal. apply map_ext_in. intros k Hk. rewrite forallb_forall in M. specialize (M k Hk). destruct k; [reflexivity|]. cbn. now rewrite M.
    + unfold own_text. symmetry. induction ks as [|k ks IH]; [reflexivity|]. cbn in *. apply andb_true_iff in M. destruct M as [M1 M2].
      destruct k as [| t]; cbn; [now apply IH|]. rewrite M1. now apply IH.
  - replace (sconcat (map (fun k => match k with Elem _ _ _ => all_text k | Txt _ => "" end) ks)) with "".
    + rewrite sapp_nil_r. unfold own_text. f_equal. apply map_ext_in. intros k Hk. rewrite forallb_forall in M. specialize (M k Hk). now destruct k.
    + symmetry. clear -M. induction ks as [|k ks IH]; [reflexivity|]. cbn in *. apply andb_true_iff in M. destruct M as [M1 M2].
      destruct k as [|t]; [discriminate|]. cbn. now apply IH.
Qed.
Lemma parse_total s x : xml_read s = Some x -> exists e, parse_str s = Some e /\ tree x = Some e.
Proof.
  intros H. assert (exists n a k, x = Elem n a k) as (n & a & k & ->).
  { unfold xml_read in H. destruct (xrun _ _) as [[[] fs]|]; try discriminate. destruct (flush b fs) as [|[? ? ?] [|]]; try discriminate.
    unfold root_of in H. destruct (filter _ _) as [|[n a kk|] [|]]; try discriminate. injection H as <-. now exists n, a, kk. }
  rewrite (parse_tree s n a k H). rewrite tree_elem. eexists. split; reflexivity.
Qed.

Lemma after_colon_ok s : forall acc p, no_colon p = true -> acc = p ++ s ->
  no_colon (after_colon s acc) = true /\ (after_colon s acc = acc \/ exists q, s = q ++ ":" ++ after_colon s acc).
Proof.
  unfold no_colon. induction s as [|c s IH]; intros acc p P E.
  - cbn [after_colon]. subst. rewrite sapp_nil_r. auto.
  - cbn [after_colon]. destruct (Ascii.eqb_spec c ":") as [->|N].
    + destruct (IH s "" eq_refl eq_refl) as [A [B|[q B]]]; split; try exact A; right.
      * exists "". cbn. now rewrite B.
      * exists (String ":" q). cbn [append]. f_equal. exact B.
    + destruct (IH acc (p ++ s1 c)) as [A [B|[q B]]].
      * rewrite sforall_app, P. cbn. destruct (Ascii.eqb_spec c ":"); [contradiction|reflexivity].
      * rewrite E, sapp_assoc. reflexivity.
      * split; [exact A|now left].
      * split; [exact A|]. right. exists (String c q). cbn [append]. f_equal. exact B.
Qed.
Lemma local_ok t : unprefixed t (local t).
Proof.
  unfold unprefixed, local. destruct (after_colon_ok t t "" eq_refl eq_refl) as [A [B|[q B]]]; split; try exact A.
  - left. now rewrite B.
  - right. now exists q.
Qed.
Lemma unprefixed_fun t l l' : unprefixed t l -> unprefixed t l' -> l = l'.
Proof.
  assert (K : forall p q a b : string, no_colon a = true -> no_colon b = true -> p ++ ":" ++ a = q ++ ":" ++ b -> a = b).
  { unfold no_colon. clear. induction p as [|c p IH]; intros [|d q] a b A B E; cbn in E.
    - congruence.
    - injection E as _ E. subst a. rewrite sforall_app in A. cbn in A. rewrite andb_false_r in A. discriminate.
    - injection E as _ E. subst b. rewrite sforall_app in B. cbn in B. rewrite andb_false_r in B. discriminate.
    - injection E as _ E. now apply (IH q). }
  unfold no_colon in K. intros [A [->|[p ->]]] [B [E|[q E]]]; unfold no_colon in A, B.
  - exact E.
  - rewrite E, sforall_app in A. cbn in A. rewrite andb_false_r in A. discriminate.
  - rewrite <- E, sforall_app in B. cbn in B. rewrite andb_false_r in B. discriminate.
  - now apply (K p q).
Qed.
Lemma tree_names x e : tree x = Some e -> exists n a ks, x = Elem n a ks /\ tag e = n /\ unprefixed n (local_name e)
  /\ forall k, is_xmlns k = false -> NoDup (map fst a) -> forall v, attr_of k e = Some v <-> In (k, v) a.
Proof.
  destruct x as [n a ks|]; [|discriminate]. rewrite tree_elem. intros E. injection E as <-. exists n, a, ks. split; [reflexivity|]. split; [reflexivity|].
  split; [apply local_ok|]. intros k K U v. unfold attr_of. cbn [attributes].
  set (l := rev (filter (fun p => negb (is_xmlns (fst p))) a)).
  assert (L : forall p, In p l <-> In p a /\ is_xmlns (fst p) = false).
  { intros p. unfold l. rewrite <- in_rev, filter_In, negb_true_iff. reflexivity. }
  split.
  - destruct (find (fun p => String.eqb (fst p) k) l) as [[k' v']|] eqn:F; [|discriminate]. cbn. intros Q. injection Q as ->.
    apply find_some in F. destruct F as [F G]. cbn in G. apply String.eqb_eq in G. subst k'. now apply L in F.
  - intros I. assert (J : In (k, v) l) by (apply L; split; [exact I|exact K]).
    destruct (find (fun p => String.eqb (fst p) k) l) as [[k' v']|] eqn:F.
    + apply find_some in F. destruct F as [F G]. cbn in G. apply String.eqb_eq in G. subst k'. apply L in F. destruct F as [F _].
      cbn. f_equal. clear -U I F. induction a as [|[x y] a IH]; [destruct I|]. cbn in U. inversion U as [|? ? N U']; subst.
      destruct I as [I|I], F as [F|F]; try congruence.
      * injection I as -> ->. exfalso. apply N. apply in_map_iff. now exists (k, v').
      * injection F as -> ->. exfalso. apply N. apply in_map_iff. now exists (k, v).
      * now apply IH.
    + exfalso. apply (find_none _ _ F) in J. cbn in J. rewrite String.eqb_refl in J. discriminate.
Qed.
Lemma children_named n e : find_all n e = filter (has_name n) (kids e) /\ find_child n e = hd_error (filter (has_name n) (kids e)).
Proof.
  split; [reflexivity|]. unfold find_child. induction (kids e) as [|c l IH]; [reflexivity|]. cbn [find filter]. unfold has_name at 1.
  destruct (String.eqb (local_name c) n); [reflexivity|exact IH].
Qed.
