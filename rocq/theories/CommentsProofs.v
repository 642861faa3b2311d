From Coq Require Import String Ascii List Bool Arith NArith Lia.
From Verif Require Import Str StrRefl Num EscapeModel EscapeProofs XmlSpec XmlProofs XmlTpl OpcSpec GenProofs TplRead CommentsModel CommentsSpec.
Import ListNotations.
Open Scope string_scope.

Definition number (k : nat) (p : string * string) : author := Author (N.of_nat k) (fst p) (snd p) (N.of_nat k).
Fixpoint number_from (k : nat) (l : list (string * string)) : list author :=
  match l with [] => [] | p :: l => number k p :: number_from (S k) l end.

Lemma number_app k a b : number_from k (a ++ b) = (number_from k a ++ number_from (k + length a) b)%list.
Proof.
  revert k; induction a as [|x a IH]; intros k; cbn [app number_from length]; [now rewrite Nat.add_0_r|].
  now rewrite IH, Nat.add_succ_r.
Qed.
Lemma number_nth k l i : nth_error (number_from k l) i = option_map (number (k + i)) (nth_error l i).
Proof.
  revert k i; induction l as [|x l IH]; intros k [|i]; cbn [number_from nth_error option_map]; try reflexivity.
  - now rewrite Nat.add_0_r.
  - rewrite IH. now rewrite Nat.add_succ_r.
Qed.

Lemma nodup_snoc {A} (l : list A) x : NoDup l -> ~ In x l -> NoDup (l ++ [x]).
Proof.
  intros H N. apply (NoDup_Add (a := x) (l := l)); [|now split].
  rewrite <- (app_nil_r l) at 1. apply Add_app.
Qed.
(** State after the first uses [f]. *)
Record good (f : list (string * string)) (s : author_list) : Prop := {
  g_nodup : NoDup (map fst f);
  g_authors : authors s = number_from 0 f;
  g_next : next_id s = N.of_nat (length f);
  g_map : forall n k, assoc n (name_to_id s) = Some k <-> exists j p, k = N.of_nat j /\ nth_error f j = Some p /\ fst p = n }.

Lemma firsts_seen_ext seen seen' l : (forall n, In n seen <-> In n seen') -> firsts seen l = firsts seen' l.
Proof.
  revert seen seen'; induction l as [|[n i] l IH]; intros seen seen' H; [reflexivity|]. cbn [firsts].
  assert (E : existsb (String.eqb n) seen = existsb (String.eqb n) seen').
  { apply eq_true_iff_eq. rewrite !existsb_exists. split; intros (x & A & B); exists x; split; auto; now apply H. }
  rewrite E. destruct (existsb _ seen'); [now apply IH|]. f_equal. apply IH. intros m. cbn [In]. now rewrite H.
Qed.

Lemma get_all_good l : forall f s, good f s -> (N.of_nat (length f + length l) <= 4294967295)%N ->
  let r := get_all l s in let f' := (f ++ firsts (map fst f) l)%list in
  good f' (snd r) /\
  length (fst r) = length l /\
  forall j n i id, nth_error l j = Some (n, i) -> nth_error (fst r) j = Some id ->
    exists p, nth_error f' (N.to_nat id) = Some p /\ fst p = n.
Proof.
  induction l as [|[n i] l IH]; intros f s G B.
  - cbn. rewrite app_nil_r. split; [exact G|]. split; [reflexivity|]. intros [|j]; discriminate.
  - cbn [get_all firsts length] in *. unfold get_or_add.
    destruct (assoc n (name_to_id s)) as [k|] eqn:E.
    + assert (Hin := E). apply (g_map _ _ G) in Hin. destruct Hin as (j0 & p0 & -> & Hp & Hn).
      replace (existsb (String.eqb n) (map fst f)) with true.
      2:{ symmetry. apply existsb_exists. exists n. split; [|apply String.eqb_refl]. apply nth_error_In in Hp. rewrite <- Hn. now apply in_map. }
      specialize (IH f s G). destruct (get_all l s) as [ids s'] eqn:Es. cbn [fst snd] in *. cbv zeta in IH |- *.
      destruct IH as (G' & L & P); [lia|]. split; [exact G'|]. split; [cbn; now rewrite L|].
      intros [|j] m i' id Hl Hi; cbn [nth_error] in *.
      * injection Hl as <- <-. injection Hi as <-. exists p0. split; [|exact Hn]. rewrite Nat2N.id.
        rewrite nth_error_app1; [exact Hp|]. apply nth_error_Some. congruence.
      * exact (P j m i' id Hl Hi).
    + assert (NI : ~ In n (map fst f)).
      { intros Hin. apply in_map_iff in Hin. destruct Hin as (p & <- & Hp). apply In_nth_error in Hp. destruct Hp as [j Hj].
        assert (C : assoc (fst p) (name_to_id s) = Some (N.of_nat j)) by (apply (g_map _ _ G); now exists j, p). congruence. }
      replace (existsb (String.eqb n) (map fst f)) with false.
      2:{ symmetry. apply not_true_iff_false. rewrite existsb_exists. intros (x & A & Q). apply String.eqb_eq in Q. subst. contradiction. }
      set (s1 := Authors _ _ _).
      assert (G1 : good (f ++ [(n, i)])%list s1).
      { constructor.
        - rewrite map_app. cbn [map fst]. apply nodup_snoc; [apply (g_nodup _ _ G)|exact NI].
        - subst s1. cbn [authors]. rewrite (g_authors _ _ G), (g_next _ _ G), number_app. reflexivity.
        - subst s1. cbn [next_id]. rewrite (g_next _ _ G), wadd_exact, app_length by (unfold u32_max; lia). cbn. lia.
        - intros m k. subst s1. cbn [name_to_id]. unfold assoc. cbn [find fst]. destruct (String.eqb_spec n m) as [->|Hne].
          + cbn [option_map snd]. rewrite (g_next _ _ G). split.
            * intros Q. injection Q as <-. exists (length f), (m, i). split; [reflexivity|]. split; [|reflexivity].
              rewrite nth_error_app2, Nat.sub_diag by lia. reflexivity.
            * intros (j & p & -> & Hj & Hp). f_equal. f_equal.
              destruct (Nat.lt_ge_cases j (length f)) as [Lj|Lj].
              -- rewrite nth_error_app1 in Hj by exact Lj. exfalso. apply NI. rewrite <- Hp. apply in_map. now apply nth_error_In in Hj.
              -- assert (j < length (f ++ [(m, i)])%list) by (apply nth_error_Some; congruence). rewrite app_length in H. cbn in H. lia.
          + fold (assoc m (name_to_id s)). rewrite (g_map _ _ G). split; intros (j & p & -> & Hj & Hp); exists j, p; (split; [reflexivity|split; [|exact Hp]]).
            * rewrite nth_error_app1; [exact Hj|]. apply nth_error_Some. congruence.
            * destruct (Nat.lt_ge_cases j (length f)) as [Lj|Lj]; [now rewrite nth_error_app1 in Hj|].
              rewrite nth_error_app2 in Hj by exact Lj. destruct (j - length f) as [|[|q]]; cbn in Hj; try discriminate.
              injection Hj as <-. cbn in Hp. congruence. }
      specialize (IH _ s1 G1). destruct (get_all l s1) as [ids s'] eqn:Es. cbn [fst snd] in *. cbv zeta in IH |- *.
      rewrite app_length in IH. cbn [length] in IH. destruct IH as (G' & L & P); [lia|].
      assert (Ef : ((f ++ [(n, i)]) ++ firsts (map fst (f ++ [(n, i)])) l = f ++ (n, i) :: firsts (n :: map fst f) l)%list).
      { rewrite <- app_assoc. cbn [app]. do 2 f_equal. apply firsts_seen_ext. intros m. rewrite map_app, in_app_iff. cbn. tauto. }
      rewrite Ef in G', P. split; [exact G'|]. split; [cbn; now rewrite L|].
      intros [|j] m i' id Hl Hi; cbn [nth_error] in *.
      * injection Hl as <- <-. injection Hi as <-. exists (n, i). split; [|reflexivity].
        rewrite (g_next _ _ G), Nat2N.id, nth_error_app2, Nat.sub_diag by lia. reflexivity.
      * exact (P j m i' id Hl Hi).
Qed.

Lemma good_init : good [] authors_new.
Proof.
  constructor; [constructor|reflexivity|reflexivity|]. intros n k. split; [discriminate|]. intros ([|j] & p & _ & H & _); discriminate.
Qed.

Lemma find_number l : forall k j p, nth_error l j = Some p ->
  find (fun a => (au_id a =? N.of_nat (k + j))%N) (number_from k l) = Some (number (k + j) p).
Proof.
  induction l as [|x l IH]; intros k [|j] p H; try discriminate; cbn [nth_error number_from find] in *.
  - injection H as <-. cbn [number au_id]. rewrite Nat.add_0_r, N.eqb_refl. reflexivity.
  - cbn [number au_id]. destruct (N.eqb_spec (N.of_nat k) (N.of_nat (k + S j))); [lia|].
    rewrite <- Nat.add_succ_comm. now apply IH.
Qed.
Lemma number_ids l k : map au_id (number_from k l) = map N.of_nat (seq k (length l)).
Proof. revert k; induction l as [|x l IH]; intros k; cbn; [reflexivity|]. now rewrite IH. Qed.
Lemma number_names l k : map (fun a => (au_name a, au_initials a)) (number_from k l) = l.
Proof. revert k; induction l as [|x l IH]; intros k; cbn; [reflexivity|]. rewrite IH. now destruct x. Qed.

Lemma authors_stable l : (N.of_nat (length l) <= 4294967295)%N ->
  let '(ids, s) := get_all l authors_new in
  length ids = length l /\
  (forall j k n i m i' a b, nth_error l j = Some (n, i) -> nth_error l k = Some (m, i') ->
     nth_error ids j = Some a -> nth_error ids k = Some b -> (a = b <-> n = m)) /\
  map (fun a => (au_name a, au_initials a)) (authors s) = firsts [] l /\
  map au_id (authors s) = map N.of_nat (seq 0 (length (authors s))) /\
  (forall j n i a, nth_error l j = Some (n, i) -> nth_error ids j = Some a ->
     exists x, get_by_id a s = Some x /\ au_id x = a /\ au_name x = n).
Proof.
  intros B. pose proof (get_all_good l [] authors_new good_init B) as H. cbv zeta in H.
  destruct (get_all l authors_new) as [ids s]. cbn [fst snd app map] in H. destruct H as (G & L & P).
  split; [exact L|]. split; [|split; [|split]].
  - intros j k n i m i' a b Hj Hk Ha Hb. destruct (P j n i a Hj Ha) as (p & Hp & Ep). destruct (P k m i' b Hk Hb) as (q & Hq & Eq).
    split.
    + intros ->. congruence.
    + intros <-. apply N2Nat.inj. apply (proj1 (NoDup_nth_error (map fst (firsts [] l))) (g_nodup _ _ G)).
      * rewrite map_length. apply nth_error_Some. congruence.
      * rewrite !nth_error_map, Hp, Hq. cbn. congruence.
  - rewrite (g_authors _ _ G). apply number_names.
  - rewrite (g_authors _ _ G), number_ids. f_equal. f_equal.
    rewrite <- (number_names (firsts [] l) 0) at 1. now rewrite map_length.
  - intros j n i a Hj Ha. destruct (P j n i a Hj Ha) as (p & Hp & Ep). exists (number (N.to_nat a) p). split; [|split].
    + unfold get_by_id. rewrite (g_authors _ _ G). pose proof (find_number _ 0 _ _ Hp) as F. cbn [Nat.add] in F. rewrite N2Nat.id in F. exact F.
    + cbn. apply N2Nat.id.
    + exact Ep.
Qed.

(** ** Comments *)
Lemma add_calls_spec l c : (N.of_nat (length c + length l) <= 4294967295)%N ->
  add_calls l c = (c ++ map (fun k => let '(a, t, x, y) := nth k l (0%N, "", 0%N, 0%N) in
     Comment a t "2025-01-01T00:00:00.000" x y (N.of_nat (length c + k + 1))) (seq 0 (length l)))%list.
Proof.
  revert c; induction l as [|[[[a t] x] y] l IH]; intros c B; [cbn; now rewrite app_nil_r|].
  cbn [add_calls fold_left length] in *. fold (add_calls l (add_comment a t x y c)). rewrite IH.
  - unfold add_comment. rewrite <- app_assoc. f_equal. cbn [seq map app nth]. f_equal.
    + unfold index, position, comment_new. cbn. f_equal. rewrite N.mod_small by lia. rewrite wadd_exact by (unfold u32_max; lia). lia.
    + rewrite <- seq_shift, map_map. apply map_ext. intros k. cbn [nth]. destruct (nth k l _) as [[[a' t'] x'] y'].
      rewrite app_length. cbn [length]. f_equal. lia.
  - unfold add_comment. rewrite app_length. cbn. lia.
Qed.

Lemma seq_nth_map {A B} (f : A -> B) (d : A) l : map (fun k => f (nth k l d)) (seq 0 (length l)) = map f l.
Proof.
  induction l as [|x l IH]; [reflexivity|]. cbn [length seq map nth]. f_equal. rewrite <- seq_shift, map_map. exact IH.
Qed.
Lemma comment_indexes l : (N.of_nat (length l) <= 4294967295)%N ->
  map co_index (add_calls l []) = map N.of_nat (seq 1 (length l)) /\
  map (fun c => (co_author c, co_text c, co_x c, co_y c)) (add_calls l []) = l.
Proof.
  intros B. rewrite add_calls_spec by exact B. cbn [app length Nat.add]. rewrite !map_map. split.
  - rewrite <- seq_shift, map_map. apply map_ext. intros k. destruct (nth k l _) as [[[a t] x] y]. cbn [co_index]. f_equal. lia.
  - rewrite (map_ext _ (fun k => nth k l (0%N, "", 0%N, 0%N))); [|intros k; now destruct (nth k l _) as [[[a t] x] y]].
    rewrite (seq_nth_map (fun z => z)). apply map_id.
Qed.

(** ** XML *)
Definition xmlnsT : list (string * list piece) :=
  [("xmlns:a", [Lit "http://schemas.openxmlformats.org/drawingml/2006/main"]);
   ("xmlns:r", [Lit "http://schemas.openxmlformats.org/officeDocument/2006/relationships"]);
   ("xmlns:p", [Lit "http://schemas.openxmlformats.org/presentationml/2006/main"])].
Definition authorT (a : author) : tpl :=
  TS "p:cmAuthor" [("id", [Lit (dec (au_id a))]); ("name", [Esc (au_name a)]); ("initials", [Esc (au_initials a)]);
                   ("lastIdx", [Lit "1"]); ("clrIdx", [Lit (dec (au_color a))])].
Definition commentT (c : comment) : tpl :=
  TE "p:cm" [("authorId", [Lit (dec (co_author c))]); ("dt", [Esc (co_date c)]); ("idx", [Lit (dec (co_index c))])]
    [TS "p:pos" [("x", [Lit (dec (co_x c))]); ("y", [Lit (dec (co_y c))])]; TE "p:text" [] [TT [Esc (co_text c)]]].

Lemma authors_read s : Forall (fun a => attr_ok (au_name a) = true /\ attr_ok (au_initials a) = true) (authors s) ->
  read_authors (authors_xml s) =
  Some (map (fun a => (dec (au_id a), au_name a, au_initials a, dec (au_color a))) (authors s)).
Proof.
  intros Ok. rewrite Forall_forall in Ok.
  assert (E : authors_xml s = decl ++ "" ++ tstr (TE "p:cmAuthorLst" xmlnsT (map authorT (authors s)))).
  { unfold authors_xml, xmlns, xmlnsT, decl. cbn [tstr]. rewrite map_map.
    rewrite (sconcat_ext _ (fun a => tstr (authorT a))) by (intros a _; unfold author_xml, authorT; rewrite !chained_escape_eq; tstr_eq).
    set (X := sconcat _). clearbody X. tstr_eq. }
  rewrite E. unfold read_authors. rewrite tpl_read; [|reflexivity|reflexivity|].
  - nread. rewrite named_all by reflexivity. rewrite map_map. f_equal. apply map_ext. intros a. cbn. now rewrite !sapp_nil_r.
  - apply tok_TE; [reflexivity|vm_compute; reflexivity|]. apply toks_map. intros a Ha. destruct (Ok a Ha) as [A B]. unfold authorT. toks_solve.
Qed.

Lemma comments_read l : Forall (fun c => attr_ok (co_date c) = true /\ text_ok (co_text c) = true) l ->
  read_comments (comments_xml l) =
  Some (map (fun c => (dec (co_author c), co_date c, dec (co_index c), [co_text c], [(dec (co_x c), dec (co_y c))])) l).
Proof.
  intros Ok. rewrite Forall_forall in Ok.
  assert (E : comments_xml l = decl ++ "" ++ tstr (TE "p:cmLst" xmlnsT (map commentT l))).
  { unfold comments_xml, xmlns, xmlnsT, decl. cbn [tstr]. rewrite map_map.
    rewrite (sconcat_ext _ (fun a => tstr (commentT a))) by (intros a _; unfold comment_xml, commentT; rewrite !chained_escape_eq; tstr_eq).
    set (X := sconcat _). clearbody X. tstr_eq. }
  rewrite E. unfold read_comments. rewrite tpl_read; [|reflexivity|reflexivity|].
  - nread. rewrite named_all by reflexivity. rewrite map_map. f_equal. apply map_ext. intros c. unfold commentT. nread.
    cbn [map]. unfold text_of. rewrite children_tnode. cbn [tbody tsnodes map concat tnodes app vals merge_text].
    f_equal; [f_equal; [|f_equal]|].
    + cbn. now rewrite !sapp_nil_r.
    + unfold vals. cbn [map pval sconcat fold_right]. rewrite sapp_nil_r. destruct (String.eqb_spec (co_text c) "") as [->|_]; [reflexivity|]. cbn. now rewrite sapp_nil_r.
    + cbn. now rewrite !sapp_nil_r.
  - apply tok_TE; [reflexivity|vm_compute; reflexivity|]. apply toks_map. intros c Hc. destruct (Ok c Hc) as [A B]. unfold commentT. toks_solve.
Qed.
