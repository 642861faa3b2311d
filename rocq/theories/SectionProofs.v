From Coq Require Import String Ascii List Bool NArith Lia Permutation Sorted.
From Verif Require Import Str StrRefl Num EscapeModel EscapeProofs XmlSpec XmlProofs XmlTpl OpcSpec GenProofs TplRead SectionModel SectionSpec.
Import ListNotations.
Open Scope string_scope.
Open Scope N_scope.

Definition sfits (s : section) : Prop := first_slide s + slide_count s <= 18446744073709551615.

Lemma contains_member s i : sfits s -> contains_slide s i = true <-> member i s.
Proof.
  intros H. unfold contains_slide, member. rewrite wadd_exact by exact H. rewrite andb_true_iff, N.leb_le, N.ltb_lt. tauto.
Qed.
Lemma overlap_member a b : sfits a -> sfits b -> sections_overlap a b = true <-> exists i, member i a /\ member i b.
Proof.
  intros Ha Hb. unfold sections_overlap, member. rewrite !wadd_exact by assumption.
  destruct (N.eqb_spec (slide_count a) 0) as [E|E]; cbn [orb]; [split; [discriminate|intros (i & ? & ?); lia]|].
  destruct (N.eqb_spec (slide_count b) 0) as [F|F]; [split; [discriminate|intros (i & ? & ?); lia]|].
  rewrite andb_true_iff, !N.ltb_lt. split.
  - intros H. exists (N.max (first_slide a) (first_slide b)). lia.
  - intros (i & ? & ?). lia.
Qed.

Definition key_le (a b : section) : Prop := first_slide a <= first_slide b.

Lemma insert_perm x l : Permutation (insert_section x l) (x :: l).
Proof.
  induction l as [|y l IH]; [reflexivity|]. cbn [insert_section]. destruct (_ <=? _); [reflexivity|].
  rewrite IH. apply perm_swap.
Qed.
Lemma sort_perm l : Permutation (sort_sections l) l.
Proof. induction l as [|x l IH]; [reflexivity|]. cbn [sort_sections fold_right]. rewrite insert_perm. now constructor. Qed.
Lemma insert_sorted x l : StronglySorted key_le l -> StronglySorted key_le (insert_section x l).
Proof.
  induction 1 as [|y l H1 IH H2]; cbn [insert_section]; [repeat constructor|].
  destruct (N.leb_spec (first_slide x) (first_slide y)) as [L|L].
  - constructor; [now constructor|]. constructor; [exact L|]. rewrite Forall_forall in *. intros z Hz. specialize (H2 z Hz). unfold key_le in *. lia.
  - constructor; [exact IH|]. apply (Permutation_Forall (Permutation_sym (insert_perm x l))). constructor; [unfold key_le; lia|exact H2].
Qed.
Lemma sort_sorted l : StronglySorted key_le (sort_sections l).
Proof. induction l as [|x l IH]; [constructor|]. now apply insert_sorted. Qed.

Definition disj (a b : section) : Prop := forall i, member i a -> member i b -> False.
Definition inv (m : manager) : Prop := Forall sfits m /\ StronglySorted key_le m /\ ForallOrdPairs disj m.

Lemma disj_sym a b : disj a b -> disj b a.
Proof. intros H i A B. now apply (H i). Qed.
Lemma pairs_perm {A} (R : A -> A -> Prop) : (forall x y, R x y -> R y x) -> forall l l', Permutation l l' -> ForallOrdPairs R l -> ForallOrdPairs R l'.
Proof.
  intros S. induction 1 as [|x l l' P IH|x y l|l1 l2 l3 P1 IH1 P2 IH2]; intros H; auto.
  - inversion H; subst. constructor; [now apply (Permutation_Forall P)|now apply IH].
  - inversion H as [|? ? H1 H2]; subst. inversion H2 as [|? ? H3 H4]; subst. inversion H1; subst. constructor.
    + constructor; [now apply S|assumption].
    + now constructor.
Qed.
Lemma pairs_cons_perm {A} (R : A -> A -> Prop) x l : Forall (R x) l -> ForallOrdPairs R l -> ForallOrdPairs R (x :: l).
Proof. now constructor. Qed.

Lemma pairs_filter {A} (R : A -> A -> Prop) f l : ForallOrdPairs R l -> ForallOrdPairs R (filter f l).
Proof.
  induction 1 as [|x l H1 H2 IH]; [constructor|]. cbn [filter]. destruct (f x); [|exact IH]. constructor; [|exact IH].
  rewrite Forall_forall in *. intros y Hy. apply filter_In in Hy. now apply H1.
Qed.
Lemma sorted_filter {A} (R : A -> A -> Prop) f l : StronglySorted R l -> StronglySorted R (filter f l).
Proof.
  induction 1 as [|x l H1 IH H2]; [constructor|]. cbn [filter]. destruct (f x); [|exact IH]. constructor; [exact IH|].
  rewrite Forall_forall in *. intros y Hy. apply filter_In in Hy. now apply H2.
Qed.
Lemma Forall_filter {A} (P : A -> Prop) f l : Forall P l -> Forall P (filter f l).
Proof. rewrite !Forall_forall. intros H x Hx. apply filter_In in Hx. now apply H. Qed.

(** Ranges only: renaming does not change them. *)
Definition rng (s : section) : N * N := (first_slide s, slide_count s).
Lemma rename_rng a b m : map rng (snd (rename_section a b m)) = map rng m.
Proof.
  induction m as [|s m IH]; [reflexivity|]. cbn [rename_section]. destruct (String.eqb _ _); [reflexivity|].
  destruct (rename_section a b m) as [r m']. cbn [snd map] in *. now rewrite IH.
Qed.
Lemma inv_rng m m' : map rng m = map rng m' -> inv m -> inv m'.
Proof.
  revert m'. induction m as [|s m IH]; intros [|s' m'] E; try discriminate; [auto|]. cbn [map] in E. injection E as E1 E2 E3.
  intros (H1 & H2 & H3). inversion H1; subst. inversion H2 as [|? ? S1 S2]; subst. inversion H3 as [|? ? P1 P2]; subst.
  destruct (IH m' E3) as (I1 & I2 & I3); [now repeat split|].
  assert (T : forall s', In s' m' -> exists s, In s m /\ rng s = rng s').
  { intros t Ht. apply (in_map rng) in Ht. rewrite <- E3 in Ht. apply in_map_iff in Ht. destruct Ht as (u & Hu & Hin). now exists u. }
  split; [|split].
  - constructor; [unfold sfits in *; congruence|exact I1].
  - constructor; [exact I2|]. rewrite Forall_forall in *. intros t Ht. destruct (T t Ht) as (u & Hu & Er). injection Er as Er1 Er2.
    specialize (S2 u Hu). unfold key_le in *. congruence.
  - constructor; [|exact I3]. rewrite Forall_forall in *. intros t Ht. destruct (T t Ht) as (u & Hu & Er). injection Er as Er1 Er2.
    specialize (P1 u Hu). unfold disj, member in *. intros i. rewrite <- Er1, <- Er2, <- E1, <- E2. apply P1.
Qed.

Lemma not_overlap_disj a b : sfits a -> sfits b -> sections_overlap a b = false -> disj a b.
Proof. intros Ha Hb H i A B. assert (sections_overlap a b = true) by (apply overlap_member; auto; now exists i). congruence. Qed.

Lemma add_spec n f c m : inv m -> f + c <= 18446744073709551615 ->
  (fst (add_section n f c m) = true <-> forall s i, In s m -> member i s -> ~ f <= i < f + c) /\
  (fst (add_section n f c m) = true -> Permutation (snd (add_section n f c m)) (Section_ n f c :: m)) /\
  (fst (add_section n f c m) = false -> snd (add_section n f c m) = m) /\
  inv (snd (add_section n f c m)).
Proof.
  intros (H1 & H2 & H3) F. unfold add_section. set (x := Section_ n f c).
  assert (Fx : sfits x) by exact F. rewrite Forall_forall in H1.
  destruct (existsb _ m) eqn:E; cbn [fst snd].
  - split; [|split; [discriminate|split; [reflexivity|]]].
    + split; [discriminate|]. intros H. apply existsb_exists in E. destruct E as (s & Hs & O).
      apply overlap_member in O; [|now apply H1|exact Fx]. destruct O as (i & A & B). exfalso. exact (H s i Hs A B).
    + split; [now apply Forall_forall|now split].
  - assert (D : forall s, In s m -> disj s x).
    { intros s Hs. apply not_overlap_disj; [now apply H1|exact Fx|]. destruct (sections_overlap s x) eqn:O; [|reflexivity].
      rewrite <- E. symmetry. apply existsb_exists. now exists s. }
    assert (P : Permutation (sort_sections (m ++ [x])) (x :: m)).
    { rewrite sort_perm. apply Permutation_sym, Permutation_cons_append. }
    split; [|split; [auto|split; [discriminate|]]].
    + split; [|reflexivity]. intros _ s i Hs A B. exact (D s Hs i A B).
    + split; [|split].
      * apply (Permutation_Forall (Permutation_sym P)). constructor; [exact Fx|now apply Forall_forall].
      * apply sort_sorted.
      * apply (pairs_perm disj disj_sym _ _ (Permutation_sym P)). constructor; [|exact H3].
        apply Forall_forall. intros s Hs. apply disj_sym. now apply D.
Qed.

Lemma step_inv m o : fits o -> inv m -> inv (step m o).
Proof.
  intros F H. destruct o as [n f c|n|a b|]; cbn [step].
  - now apply add_spec.
  - destruct H as (H1 & H2 & H3). cbn [remove_section snd]. split; [now apply Forall_filter|]. split; [now apply sorted_filter|now apply pairs_filter].
  - apply (inv_rng m); [symmetry; apply rename_rng|exact H].
  - repeat split; constructor.
Qed.
Lemma reachable_inv m : reachable m -> inv m.
Proof.
  intros (l & F & ->). unfold run.
  assert (I : inv manager_new) by (repeat split; constructor). revert I. generalize manager_new.
  induction F as [|o l Ho _ IH]; intros m I; [exact I|]. cbn [fold_left]. apply IH. now apply step_inv.
Qed.

Lemma pairs_nth {A} (R : A -> A -> Prop) l : (forall x y, R x y -> R y x) -> ForallOrdPairs R l ->
  forall i j x y, i <> j -> nth_error l i = Some x -> nth_error l j = Some y -> R x y.
Proof.
  intros Sym. induction 1 as [|z l H1 H2 IH]; intros i j x y N Hi Hj.
  - destruct i; discriminate.
  - rewrite Forall_forall in H1. destruct i as [|i], j as [|j]; cbn in *.
    + congruence.
    + injection Hi as <-. apply H1. now apply nth_error_In in Hj.
    + injection Hj as <-. apply Sym, H1. now apply nth_error_In in Hi.
    + apply (IH i j); [congruence|assumption|assumption].
Qed.

Lemma sections_partition m : reachable m ->
  StronglySorted (fun a b => first_slide a <= first_slide b) m /\
  (forall j k s t i, nth_error m j = Some s -> nth_error m k = Some t -> member i s -> member i t -> j = k) /\
  (forall i s, section_for_slide m i = Some s <-> In s m /\ member i s).
Proof.
  intros R. apply reachable_inv in R. destruct R as (H1 & H2 & H3). split; [exact H2|].
  assert (U : forall j k s t i, nth_error m j = Some s -> nth_error m k = Some t -> member i s -> member i t -> j = k).
  { intros j k s t i Hj Hk A B. destruct (PeanoNat.Nat.eq_dec j k) as [E|N]; [exact E|exfalso].
    exact (pairs_nth disj m disj_sym H3 j k s t N Hj Hk i A B). }
  split; [exact U|]. intros i s. unfold section_for_slide. rewrite Forall_forall in H1. split.
  - intros H. apply find_some in H. destruct H as [A B]. split; [exact A|]. apply contains_member; [now apply H1|exact B].
  - intros [A B]. destruct (find (fun s => contains_slide s i) m) as [t|] eqn:E.
    + apply find_some in E. destruct E as [C D]. apply contains_member in D; [|now apply H1].
      apply In_nth_error in A. apply In_nth_error in C. destruct A as [j A], C as [k C].
      rewrite (U j k s t i A C B D) in A. congruence.
    + exfalso. pose proof (find_none _ _ E s A) as Z. apply contains_member in B; [congruence|now apply H1].
Qed.

Lemma add_reachable m n f c : reachable m -> f + c <= 18446744073709551615 ->
  (fst (add_section n f c m) = true <-> forall s i, In s m -> member i s -> ~ f <= i < f + c) /\
  (fst (add_section n f c m) = true -> Permutation (snd (add_section n f c m)) (Section_ n f c :: m)) /\
  (fst (add_section n f c m) = false -> snd (add_section n f c m) = m).
Proof.
  intros R F. destruct (add_spec n f c m (reachable_inv m R) F) as (A & B & C & _). auto.
Qed.

(** ** XML *)

Open Scope string_scope.

Definition sldT (i : N) : tpl := TS "p14:sldId" [("id", [Lit (dec (256 + i))])].
Definition sectionT (total : N) (s : section) : tpl :=
  TE "p14:section" [("name", [Esc (name s)]); ("id", [Lit "{"; Lit (section_id (name s)); Lit "}"])]
    [TE "p14:sldIdLst" [] (map sldT (section_slides total s))].
Definition sectionsT (total : N) (m : manager) : tpl :=
  TE "p:extLst" [] [TE "p:ext" [("uri", [Lit "{521415D9-36F7-43E2-AB2F-B90AF26B5E84}"])]
    [TE "p14:sectionLst" [("xmlns:p14", [Lit "http://schemas.microsoft.com/office/powerpoint/2010/main"])] (map (sectionT total) m)]].

Lemma section_tpl total s : section_xml total s = tstr (sectionT total s).
Proof.
  unfold section_xml, sectionT. rewrite chained_escape_eq. cbn [tstr map]. rewrite map_map.
  rewrite (sconcat_ext _ (fun i => tstr (sldT i))) by (intros i _; unfold sldT; tstr_eq).
  set (X := sconcat (map (fun i => tstr (sldT i)) _)). clearbody X. tstr_eq.
Qed.
Lemma sections_tpl total m : m <> [] -> sections_xml total m = tstr (sectionsT total m).
Proof.
  intros H. unfold sections_xml. destruct m as [|s0 m0]; [congruence|]. set (m := s0 :: m0). clearbody m. clear H.
  unfold sectionsT. cbn [tstr map]. rewrite map_map.
  rewrite (sconcat_ext _ (fun s => tstr (sectionT total s))) by (intros s _; apply section_tpl).
  set (X := sconcat _). clearbody X. tstr_eq.
Qed.

Lemma upper_hex_val c : is_upper_hex c = true -> plain_val c = true.
Proof. destruct c as [[] [] [] [] [] [] [] []]; vm_compute; auto. Qed.
Lemma sforall_imp (f g : ascii -> bool) s : (forall c, f c = true -> g c = true) -> sforall f s = true -> sforall g s = true.
Proof.
  intros H. induction s as [|c s IH]; [reflexivity|]. cbn [sforall]. rewrite !andb_true_iff. intros [A B]. split; [now apply H|now apply IH].
Qed.
Lemma section_id_val n : sforall plain_val (section_id n) = true.
Proof.
  unfold section_id. cbv zeta. rewrite !sforall_app.
  assert (H : forall w x, sforall plain_val (hexw w x) = true) by (intros w x; apply (sforall_imp is_upper_hex); [apply upper_hex_val|apply hexw_upper]).
  now rewrite !H.
Qed.
Lemma guid_mk a b c d e : map String.length [a; b; c; d; e] = [8; 4; 4; 4; 12]%nat ->
  (forall x, In x [a; b; c; d; e] -> sforall is_upper_hex x = true) ->
  guid_form ("{" ++ (a ++ "-" ++ b ++ "-" ++ c ++ "-" ++ d ++ "-" ++ e) ++ "}").
Proof. intros L H. exists a, b, c, d, e. split; [str_refl|]. split; [exact L|]. exact H. Qed.
Lemma section_id_guid n : guid_form ("{" ++ section_id n ++ "}").
Proof.
  unfold section_id. cbv zeta. apply guid_mk.
  - assert (M : forall k x, (k <> 0 -> x mod k < k)%N) by (intros; now apply N.mod_lt).
    cbn [map]. rewrite !hexw_length; try (apply PeanoNat.Nat.lt_0_succ); [reflexivity|..]; try (apply M; discriminate).
    rewrite N.shiftr_div_pow2. apply N.div_lt_upper_bound; [discriminate|]. unfold wmul. apply M. discriminate.
  - intros x [<-|[<-|[<-|[<-|[<-|[]]]]]]; apply hexw_upper.
Qed.

Lemma sections_tok total m : (forall s, In s m -> attr_ok (name s) = true) -> tok (sectionsT total m).
Proof.
  intros Ok. unfold sectionsT. apply tok_TE; [reflexivity|reflexivity|]. cbn [toks]. split; [|exact I].
  apply tok_TE; [reflexivity|reflexivity|]. cbn [toks]. split; [|exact I].
  apply tok_TE; [reflexivity|vm_compute; reflexivity|]. apply toks_map. intros s Hs.
  apply tok_TE; [reflexivity| |].
  - unfold tattrs_ok. apply andb_true_iff. split; [reflexivity|]. cbn [forallb fst snd pv_ok].
    rewrite (Ok s Hs), section_id_val. reflexivity.
  - cbn [toks]. split; [|exact I]. apply tok_TE; [reflexivity|reflexivity|]. apply toks_map. intros i _. unfold sldT. toks_solve.
Qed.

Lemma sections_read total m : m <> [] -> (forall s, In s m -> attr_ok (name s) = true) ->
  read_sections (sections_xml total m) =
  Some (map (fun s => (name s, "{" ++ section_id (name s) ++ "}", map (fun i => dec (256 + i)) (section_slides total s))) m).
Proof.
  intros Ne Ok. rewrite sections_tpl by exact Ne. pose proof (sections_tok total m Ok) as T.
  unfold read_sections. unfold sectionsT in *. rewrite tpl_read_node by exact T. clear T. cbn [tnode]. f_equal.
  nread. rewrite named_all by reflexivity. rewrite map_map. apply map_ext. intros s.
  f_equal; [f_equal|].
  - cbn. now rewrite sapp_nil_r.
  - unfold sectionT. nread. rewrite named_all by reflexivity. rewrite map_map. apply map_ext. intros i. cbn. now rewrite sapp_nil_r.
Qed.
Lemma section_slides_spec total s i : In i (section_slides total s) <-> member i s /\ (i < total)%N.
Proof.
  unfold section_slides, member. rewrite filter_In, in_map_iff, N.ltb_lt. split.
  - intros [(k & <- & Hk) L]. apply in_seq in Hk. lia.
  - intros [H L]. split; [|exact L]. exists (N.to_nat (i - first_slide s)). split; [lia|]. apply in_seq. lia.
Qed.
Lemma section_slides_sorted total s : StronglySorted N.lt (section_slides total s).
Proof.
  unfold section_slides. apply sorted_filter. generalize (first_slide s). intros f. generalize (N.to_nat (slide_count s)) as n. generalize 0%nat as k.
  intros k n. revert k. induction n as [|n IH]; intros k; cbn [seq map]; [constructor|]. constructor; [apply IH|].
  apply Forall_forall. intros x Hx. apply in_map_iff in Hx. destruct Hx as (j & <- & Hj). apply in_seq in Hj. lia.
Qed.
Lemma some_eq {A} (x y : A) : Some x = Some y -> y = x.
Proof. intros H. now injection H. Qed.
Lemma sections_xml_ok total m : m <> [] -> (forall s, In s m -> attr_ok (name s) = true) ->
  exists l, read_sections (sections_xml total m) = Some l /\ map (fun x => fst (fst x)) l = map name m /\
    Forall (fun x => guid_form (snd (fst x))) l /\
    forall k s e, nth_error m k = Some s -> nth_error l k = Some e ->
      exists ids, snd e = map (fun i => dec (256 + i)) ids /\ StronglySorted N.lt ids /\
        forall i, In i ids <-> member i s /\ (i < total)%N.
Proof.
  intros Ne Ok. eexists. split; [apply sections_read; assumption|]. split; [rewrite map_map; reflexivity|]. split.
  - apply Forall_forall. intros x Hx. apply in_map_iff in Hx. destruct Hx as (s & <- & _). apply section_id_guid.
  - intros k s e Hs He. rewrite nth_error_map, Hs in He. cbn [option_map] in He. apply some_eq in He.
    exists (section_slides total s). split; [subst e; exact eq_refl|]. split; [apply section_slides_sorted|]. intros i. apply section_slides_spec.
Qed.

(** ** By name *)
Lemma remove_by_name n m : let '(b, m') := remove_section n m in
  (exists gone, Permutation m (m' ++ gone)%list /\ Forall (fun s => name s = n) gone) /\ Forall (fun s => name s <> n) m'
  /\ (forall i j s t, nth_error m' i = Some s -> nth_error m' j = Some t -> (i < j)%nat -> exists k l, (k < l)%nat /\ nth_error m k = Some s /\ nth_error m l = Some t)
  /\ (b = true <-> exists s, In s m /\ name s = n).
Proof.
  unfold remove_section. cbv zeta. set (f := fun s => negb (String.eqb (name s) n)).
  assert (F : forall s, f s = true <-> name s <> n) by (intros s; unfold f; rewrite negb_true_iff; apply String.eqb_neq).
  assert (P : exists gone, Permutation m (filter f m ++ gone) /\ Forall (fun s => name s = n) gone).
  { exists (filter (fun s => negb (f s)) m). split.
    - clear. induction m as [|s m IH]; [reflexivity|]. cbn [filter]. destruct (f s); cbn [negb app]; [now constructor|]. rewrite IH at 1. apply Permutation_middle.
    - apply Forall_forall. intros s H. apply filter_In in H. destruct H as [_ H]. apply negb_true_iff in H. unfold f in H. apply negb_false_iff in H. now apply String.eqb_eq. }
  assert (L : (length (filter f m) < length m)%nat <-> exists s, In s m /\ name s = n).
  { clear -F. induction m as [|s m IH]; [cbn; split; [lia|intros (s & [] & _)]|]. cbn [filter]. destruct (f s) eqn:E.
    - apply F in E. cbn [length]. split.
      + intros H. destruct (proj1 IH ltac:(lia)) as (t & I & N). exists t. split; [now right|exact N].
      + intros (t & [<-|I] & N); [contradiction|]. assert (H := proj2 IH (ex_intro _ t (conj I N))). lia.
    - split; [|intros _; cbn [length]; assert (H : (length (filter f m) <= length m)%nat) by (clear; induction m as [|y m IH]; [reflexivity|cbn [filter length]; destruct (f y); cbn [length]; lia]); lia]. intros _. exists s. split; [now left|].
      unfold f in E. apply negb_false_iff in E. now apply String.eqb_eq. }
  split; [exact P|]. split; [|split].
  - apply Forall_forall. intros s H. apply filter_In in H. now apply F.
  - clear. induction m as [|x m IH]; intros i j s t A B C; [destruct i; discriminate|]. cbn [filter] in A, B. destruct (f x).
    + destruct i as [|i], j as [|j]; try lia.
      * cbn in A, B. injection A as ->. assert (I : In t m) by (apply nth_error_In in B; apply filter_In in B; tauto).
        apply In_nth_error in I. destruct I as [l I]. exists 0%nat, (S l). cbn. split; [lia|auto].
      * cbn in A, B. destruct (IH i j s t A B ltac:(lia)) as (k & l & H & U & V). exists (S k), (S l). cbn. split; [lia|auto].
    + destruct (IH i j s t A B C) as (k & l & H & U & V). exists (S k), (S l). cbn. split; [lia|auto].
  - rewrite PeanoNat.Nat.ltb_lt. exact L.
Qed.
Lemma find_first n m : match get_section m n with
  | Some s => exists a b, m = (a ++ s :: b)%list /\ name s = n /\ Forall (fun t => name t <> n) a
  | None => Forall (fun t => name t <> n) m
  end.
Proof.
  unfold get_section. induction m as [|x m IH]; [constructor|]. cbn [find]. destruct (String.eqb_spec (name x) n) as [E|E].
  - exists [], m. auto.
  - destruct (find _ m) as [s|]; [|now constructor]. destruct IH as (a & b & -> & N & F). exists (x :: a), b. split; [reflexivity|]. split; [exact N|]. now constructor.
Qed.
Lemma rename_first old new m : let '(b, m') := rename_section old new m in
  if b then exists a s c, m = (a ++ s :: c)%list /\ name s = old /\ Forall (fun t => name t <> old) a /\ m' = (a ++ Section_ new (first_slide s) (slide_count s) :: c)%list
  else m' = m /\ Forall (fun t => name t <> old) m.
Proof.
  induction m as [|x m IH]; [split; [reflexivity|constructor]|]. cbn [rename_section]. destruct (String.eqb_spec (name x) old) as [E|E].
  - exists [], x, m. auto.
  - destruct (rename_section old new m) as [[] m'].
    + destruct IH as (a & s & c & -> & N & F & ->). exists (x :: a), s, c. repeat split; [exact N|now constructor].
    + destruct IH as [-> F]. split; [reflexivity|now constructor].
Qed.
