(** Lemmas: which parts a generated deck has. *)
From Coq Require Import String Ascii List Bool Arith NArith Lia Permutation.
From Verif Require Import Str Num GenModel FontsModel DocPropsModel ChartModel ShapeModel SlideModel DeckModel DeckSpec DeckInput.
Import ListNotations.
Open Scope nat_scope.
Open Scope string_scope.
Local Open Scope list_scope.

(** ** Prefixes *)
Definition incomp (p q : string) : bool := negb (starts_with p q) && negb (starts_with q p).
Lemma starts_incomp p q x : incomp p q = true -> starts_with p (q ++ x)%string = false.
Proof.
  unfold incomp. rewrite andb_true_iff, !negb_true_iff. intros [H1 H2]. revert q H1 H2. induction p as [|a p IH]; intros q H1 H2; [destruct q; discriminate|].
  destruct q as [|b q]; [discriminate|]. cbn [starts_with append] in *. destruct (Ascii.eqb_spec a b) as [->|]; [|reflexivity].
  rewrite Ascii.eqb_refl in H2. cbn [andb] in *. now apply IH.
Qed.
Lemma starts_self p x : starts_with p (p ++ x)%string = true.
Proof. induction p as [|a p IH]; [reflexivity|]. cbn. rewrite Ascii.eqb_refl. exact IH. Qed.
Lemma incomp_sym p q : incomp p q = incomp q p.
Proof. unfold incomp. apply andb_comm. Qed.
Lemma incomp_neq p q x y : incomp p q = true -> (p ++ x)%string <> (q ++ y)%string.
Proof. intros H E. pose proof (starts_incomp p q y H) as S. rewrite <- E, starts_self in S. discriminate. Qed.

(** All names of a list begin with one of these. *)
Definition heads (qs : list string) (l : list entry) : Prop := forall e, In e l -> exists q x, In q qs /\ fst e = (q ++ x)%string.
Lemma heads_nil qs : heads qs [].
Proof. intros e []. Qed.
Lemma heads_app qs a b : heads qs a -> heads qs b -> heads qs (a ++ b).
Proof. intros A B e H. apply in_app_or in H. destruct H; auto. Qed.
Lemma heads_cons qs q x c l : In q qs -> heads qs l -> heads qs (((q ++ x)%string, c) :: l).
Proof. intros Q L e [<-|H]; [|auto]. exists q, x. split; [exact Q|reflexivity]. Qed.
Lemma heads_incl qs qs' l : incl qs qs' -> heads qs l -> heads qs' l.
Proof. intros I H e E. destruct (H e E) as (q & x & Q & F). exists q, x. auto. Qed.
Lemma heads_fixed l : heads (map fst l) l.
Proof. intros e H. exists (fst e), "". split; [now apply in_map|]. now rewrite sapp_nil_r. Qed.
Lemma family_app p a b : family p (a ++ b) = family p a ++ family p b.
Proof. apply filter_app. Qed.
Lemma family_none p qs l : heads qs l -> forallb (incomp p) qs = true -> family p l = [].
Proof.
  intros H F. induction l as [|e l IH]; [reflexivity|]. unfold family in *. cbn [filter]. destruct (H e (or_introl eq_refl)) as (q & x & Q & E).
  rewrite forallb_forall in F. rewrite E, (starts_incomp p q x (F q Q)). apply IH. intros e' H'. apply H. now right.
Qed.
Lemma family_all p l : heads [p] l -> family p l = l.
Proof.
  intros H. induction l as [|e l IH]; [reflexivity|]. unfold family in *. cbn [filter]. destruct (H e (or_introl eq_refl)) as (q & x & [<-|[]] & E).
  rewrite E, starts_self. f_equal. apply IH. intros e' H'. apply H. now right.
Qed.
Lemma family_In p l e : In e (family p l) -> In e l.
Proof. unfold family. rewrite filter_In. tauto. Qed.

Lemma NoDup_app_i {A} (a b : list A) : NoDup a -> NoDup b -> (forall x, In x a -> In x b -> False) -> NoDup (a ++ b).
Proof.
  induction a as [|x a IH]; intros A1 B D; [exact B|]. inversion A1; subst. cbn [app]. constructor.
  - intros H. apply in_app_or in H. destruct H as [H|H]; [contradiction|]. apply (D x); [now left|exact H].
  - apply IH; auto. intros y Hy. apply D. now right.
Qed.
(** Names of two lists without common beginnings are different. *)
Definition apart (ps qs : list string) : bool := forallb (fun p => forallb (incomp p) qs) ps.
Lemma NoDup_apart ps qs (a b : list entry) : heads ps a -> heads qs b -> apart ps qs = true -> NoDup (map fst a) -> NoDup (map fst b) -> NoDup (map fst (a ++ b)).
Proof.
  intros A B D NA NB. rewrite map_app. apply NoDup_app_i; [exact NA|exact NB|]. intros n H1 H2. apply in_map_iff in H1. apply in_map_iff in H2.
  destruct H1 as (e & <- & E). destruct H2 as (e' & E2 & E'). destruct (A e E) as (p & x & P & X). destruct (B e' E') as (q & y & Q & Y).
  unfold apart in D. rewrite forallb_forall in D. specialize (D p P). rewrite forallb_forall in D. specialize (D q Q).
  apply (incomp_neq p q x y D). congruence.
Qed.

Lemma NoDup_families ps (l : list entry) : heads ps l -> (forall p, In p ps -> NoDup (map fst (family p l))) -> NoDup (map fst l).
Proof.
  induction l as [|e l IH]; intros H F; [constructor|]. destruct (H e (or_introl eq_refl)) as (p & x & P & E). cbn [map]. constructor.
  - intros I. apply in_map_iff in I. destruct I as (e' & E' & I'). specialize (F p P). unfold family in F. cbn [filter] in F. rewrite E, starts_self in F. cbn [map] in F.
    apply NoDup_cons_iff in F. apply (proj1 F). rewrite <- E'. apply (in_map fst). apply filter_In. split; [exact I'|]. rewrite E', E. apply starts_self.
  - apply IH; [intros e' H'; apply H; now right|]. intros q Q. specialize (F q Q). unfold family in *. cbn [filter] in F. destruct (starts_with q (fst e)); [now inversion F|exact F].
Qed.
Lemma family_in1 p x c : family p [((p ++ x)%string, c)] = [((p ++ x)%string, c)].
Proof. unfold family. cbn [filter fst]. now rewrite starts_self. Qed.
Lemma family_out1 p q x c : incomp p q = true -> family p [((q ++ x)%string, c)] = [].
Proof. intros H. unfold family. cbn [filter fst]. now rewrite (starts_incomp p q x H). Qed.

(** ** Numbered parts *)
Definition numF (a : nat) (pre post : string) (contents : list string) : list entry :=
  combine (map (fun k => (pre ++ decn k ++ post)%string) (seq a (length contents))) contents.
Lemma numF_1 pre post l : numF 1 pre post l = numbered pre post l.
Proof. reflexivity. Qed.
Lemma numF_cons a pre post c l : numF a pre post (c :: l) = ((pre ++ decn a ++ post)%string, c) :: numF (S a) pre post l.
Proof. reflexivity. Qed.
Lemma numF_app a pre post l m : numF a pre post (l ++ m) = numF a pre post l ++ numF (a + length l) pre post m.
Proof.
  revert a. induction l as [|c l IH]; intros a; [cbn; now rewrite Nat.add_0_r|]. cbn [app length]. rewrite !numF_cons, IH. cbn [app]. do 3 f_equal. lia.
Qed.
Lemma combine_fst {A B} (a : list A) (b : list B) : length a = length b -> map fst (combine a b) = a.
Proof. revert b. induction a as [|x a IH]; intros [|y b] H; try discriminate; [reflexivity|]. cbn. f_equal. apply IH. now injection H. Qed.
Lemma numF_names a pre post l : map fst (numF a pre post l) = map (fun k => (pre ++ decn k ++ post)%string) (seq a (length l)).
Proof. unfold numF. apply combine_fst. now rewrite map_length, seq_length. Qed.
Lemma app_suffix_inj (a b s : string) : (a ++ s)%string = (b ++ s)%string -> a = b.
Proof. intros H. rewrite <- (srev_involutive a), <- (srev_involutive b). f_equal. apply (f_equal srev) in H. rewrite !srev_sapp in H. now apply sapp_inj_l in H. Qed.
Lemma num_name_inj pre post k j : (pre ++ decn k ++ post)%string = (pre ++ decn j ++ post)%string -> k = j.
Proof. intros H. apply sapp_inj_l, app_suffix_inj in H. now apply decn_inj. Qed.
Lemma NoDup_num pre post a n : NoDup (map (fun k => (pre ++ decn k ++ post)%string) (seq a n)).
Proof. apply FinFun.Injective_map_NoDup; [intros k j; apply num_name_inj|apply seq_NoDup]. Qed.
Lemma numF_NoDup a pre post l : NoDup (map fst (numF a pre post l)).
Proof. rewrite numF_names. apply NoDup_num. Qed.
Lemma numF_heads a pre post l : heads [pre] (numF a pre post l).
Proof.
  intros e H. unfold numF in H. destruct e as [n c]. apply in_combine_l in H. apply in_map_iff in H. destruct H as (k & <- & _). exists pre, (decn k ++ post)%string. split; [now left|reflexivity].
Qed.
Lemma numF_nth a pre post l k c : nth_error l k = Some c -> In ((pre ++ decn (a + k) ++ post)%string, c) (numF a pre post l).
Proof.
  revert a k. induction l as [|x l IH]; intros a k H; [destruct k; discriminate|]. rewrite numF_cons. destruct k as [|k].
  - injection H as ->. left. now rewrite Nat.add_0_r.
  - right. replace (a + S k) with (S a + k) by lia. now apply IH.
Qed.
Lemma numF_In a pre post l e : In e (numF a pre post l) -> exists k c, nth_error l k = Some c /\ e = ((pre ++ decn (a + k) ++ post)%string, c).
Proof.
  revert a. induction l as [|x l IH]; intros a H; [destruct H|]. rewrite numF_cons in H. destruct H as [<-|H].
  - exists 0, x. split; [reflexivity|]. now rewrite Nat.add_0_r.
  - destruct (IH _ H) as (k & c & N & E). exists (S k), c. split; [exact N|]. rewrite E. do 3 f_equal. f_equal. lia.
Qed.

(** ** Slides, notes and ink *)
Definition ix {A} (i : nat) (l : list A) : list (nat * A) := combine (seq i (length l)) l.
Lemma ix_cons {A} i (x : A) l : ix i (x :: l) = (i, x) :: ix (S i) l.
Proof. reflexivity. Qed.
Lemma ix_snd {A} i (l : list A) : map snd (ix i l) = l.
Proof. revert i. induction l; intros i; [reflexivity|]. rewrite ix_cons. cbn [map snd]. f_equal. apply IHl. Qed.
Lemma ix_nth {A} i (l : list A) k : nth_error (ix i l) k = option_map (fun x => (i + k, x)) (nth_error l k).
Proof. revert i k. induction l as [|x l IH]; intros i k; [destruct k; reflexivity|]. rewrite ix_cons. destruct k; cbn; [now rewrite Nat.add_0_r|]. rewrite IH. destruct (nth_error l k); cbn; do 2 f_equal. lia. Qed.
Definition notes_text (p : nat * slide) : list string := match s_notes (snd p) with Some t => [create_notes_xml (fst p + 1) t] | None => [] end.
Definition notes_link (p : nat * slide) : list string := if has_notes (snd p) then [create_notes_rels_xml (fst p + 1)] else [].
Definition eager_slide (s : slide) : string :=
  let start := slide_content_rel_start (has_notes s) (length (s_images s)) in
  slide_xml s (chart_rids start (length (s_charts s))) (if s_ink s then Some ("rId" ++ decn (start + length (s_charts s)))%string else None).
Definition P_slide := "ppt/slides/slide".
Definition P_rels := "ppt/slides/_rels/slide".
Definition P_notes := "ppt/notesSlides/notesSlide".
Definition P_nrels := "ppt/notesSlides/_rels/notesSlide".
Definition P_ink := "ppt/ink/ink".
Definition P_chart := "ppt/charts/chart".
Definition P_crels := "ppt/charts/_rels/chart".
Definition P_sheet := "ppt/embeddings/Microsoft_Excel_Sheet".
Definition P_media := "ppt/media/image".
Definition P_font := "ppt/fonts/".
Section X.
  Context (X : statics).
  Lemma slides_heads l : forall i nn kn, heads [P_ink; P_slide; P_notes] (write_slides_from X i nn kn l).
  Proof.
    induction l as [|s l IH]; intros i nn kn; [apply heads_nil|]. cbn [write_slides_from].
    repeat apply heads_app; [destruct (s_ink s)| |destruct (s_notes s)|apply IH]; try apply heads_nil; unfold ink_path, slide_path, notes_path;
    apply heads_cons; try apply heads_nil; cbn; auto.
  Qed.
  Ltac fam := rewrite ?family_app, ?family_in1; repeat rewrite family_out1 by reflexivity.
  Lemma slides_slides l : forall i nn kn, family P_slide (write_slides_from X i nn kn l) = numF (i + 1) P_slide ".xml" (map eager_slide l).
  Proof.
    induction l as [|s l IH]; intros i nn kn; [reflexivity|]. cbn [write_slides_from map]. rewrite numF_cons, !family_app, IH.
    replace (family P_slide (if s_ink s then _ else [])) with (@nil entry) by (destruct (s_ink s); [symmetry; now apply family_out1|reflexivity]).
    replace (family P_slide (match s_notes s with Some _ => _ | None => [] end)) with (@nil entry) by (destruct (s_notes s); [symmetry; now apply family_out1|reflexivity]).
    unfold slide_path. rewrite family_in1. cbn [app]. unfold eager_slide. f_equal. f_equal. lia.
  Qed.
  Lemma slides_notes l : forall i nn kn, family P_notes (write_slides_from X i nn kn l) = numF (nn + 1) P_notes ".xml" (flat_map notes_text (ix i l)).
  Proof.
    induction l as [|s l IH]; intros i nn kn; [reflexivity|]. rewrite ix_cons. cbn [write_slides_from flat_map]. rewrite !family_app, IH.
    replace (family P_notes (if s_ink s then _ else [])) with (@nil entry) by (destruct (s_ink s); [symmetry; now apply family_out1|reflexivity]).
    unfold slide_path. rewrite family_out1 by reflexivity. cbn [app]. unfold notes_text at 2, has_notes. cbn [fst snd]. destruct (s_notes s) as [t|].
    - unfold notes_path. rewrite family_in1. cbn [app]. rewrite numF_cons, !Nat.add_1_r. reflexivity.
    - rewrite (Nat.add_1_r i). reflexivity.
  Qed.
  Lemma slides_ink l : forall i nn kn, family P_ink (write_slides_from X i nn kn l) = numF (kn + 1) P_ink ".xml" (map (x_ink X) (filter s_ink l)).
  Proof.
    induction l as [|s l IH]; intros i nn kn; [reflexivity|]. cbn [write_slides_from filter]. rewrite !family_app, IH.
    replace (family P_ink (match s_notes s with Some _ => _ | None => [] end)) with (@nil entry) by (destruct (s_notes s); [symmetry; now apply family_out1|reflexivity]).
    unfold slide_path. rewrite family_out1 by reflexivity. cbn [app]. destruct (s_ink s); cbn [map].
    - unfold ink_path. rewrite family_in1. cbn [app]. rewrite numF_cons, !Nat.add_1_r. reflexivity.
    - reflexivity.
  Qed.
  Lemma slides_NoDup l i nn kn : NoDup (map fst (write_slides_from X i nn kn l)).
  Proof.
    apply (NoDup_families _ _ (slides_heads l i nn kn)). intros p [<-|[<-|[<-|[]]]]; [rewrite slides_ink|rewrite slides_slides|rewrite slides_notes]; apply numF_NoDup.
  Qed.

  (** ** Relationships of slides and notes *)
  Definition eager_rels (reg : registry) (nn kn start_chart : nat) (s : slide) : string :=
    let images := slide_image_rel_targets reg s in
    let start := slide_content_rel_start (has_notes s) (length images) in
    create_slide_rels_xml_with_images (layout_number (s_layout s)) (has_notes s) (if has_notes s then nn + 1 else 1)
      (chart_rels start start_chart (length (s_charts s))) images (slide_hyperlink_relationships s)
      (if s_ink s then Some (start + length (s_charts s), kn + 1) else None).
  Fixpoint rels_list (reg : registry) (nn kn t : nat) (l : list slide) : list string :=
    match l with
    | [] => []
    | s :: r => eager_rels reg nn kn (t + 1) s :: rels_list reg (if has_notes s then nn + 1 else nn) (if s_ink s then kn + 1 else kn) (t + length (s_charts s)) r
    end.
  Lemma rels_form reg l : forall i nn kn t, write_slide_rels_from reg i nn kn (chart_starts t (chart_counts l)) l = numF (i + 1) P_rels ".xml.rels" (rels_list reg nn kn t l).
  Proof.
    induction l as [|s l IH]; intros i nn kn t; [reflexivity|]. cbn [chart_counts map chart_starts write_slide_rels_from rels_list]. fold (chart_counts l).
    rewrite IH, numF_cons. f_equal; [|f_equal; lia]. unfold eager_rels. unfold slide_rels_path. f_equal. destruct (has_notes s), (s_ink s); reflexivity.
  Qed.
  Lemma notes_form l : forall i nn, write_notes_rels_from i nn l = numF (nn + 1) P_nrels ".xml.rels" (flat_map notes_link (ix i l)).
  Proof.
    induction l as [|s l IH]; intros i nn; [reflexivity|]. rewrite ix_cons. cbn [write_notes_rels_from flat_map]. unfold notes_link at 1. cbn [fst snd]. rewrite !IH.
    destruct (has_notes s); cbn [app]; rewrite ?numF_cons, !Nat.add_1_r; reflexivity.
  Qed.
  (** ** Charts *)
  Lemma slide_charts_app a : forall k b, write_slide_charts X k (a ++ b) = write_slide_charts X k a ++ write_slide_charts X (k + length a) b.
  Proof. induction a as [|c a IH]; intros k b; [cbn; now rewrite Nat.add_0_r|]. cbn [app write_slide_charts length]. rewrite IH, <- app_assoc. do 3 f_equal. lia. Qed.
  Lemma charts_form l : forall t, write_charts X (chart_starts t (chart_counts l)) l = write_slide_charts X (t + 1) (all_charts l).
  Proof.
    unfold write_charts, all_charts. induction l as [|s l IH]; intros t; [reflexivity|]. cbn [chart_counts map chart_starts combine flat_map fst snd]. fold (chart_counts l). rewrite IH, slide_charts_app. do 2 f_equal. lia.
  Qed.
  Lemma total_from l : forall a, fold_left Nat.add (chart_counts l) a = a + length (all_charts l).
  Proof.
    unfold all_charts. induction l as [|s l IH]; intros a; cbn [chart_counts map fold_left flat_map]; [cbn; lia|]. fold (chart_counts l). rewrite IH, app_length. lia.
  Qed.
  Lemma total_eq l : chart_total (chart_counts l) = length (all_charts l).
  Proof. unfold chart_total. now rewrite total_from. Qed.
  Lemma charts_heads l : forall k, heads [P_chart; P_crels; P_sheet] (write_slide_charts X k l).
  Proof.
    induction l as [|c l IH]; intros k; [apply heads_nil|]. cbn [write_slide_charts]. apply heads_app; [|apply IH]. unfold write_chart_package, chart_path, chart_rels_path.
    apply heads_cons; [now left|]. apply heads_cons; [cbn; auto|]. change (embedding_path k) with (P_sheet ++ decn k ++ ".xlsx")%string. apply heads_cons; [cbn; auto|]. apply heads_nil.
  Qed.
  Lemma package_families k c :
    family P_chart (write_chart_package X k c) = [(chart_path k, chart_part_xml c)]
    /\ family P_crels (write_chart_package X k c) = [(chart_rels_path k, create_chart_rels_xml (chart_embedding_filename k))]
    /\ family P_sheet (write_chart_package X k c) = [(embedding_path k, x_workbook X)].
  Proof.
    unfold write_chart_package. change (embedding_path k) with (P_sheet ++ decn k ++ ".xlsx")%string. unfold chart_path, chart_rels_path, family. cbn [filter fst].
    pose proof (starts_incomp P_chart P_crels (decn k ++ ".xml.rels") eq_refl) as A1. pose proof (starts_incomp P_chart P_sheet (decn k ++ ".xlsx") eq_refl) as A2.
    pose proof (starts_incomp P_crels P_chart (decn k ++ ".xml") eq_refl) as B1. pose proof (starts_incomp P_crels P_sheet (decn k ++ ".xlsx") eq_refl) as B2.
    pose proof (starts_incomp P_sheet P_chart (decn k ++ ".xml") eq_refl) as C1. pose proof (starts_incomp P_sheet P_crels (decn k ++ ".xml.rels") eq_refl) as C2.
    change ("ppt/charts/chart") with P_chart. change ("ppt/charts/_rels/chart") with P_crels. rewrite !starts_self, A1, A2, B1, B2, C1, C2. repeat split.
  Qed.
  Lemma charts_charts l : forall k, family P_chart (write_slide_charts X k l) = numF k P_chart ".xml" (map chart_part_xml l).
  Proof. induction l as [|c l IH]; intros k; [reflexivity|]. cbn [write_slide_charts map]. rewrite family_app, (proj1 (package_families k c)), IH, numF_cons, Nat.add_1_r. reflexivity. Qed.
  Lemma charts_rels l : forall k, family P_crels (write_slide_charts X k l) = numF k P_crels ".xml.rels" (map (fun j => create_chart_rels_xml (chart_embedding_filename j)) (seq k (length l))).
  Proof. induction l as [|c l IH]; intros k; [reflexivity|]. cbn [write_slide_charts length seq map]. rewrite family_app, (proj1 (proj2 (package_families k c))), IH, numF_cons, Nat.add_1_r. reflexivity. Qed.
  Lemma charts_sheets l : forall k, family P_sheet (write_slide_charts X k l) = numF k P_sheet ".xlsx" (map (fun _ => x_workbook X) l).
  Proof. induction l as [|c l IH]; intros k; [reflexivity|]. cbn [write_slide_charts map]. rewrite family_app, (proj2 (proj2 (package_families k c))), IH, numF_cons, Nat.add_1_r. reflexivity. Qed.
  Lemma charts_NoDup l k : NoDup (map fst (write_slide_charts X k l)).
  Proof. apply (NoDup_families _ _ (charts_heads l k)). intros p [<-|[<-|[<-|[]]]]; [rewrite charts_charts|rewrite charts_rels|rewrite charts_sheets]; apply numF_NoDup. Qed.
End X.

(** ** Media *)
Lemma media_eqb_spec x y : media_eqb x y = true <-> x = y.
Proof. unfold media_eqb. rewrite andb_true_iff, !String.eqb_eq. destruct x, y; cbn. split; [intros [-> ->]; reflexivity|intros E; injection E as -> ->; auto]. Qed.
Definition add_media (r : registry) (x : string * string) : registry := if existsb (media_eqb x) r then r else r ++ [x].
Lemma position_None {A} (f : A -> bool) l : position f l = None <-> existsb f l = false.
Proof. induction l as [|x l IH]; [tauto|]. cbn. destruct (f x); cbn; [split; discriminate|]. destruct (position f l); cbn; rewrite <- IH; split; discriminate || reflexivity. Qed.
Lemma register_eq r i : register_image r i = fold_left add_media (media_of i) r.
Proof.
  unfold register_image, media_of. destruct (im_bytes i) as [b|]; [|reflexivity]. cbn [fold_left]. unfold image_number, lookup_number, add_media.
  assert (E : existsb (media_eqb (b, im_ext i)) r = existsb (same_media b (im_ext i)) r).
  { clear. induction r as [|x r IH]; [reflexivity|]. cbn. rewrite IH. f_equal. unfold media_eqb, same_media. cbn. now rewrite (String.eqb_sym b), (String.eqb_sym (im_ext i)). }
  rewrite E. destruct (position (same_media b (im_ext i)) r) eqn:P; cbn [option_map fst].
  - destruct (existsb (same_media b (im_ext i)) r) eqn:Q; [reflexivity|]. apply position_None in Q. congruence.
  - apply position_None in P. now rewrite P.
Qed.
Lemma registry_fold l : forall r, fold_left (fun r s => fold_left register_image (s_images s) r) l r = fold_left add_media (all_media l) r.
Proof.
  unfold all_media. induction l as [|s l IH]; intros r; [reflexivity|]. cbn [fold_left flat_map]. rewrite fold_left_app, IH. f_equal.
  generalize (s_images s) as m. intros m. revert r. induction m as [|i m IHm]; intros r; [reflexivity|]. cbn [fold_left flat_map]. rewrite fold_left_app, IHm, register_eq. reflexivity.
Qed.
Lemma filter_filter {A} (f g : A -> bool) l : filter f (filter g l) = filter (fun x => g x && f x) l.
Proof. induction l as [|x l IH]; [reflexivity|]. cbn. destruct (g x); cbn; [destruct (f x); now rewrite IH|exact IH]. Qed.
Lemma add_fold m : forall r, fold_left add_media m r = r ++ filter (fun y => negb (existsb (media_eqb y) r)) (uniques media_eqb m).
Proof.
  induction m as [|x m IH]; intros r; [cbn; now rewrite app_nil_r|]. cbn [fold_left uniques]. rewrite IH. unfold add_media. cbn [filter]. rewrite filter_filter.
  destruct (existsb (media_eqb x) r) eqn:E; cbn [negb].
  - f_equal. apply filter_ext. intros y. destruct (media_eqb x y) eqn:Q; [|reflexivity]. apply media_eqb_spec in Q. subst y. now rewrite E.
  - rewrite <- app_assoc. cbn [app]. do 2 f_equal. apply filter_ext. intros y. rewrite existsb_app. cbn [existsb]. rewrite orb_false_r, negb_orb.
    rewrite andb_comm. f_equal. f_equal. unfold media_eqb. now rewrite (String.eqb_sym (fst y)), (String.eqb_sym (snd y)).
Qed.
Lemma registry_eq l : build_media_registry l = uniques media_eqb (all_media l).
Proof. unfold build_media_registry. rewrite registry_fold, add_fold. cbn [app existsb negb]. induction (uniques media_eqb (all_media l)) as [|x k IH]; [reflexivity|]. cbn. now rewrite IH. Qed.
Lemma uniques_In m x : In x (uniques media_eqb m) <-> In x m.
Proof.
  induction m as [|y m IH]; [tauto|]. cbn [uniques In]. rewrite filter_In, IH. split; [tauto|]. intros [->|H]; [now left|].
  destruct (media_eqb y x) eqn:E; [left; now apply media_eqb_spec|right; now split].
Qed.
Lemma NoDup_filter {A} (f : A -> bool) l : NoDup l -> NoDup (filter f l).
Proof. induction 1 as [|x l N H IH]; [constructor|]. cbn. destruct (f x); [constructor; [|exact IH]|exact IH]. rewrite filter_In. tauto. Qed.
Lemma uniques_NoDup m : NoDup (uniques media_eqb m).
Proof.
  induction m as [|y m IH]; [constructor|]. cbn [uniques]. constructor; [|now apply NoDup_filter]. rewrite filter_In. intros [_ H].
  assert (E : media_eqb y y = true) by now apply media_eqb_spec. rewrite E in H. discriminate.
Qed.
Lemma position_nth (m : registry) b e : In (b, e) m -> exists k, position (same_media b e) m = Some k /\ nth_error m k = Some (b, e).
Proof.
  induction m as [|x m IH]; intros H; [destruct H|]. cbn [position]. destruct (same_media b e x) eqn:E.
  - exists 0. split; [reflexivity|]. unfold same_media in E. rewrite andb_true_iff, !String.eqb_eq in E. destruct x, E as [<- <-]; reflexivity.
  - destruct H as [->|H]; [unfold same_media in E; cbn in E; rewrite !String.eqb_refl in E; discriminate|]. destruct (IH H) as (k & P & N). exists (S k). rewrite P. split; [reflexivity|exact N].
Qed.
Lemma images_names reg : map fst (write_images reg) = map (fun p => media_path (fst p + 1) (snd (snd p))) (ix 0 reg).
Proof. unfold write_images, enumerate. rewrite map_map. reflexivity. Qed.
Lemma digits_dot k j s t : (decn k ++ "." ++ s)%string = (decn j ++ "." ++ t)%string -> k = j.
Proof.
  intros H. apply decn_inj. assert (D : forall a b s t, sforall is_digit a = true -> sforall is_digit b = true -> (a ++ "." ++ s)%string = (b ++ "." ++ t)%string -> a = b).
  { clear. induction a as [|c a IH]; intros [|d b] s t A B E; try reflexivity; cbn [append sforall] in *.
    - injection E as <- _. discriminate B.
    - injection E as -> _. discriminate A.
    - injection E as -> E. apply andb_true_iff in A. apply andb_true_iff in B. f_equal. apply (IH b s t); tauto. }
  apply (D _ _ s t); [apply dec_digits|apply dec_digits|exact H].
Qed.
Lemma media_NoDup reg : forall i, NoDup (map (fun p : nat * (string * string) => media_path (fst p + 1) (snd (snd p))) (ix i reg)).
Proof.
  induction reg as [|x reg IH]; intros i; [constructor|]. rewrite ix_cons. cbn [map fst snd]. constructor; [|apply IH].
  intros H. apply in_map_iff in H. destruct H as ([k y] & E & I). cbn [fst snd] in E. unfold media_path in E. apply sapp_inj_l, digits_dot in E.
  apply in_combine_l in I. apply in_seq in I. lia.
Qed.
Lemma images_NoDup reg : NoDup (map fst (write_images reg)).
Proof. rewrite images_names. apply media_NoDup. Qed.
Lemma images_heads reg : heads [P_media] (write_images reg).
Proof. intros e H. unfold write_images in H. apply in_map_iff in H. destruct H as (p & <- & _). cbn [fst]. exists P_media, (decn (fst p + 1) ++ "." ++ snd (snd p))%string. split; [now left|reflexivity]. Qed.
