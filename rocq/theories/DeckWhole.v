(** Lemmas: the parts of a whole generated deck. *)
From Coq Require Import String Ascii List Bool Arith NArith Lia.
From Verif Require Import Str Num GenModel FontsModel DocPropsModel ChartModel ShapeModel SlideModel DeckModel DeckSpec DeckInput DeckParts.
Import ListNotations.
Open Scope nat_scope.
Open Scope string_scope.
Local Open Scope list_scope.

(** ** Blocks: entries with the beginnings of their names *)
Definition good (b : list string * list entry) : Prop := heads (fst b) (snd b) /\ NoDup (map fst (snd b)).
Definition headed (b : list string * list entry) : Prop := heads (fst b) (snd b).
Fixpoint nodupb (l : list string) : bool := match l with [] => true | x :: l => negb (existsb (String.eqb x) l) && nodupb l end.
Lemma nodupb_NoDup l : nodupb l = true -> NoDup l.
Proof.
  induction l as [|x l IH]; cbn; intros H; [constructor|]. apply andb_true_iff in H. destruct H as [H1 H2]. constructor; [|auto].
  intros I. apply negb_true_iff in H1. assert (existsb (String.eqb x) l = true) by (apply existsb_exists; exists x; split; [exact I|apply String.eqb_refl]). congruence.
Qed.
Definition apart_from (ps : list string) (bs : list (list string)) : bool := forallb (apart ps) bs.
Fixpoint all_apart (bs : list (list string)) : bool := match bs with [] => true | b :: r => apart_from b r && all_apart r end.
Definition entries (bs : list (list string * list entry)) : list entry := flat_map snd bs.
Lemma entries_heads bs : Forall headed bs -> heads (flat_map fst bs) (entries bs).
Proof.
  induction 1 as [|b bs H _ IH]; [apply heads_nil|]. cbn [flat_map entries]. apply heads_app.
  - apply (heads_incl (fst b)); [|exact H]. intros x X. apply in_or_app. now left.
  - apply (heads_incl (flat_map fst bs)); [|exact IH]. intros x X. apply in_or_app. now right.
Qed.
Lemma apart_concat ps bs : apart_from ps bs = true -> apart ps (concat bs) = true.
Proof.
  unfold apart_from, apart. rewrite !forallb_forall. intros H p P. rewrite forallb_forall. intros q Q. apply in_concat in Q. destruct Q as (b & B & Q).
  specialize (H b B). rewrite forallb_forall in H. specialize (H p P). rewrite forallb_forall in H. now apply H.
Qed.
Lemma entries_NoDup bs : Forall good bs -> all_apart (map fst bs) = true -> NoDup (map fst (entries bs)).
Proof.
  induction 1 as [|b bs G GS IH]; intros A; [constructor|]. cbn [map all_apart] in A. apply andb_true_iff in A. destruct A as [A1 A2]. cbn [entries flat_map].
  apply (NoDup_apart (fst b) (flat_map fst bs)); [apply G|apply entries_heads; apply (Forall_impl _ (P := good)); [intros c C; apply C|exact GS]| |apply G|now apply IH]. rewrite flat_map_concat_map. now apply apart_concat.
Qed.
Lemma entries_family p bs b k : Forall headed bs -> nth_error bs k = Some b ->
  forallb (fun q => forallb (incomp p) (fst q)) (firstn k bs) = true -> forallb (fun q => forallb (incomp p) (fst q)) (skipn (S k) bs) = true ->
  family p (entries bs) = family p (snd b).
Proof.
  assert (N : forall l, Forall headed l -> forallb (fun q : list string * list entry => forallb (incomp p) (fst q)) l = true -> family p (entries l) = []).
  { induction l as [|c l IH]; intros G F; [reflexivity|]. cbn [forallb] in F. apply andb_true_iff in F. cbn [entries flat_map]. inversion G as [|? ? Gc Gl]; subst.
    rewrite family_app, (family_none p (fst c)); [apply IH; tauto|exact Gc|tauto]. }
  revert k. induction bs as [|c bs IH]; intros k G K A B; [destruct k; discriminate|]. inversion G as [|? ? Gc Gl]; subst. cbn [entries flat_map]. rewrite family_app. destruct k as [|k].
  - injection K as ->. cbn [skipn] in B. change (flat_map snd bs) with (entries bs). rewrite (N bs Gl B). apply app_nil_r.
  - cbn [firstn forallb] in A. apply andb_true_iff in A. rewrite (family_none p (fst c)); [|exact Gc|tauto]. cbn [app]. apply (IH k); tauto.
Qed.
Lemma entries_In bs b e : In b bs -> In e (snd b) -> In e (entries bs).
Proof. intros B E. unfold entries. apply in_flat_map. exists b. auto. Qed.

Lemma good_fixed l : nodupb (map fst l) = true -> good (map fst l, l).
Proof. intros H. split; [apply heads_fixed|]. cbn [snd]. now apply nodupb_NoDup. Qed.

(** ** The blocks of a deck *)
Section D.
  Context (X : statics) (title : string) (count : nat) (custom : option (list slide)) (st : settings).
  Definition deck_slides : list slide := match custom with Some l => l | None => [] end.
  Definition deck_reg : registry := build_media_registry deck_slides.
  Definition deck_notes : bool := existsb has_notes deck_slides.
  Definition first_names : list string := ["[Content_Types].xml"; "_rels/.rels"; "ppt/_rels/presentation.xml.rels"; "ppt/presentation.xml"].
  Definition first_parts : list entry :=
    [("[Content_Types].xml", content_types_eager count (count_if has_notes deck_slides) (length (all_charts deck_slides)) (st_handout st) (extensions deck_reg) (st_signature st) (has_fonts st) (count_if s_ink deck_slides));
      ("_rels/.rels", create_rels_xml_with_signature (st_signature st));
      ("ppt/_rels/presentation.xml.rels", presentation_rels count deck_notes (st_handout st) (st_fonts st));
      ("ppt/presentation.xml", presentation_xml count deck_notes (st_handout st) (st_fonts st))].
  Definition slide_contents : list string := match custom with Some l => map eager_slide l | None => map (fun i => simple_slide_xml (N.of_nat i) "Presentation") (seq 1 count) end.
  Definition slide_rels : list string := match custom with Some l => rels_list deck_reg 0 0 0 l | None => map (fun _ => create_slide_rels_xml) (seq 1 count) end.
  Definition notes_contents : list string := flat_map notes_text (ix 0 deck_slides).
  Definition notes_rels : list string := flat_map notes_link (ix 0 deck_slides).
  Definition slides_block : list entry := match custom with Some l => write_slides_from X 0 0 0 l | None => write_plain_slides count end.
  Definition theme_names : list string := Eval vm_compute in (flat_map (fun n => [layout_path n; layout_rels_path n]) (seq 1 standard_layout_count) ++ ["ppt/slideMasters/slideMaster1.xml"; "ppt/slideMasters/_rels/slideMaster1.xml.rels"; "ppt/theme/theme1.xml"]).
  Definition handout_names := ["ppt/handoutMasters/handoutMaster1.xml"; "ppt/theme/theme3.xml"; "ppt/handoutMasters/_rels/handoutMaster1.xml.rels"].
  Definition master_names := ["ppt/notesMasters/notesMaster1.xml"; "ppt/theme/theme2.xml"; "ppt/notesMasters/_rels/notesMaster1.xml.rels"].
  Definition blocks : list (list string * list entry) :=
    [ (first_names, first_parts);
      (["ppt/presProps.xml"; "ppt/viewProps.xml"; "ppt/tableStyles.xml"], write_standard X);
      (handout_names, if st_handout st then write_handout_master X else []);
      ([P_ink; P_slide; P_notes], slides_block);
      ([P_rels], numF 1 P_rels ".xml.rels" slide_rels);
      ([P_nrels], numF 1 P_nrels ".xml.rels" notes_rels);
      (master_names, if deck_notes then write_notes_master X else []);
      (theme_names, write_theme_and_layouts X);
      (["docProps/core.xml"; "docProps/app.xml"], write_document_properties X title count (count_if has_notes deck_slides) (collect_slide_titles (option_map (map s_title) custom) count));
      ([P_chart; P_crels; P_sheet], write_slide_charts X 1 (all_charts deck_slides));
      ([P_media], write_images deck_reg);
      ([P_font], write_fonts (st_fonts st));
      (["_xmlsignatures/origin.sigs"; "_xmlsignatures/sig1.xml"], if st_signature st then write_signature X else []) ].
  Lemma notes_none l : existsb has_notes l = false -> forall i, flat_map notes_link (ix i l) = [].
  Proof.
    induction l as [|s l IH]; intros H i; [reflexivity|]. rewrite ix_cons. cbn [flat_map existsb] in *. apply orb_false_iff in H. unfold notes_link at 1. cbn [snd fst]. rewrite (proj1 H). apply IH. tauto.
  Qed.
  Lemma plain_form n a : map (fun i => (slide_path i, simple_slide_xml (N.of_nat i) "Presentation")) (seq a n) = numF a P_slide ".xml" (map (fun i => simple_slide_xml (N.of_nat i) "Presentation") (seq a n)).
  Proof. revert a. induction n as [|n IH]; intros a; [reflexivity|]. cbn [seq map]. rewrite numF_cons, IH. reflexivity. Qed.
  Lemma plain_rels_form n a : map (fun i => (slide_rels_path i, create_slide_rels_xml)) (seq a n) = numF a P_rels ".xml.rels" (map (fun _ => create_slide_rels_xml) (seq a n)).
  Proof. revert a. induction n as [|n IH]; intros a; [reflexivity|]. cbn [seq map]. rewrite numF_cons, IH. reflexivity. Qed.
  Lemma deck_blocks : write_package_files X title count custom st = entries blocks.
  Proof.
    unfold write_package_files. fold deck_slides. fold deck_reg. fold deck_notes. rewrite total_eq. change (build_media_registry deck_slides) with deck_reg. change (existsb has_notes deck_slides) with deck_notes.
    unfold entries, blocks. cbn [flat_map snd]. rewrite app_nil_r.
    replace (if Nat.ltb 0 (length (all_charts deck_slides)) then _ else []) with (write_slide_charts X 1 (all_charts deck_slides)).
    2:{ rewrite charts_form. destruct (all_charts deck_slides); reflexivity. }
    replace (match custom with Some l => write_slide_rels_from deck_reg 0 0 0 (chart_starts 0 (chart_counts deck_slides)) l | None => write_plain_slide_rels count end) with (numF 1 P_rels ".xml.rels" slide_rels).
    2:{ unfold slide_rels, deck_slides. destruct custom as [l|]; [|symmetry; apply plain_rels_form]. symmetry. apply (rels_form _ l 0 0 0 0). }
    replace (if deck_notes then write_notes_rels_from 0 0 deck_slides ++ write_notes_master X else []) with (numF 1 P_nrels ".xml.rels" notes_rels ++ (if deck_notes then write_notes_master X else [])).
    2:{ rewrite notes_form. unfold notes_rels. destruct deck_notes eqn:E; [reflexivity|]. now rewrite (notes_none _ E). }
    rewrite <- !app_assoc. reflexivity.
  Qed.
  Lemma slides_block_heads : heads [P_ink; P_slide; P_notes] slides_block.
  Proof.
    unfold slides_block. destruct custom as [l|]; [apply slides_heads|]. unfold write_plain_slides. rewrite plain_form.
    apply (heads_incl [P_slide]); [intros x [<-|[]]; cbn; auto|]. apply numF_heads.
  Qed.
  Lemma slides_block_NoDup : NoDup (map fst slides_block).
  Proof. unfold slides_block. destruct custom as [l|]; [apply slides_NoDup|]. unfold write_plain_slides. rewrite plain_form. apply numF_NoDup. Qed.
  Lemma fonts_heads l : heads [P_font] (write_fonts l).
  Proof. intros e H. apply in_map_iff in H. destruct H as (f & <- & _). exists P_font. eexists. split; [now left|reflexivity]. Qed.
  Lemma fixed_good ns l : map fst l = ns -> nodupb ns = true -> good (ns, l).
  Proof. intros <- H. now apply good_fixed. Qed.
  Lemma if_good ns (b : bool) l : good (ns, l) -> good (ns, if b then l else []).
  Proof. intros G. destruct b; [exact G|]. split; [apply heads_nil|constructor]. Qed.
  Definition fonts_apart : Prop := NoDup (map part_name (st_fonts st)).
  (** The first twelve blocks are good anyway; fonts need names. *)
  Lemma blocks_heads : Forall headed blocks.
  Proof.
    unfold blocks. repeat (apply Forall_cons; [unfold headed; cbn [fst snd]|]); [..|apply Forall_nil].
    - exact (heads_fixed first_parts).
    - exact (heads_fixed (write_standard X)).
    - destruct (st_handout st); [exact (heads_fixed (write_handout_master X))|apply heads_nil].
    - apply slides_block_heads.
    - apply numF_heads.
    - apply numF_heads.
    - destruct deck_notes; [exact (heads_fixed (write_notes_master X))|apply heads_nil].
    - exact (heads_fixed (write_theme_and_layouts X)).
    - exact (heads_fixed (write_document_properties X _ _ _ _)).
    - apply charts_heads.
    - apply images_heads.
    - apply fonts_heads.
    - destruct (st_signature st); [exact (heads_fixed (write_signature X))|apply heads_nil].
  Qed.
  Lemma blocks_good : fonts_apart -> Forall good blocks.
  Proof.
    intros F. unfold blocks. repeat apply Forall_cons; [..|apply Forall_nil].
    - apply fixed_good; reflexivity.
    - apply fixed_good; reflexivity.
    - apply if_good, fixed_good; reflexivity.
    - split; [apply slides_block_heads|apply slides_block_NoDup].
    - split; [apply numF_heads|apply numF_NoDup].
    - split; [apply numF_heads|apply numF_NoDup].
    - apply if_good, fixed_good; reflexivity.
    - apply fixed_good; reflexivity.
    - apply fixed_good; reflexivity.
    - split; [apply charts_heads|apply charts_NoDup].
    - split; [apply images_heads|apply images_NoDup].
    - split; [apply fonts_heads|]. cbn [snd]. unfold write_fonts. rewrite map_map. exact F.
    - apply if_good, fixed_good; reflexivity.
  Qed.
  Lemma deck_NoDup : fonts_apart -> NoDup (map fst (write_package_files X title count custom st)).
  Proof. intros F. rewrite deck_blocks. apply entries_NoDup; [now apply blocks_good|]. vm_compute. reflexivity. Qed.
  Notation deck := (write_package_files X title count custom st).
  Lemma slides_family p : In p [P_ink; P_slide; P_notes] -> family p deck = family p slides_block.
  Proof. intros H. rewrite deck_blocks. apply (entries_family p blocks ([P_ink; P_slide; P_notes], slides_block) 3 blocks_heads eq_refl); destruct H as [<-|[<-|[<-|[]]]]; reflexivity. Qed.
  Lemma deck_slide_parts : family P_slide deck = numF 1 P_slide ".xml" slide_contents.
  Proof.
    rewrite slides_family by (cbn; auto). unfold slides_block, slide_contents. destruct custom as [l|]; [apply slides_slides|].
    unfold write_plain_slides. rewrite plain_form. apply family_all, numF_heads.
  Qed.
  Lemma deck_notes_parts : family P_notes deck = numF 1 P_notes ".xml" notes_contents.
  Proof.
    rewrite slides_family by (cbn; auto). unfold slides_block, notes_contents, deck_slides. destruct custom as [l|]; [apply slides_notes|].
    unfold write_plain_slides. rewrite plain_form. apply (family_none _ [P_slide]); [apply numF_heads|reflexivity].
  Qed.
  Lemma deck_ink_parts : family P_ink deck = numF 1 P_ink ".xml" (map (x_ink X) (filter s_ink deck_slides)).
  Proof.
    rewrite slides_family by (cbn; auto). unfold slides_block, deck_slides. destruct custom as [l|]; [apply slides_ink|].
    unfold write_plain_slides. rewrite plain_form. apply (family_none _ [P_slide]); [apply numF_heads|reflexivity].
  Qed.
  Lemma deck_slide_rels : family P_rels deck = numF 1 P_rels ".xml.rels" slide_rels.
  Proof. rewrite deck_blocks. rewrite (entries_family P_rels blocks _ 4 blocks_heads eq_refl eq_refl eq_refl). apply family_all, numF_heads. Qed.
  Lemma deck_notes_rels : family P_nrels deck = numF 1 P_nrels ".xml.rels" notes_rels.
  Proof. rewrite deck_blocks. rewrite (entries_family P_nrels blocks _ 5 blocks_heads eq_refl eq_refl eq_refl). apply family_all, numF_heads. Qed.
  Lemma deck_chart_parts : family P_chart deck = numF 1 P_chart ".xml" (map chart_part_xml (all_charts deck_slides)).
  Proof. rewrite deck_blocks. rewrite (entries_family P_chart blocks _ 9 blocks_heads eq_refl eq_refl eq_refl). apply charts_charts. Qed.
  Lemma deck_chart_rels : family P_crels deck = numF 1 P_crels ".xml.rels" (map (fun j => create_chart_rels_xml (chart_embedding_filename j)) (seq 1 (length (all_charts deck_slides)))).
  Proof. rewrite deck_blocks. rewrite (entries_family P_crels blocks _ 9 blocks_heads eq_refl eq_refl eq_refl). apply charts_rels. Qed.
  Lemma deck_sheets : family P_sheet deck = numF 1 P_sheet ".xlsx" (map (fun _ => x_workbook X) (all_charts deck_slides)).
  Proof. rewrite deck_blocks. rewrite (entries_family P_sheet blocks _ 9 blocks_heads eq_refl eq_refl eq_refl). apply charts_sheets. Qed.
  Lemma deck_media : family P_media deck = write_images deck_reg.
  Proof. rewrite deck_blocks. rewrite (entries_family P_media blocks _ 10 blocks_heads eq_refl eq_refl eq_refl). apply family_all, images_heads. Qed.
  Lemma in_block k b e : nth_error blocks k = Some b -> In e (snd b) -> In e deck.
  Proof. intros K E. rewrite deck_blocks. apply (entries_In blocks b); [apply (nth_error_In blocks k K)|exact E]. Qed.
End D.

(** ** By slide index *)
Lemma nth_firstn_skipn {A} (l : list A) i x : nth_error l i = Some x -> exists a b, l = a ++ x :: b /\ length a = i.
Proof. apply nth_error_split. Qed.
Lemma rels_list_nth reg l : forall nn kn t i s, nth_error l i = Some s ->
  nth_error (rels_list reg nn kn t l) i = Some (eager_rels reg (nn + count_if has_notes (firstn i l)) (kn + count_if s_ink (firstn i l)) (t + length (all_charts (firstn i l)) + 1) s).
Proof.
  unfold all_charts, count_if. induction l as [|x l IH]; intros nn kn t i s H; [destruct i; discriminate|]. destruct i as [|i].
  - injection H as ->. cbn. now rewrite !Nat.add_0_r.
  - cbn [nth_error rels_list firstn filter flat_map]. rewrite (IH _ _ _ i s H), app_length. f_equal. f_equal; [destruct (has_notes x); cbn [length]; lia|destruct (s_ink x); cbn [length]; lia|lia].
Qed.
Lemma rels_list_length reg l : forall nn kn t, length (rels_list reg nn kn t l) = length l.
Proof. induction l as [|s l IH]; intros nn kn t; [reflexivity|]. cbn [rels_list length]. now rewrite IH. Qed.
Lemma flat_map_at {A B} (f : nat * A -> list B) (n : A -> bool) (g : nat -> A -> B) l :
  (forall i x, f (i, x) = if n x then [g i x] else []) ->
  forall i0 i x, nth_error l i = Some x -> n x = true -> nth_error (flat_map f (ix i0 l)) (count_if n (firstn i l)) = Some (g (i0 + i) x).
Proof.
  intros F. unfold count_if. induction l as [|y l IH]; intros i0 i x H N; [destruct i; discriminate|]. rewrite ix_cons. cbn [flat_map]. destruct i as [|i].
  - injection H as ->. rewrite F, N. cbn. now rewrite Nat.add_0_r.
  - cbn [nth_error firstn filter] in *. rewrite F. replace (i0 + S i) with (S i0 + i) by lia. destruct (n y); cbn [length app nth_error]; now apply IH.
Qed.
Lemma flat_map_ix_length {A B} (f : nat * A -> list B) (n : A -> bool) (g : nat -> A -> B) l :
  (forall i x, f (i, x) = if n x then [g i x] else []) -> forall i0, length (flat_map f (ix i0 l)) = count_if n l.
Proof.
  intros F. unfold count_if. induction l as [|y l IH]; intros i0; [reflexivity|]. rewrite ix_cons. cbn [flat_map filter]. rewrite F. destruct (n y); cbn [length app]; now rewrite IH.
Qed.
Lemma charts_nth l : forall i s j c, nth_error l i = Some s -> nth_error (s_charts s) j = Some c -> nth_error (all_charts l) (length (all_charts (firstn i l)) + j) = Some c.
Proof.
  unfold all_charts. induction l as [|x l IH]; intros i s j c H J; [destruct i; discriminate|]. destruct i as [|i]; cbn [flat_map firstn].
  - injection H as ->. cbn. rewrite nth_error_app1; [exact J|]. apply nth_error_Some. congruence.
  - rewrite app_length, nth_error_app2 by lia. replace (length (s_charts x) + length (flat_map s_charts (firstn i l)) + j - length (s_charts x)) with (length (flat_map s_charts (firstn i l)) + j) by lia.
    now apply (IH i s).
Qed.
Lemma filter_nth {A} (f : A -> bool) l : forall i x, nth_error l i = Some x -> f x = true -> nth_error (filter f l) (count_if f (firstn i l)) = Some x.
Proof.
  unfold count_if. induction l as [|y l IH]; intros i x H F; [destruct i; discriminate|]. destruct i as [|i].
  - injection H as ->. cbn. now rewrite F.
  - cbn [firstn filter]. destruct (f y); cbn [length nth_error]; now apply IH.
Qed.
Section I.
  Context (X : statics) (title : string) (slides : list slide) (st : settings).
  Notation deck := (create_pptx_with_settings X title slides st).
  Notation reg := (build_media_registry slides).
  Definition inks_before (i : nat) : nat := count_if s_ink (firstn i slides).
  Context (i : nat) (s : slide) (H : nth_error slides i = Some s).
  Lemma slide_in : In (slide_path (i + 1), eager_slide s) deck.
  Proof.
    apply (family_In P_slide). unfold create_pptx_with_settings. rewrite deck_slide_parts. rewrite Nat.add_comm. apply numF_nth. cbn [slide_contents]. now apply map_nth_error.
  Qed.
  Lemma rels_in : In (slide_rels_path (i + 1), eager_rels reg (notes_before slides i) (inks_before i) (charts_before slides i + 1) s) deck.
  Proof.
    apply (family_In P_rels). unfold create_pptx_with_settings. rewrite deck_slide_rels. rewrite (Nat.add_comm i 1). apply numF_nth. cbn [slide_rels]. now apply (rels_list_nth _ slides 0 0 0).
  Qed.
  Lemma notes_in t : s_notes s = Some t -> In (notes_path (notes_before slides i + 1), create_notes_xml (i + 1) t) deck.
  Proof.
    intros N. apply (family_In P_notes). unfold create_pptx_with_settings. rewrite deck_notes_parts. rewrite (Nat.add_comm _ 1). unfold notes_path. apply numF_nth. unfold notes_contents. cbn [deck_slides].
    rewrite (flat_map_at notes_text has_notes (fun i s => create_notes_xml (i + 1) (match s_notes s with Some t => t | None => "" end)) slides) with (i := i) (x := s).
    - cbn [Nat.add]. now rewrite N.
    - intros k x. unfold notes_text, has_notes. cbn [fst snd]. now destruct (s_notes x).
    - exact H.
    - unfold has_notes. now rewrite N.
  Qed.
  Lemma notes_rels_in : has_notes s = true -> In (notes_rels_path (notes_before slides i + 1), create_notes_rels_xml (i + 1)) deck.
  Proof.
    intros N. apply (family_In P_nrels). unfold create_pptx_with_settings. rewrite deck_notes_rels. rewrite (Nat.add_comm _ 1). unfold notes_rels_path. apply numF_nth. unfold notes_rels. cbn [deck_slides].
    rewrite (flat_map_at notes_link has_notes (fun i s => create_notes_rels_xml (i + 1)) slides) with (i := i) (x := s); [reflexivity| |exact H|exact N].
    intros k x. unfold notes_link. cbn [fst snd]. now destruct (has_notes x).
  Qed.
  Lemma chart_in j c : nth_error (s_charts s) j = Some c -> In (chart_path (charts_before slides i + j + 1), chart_part_xml c) deck.
  Proof.
    intros J. apply (family_In P_chart). unfold create_pptx_with_settings. rewrite deck_chart_parts. rewrite (Nat.add_comm _ 1). unfold chart_path. apply numF_nth. apply map_nth_error. now apply (charts_nth slides i s).
  Qed.
  Lemma ink_in : s_ink s = true -> In (ink_path (inks_before i + 1), x_ink X s) deck.
  Proof.
    intros J. apply (family_In P_ink). unfold create_pptx_with_settings. rewrite deck_ink_parts. rewrite (Nat.add_comm _ 1). unfold ink_path. apply numF_nth. apply map_nth_error. now apply filter_nth.
  Qed.
  Lemma media_number k m b : nth_error (s_images s) k = Some m -> im_bytes m = Some b ->
    exists n, lookup_number reg b (im_ext m) = Some (n + 1) /\ nth_error reg n = Some (b, im_ext m).
  Proof.
    intros K B. assert (In (b, im_ext m) reg).
    { rewrite registry_eq, uniques_In. unfold all_media. apply in_flat_map. exists s. split; [apply (nth_error_In _ _ H)|]. apply in_flat_map. exists m. split; [apply (nth_error_In _ _ K)|].
      unfold media_of. rewrite B. now left. }
    destruct (position_nth reg b (im_ext m)) as (n & P & N); [assumption|]. exists n. unfold lookup_number. rewrite P. auto.
  Qed.
  Lemma media_in n b e : nth_error reg n = Some (b, e) -> In (media_path (n + 1) e, b) deck.
  Proof.
    intros N. apply (family_In P_media). unfold create_pptx_with_settings. rewrite deck_media. unfold write_images. cbn [deck_reg deck_slides]. apply in_map_iff. exists (n, (b, e)). split; [reflexivity|].
    apply (nth_error_In _ n). change (enumerate (deck_reg (Some slides))) with (ix 0 reg). rewrite ix_nth, N. reflexivity.
  Qed.
End I.
