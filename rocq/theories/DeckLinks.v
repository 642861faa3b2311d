(** Lemmas: sharing of media, relationship ids of slides, content types of
    media. *)
From Coq Require Import String Ascii List Bool Arith NArith Lia.
From Verif Require Import Str Num XmlSpec XmlProofs XmlTpl OpcSpec GenModel FontsModel PresProofs TypesProofs ChartModel ShapeModel SlideModel SlideSpec SlideInput SlideWant SlideRead SlideThms DeckModel ResolveSpec ResolveProofs DeckSpec DeckInput DeckParts DeckWhole DeckRels NotesRead DeckTypes DeckThms.
Import ListNotations.
Open Scope nat_scope.
Open Scope string_scope.
Local Open Scope list_scope.

Section M.
  Context (X : statics) (title : string) (slides : list slide) (st : settings).
  Notation deck := (create_pptx_with_settings X title slides st).
  Notation reg := (build_media_registry slides).
  Lemma media_family : family "ppt/media/" deck
    = map (fun p => (("ppt/media/image" ++ decn (fst p) ++ "." ++ snd (snd p))%string, fst (snd p))) (combine (seq 1 (length (uniques media_eqb (all_media slides)))) (uniques media_eqb (all_media slides))).
  Proof.
    unfold create_pptx_with_settings. rewrite deck_blocks. rewrite (entries_family "ppt/media/" _ _ 10 (blocks_heads X title (length slides) (Some slides) st) eq_refl eq_refl eq_refl).
    cbn [snd deck_reg deck_slides]. rewrite family_all.
    2:{ intros e E. destruct (images_heads _ e E) as (q & x & [<-|[]] & F). exists "ppt/media/", ("image" ++ x)%string. split; [now left|]. now rewrite F. }
    unfold deck_reg, deck_slides. rewrite registry_eq. unfold write_images, enumerate. generalize (uniques media_eqb (all_media slides)) as u. intros u.
    assert (G : forall k, map (fun p : nat * (string * string) => (media_path (fst p + 1) (snd (snd p)), fst (snd p))) (combine (seq k (length u)) u)
      = map (fun p : nat * (string * string) => (("ppt/media/image" ++ decn (fst p) ++ "." ++ snd (snd p))%string, fst (snd p))) (combine (seq (S k) (length u)) u)).
    { induction u as [|x u IH]; intros k; [reflexivity|]. cbn [length seq combine map fst snd]. rewrite IH. unfold media_path. now rewrite (Nat.add_1_r k). }
    apply G.
  Qed.
  Lemma same_part i s k m b i' s' k' m' b' : nth_error slides i = Some s -> nth_error (s_images s) k = Some m -> im_bytes m = Some b ->
    nth_error slides i' = Some s' -> nth_error (s_images s') k' = Some m' -> im_bytes m' = Some b' ->
    ("ppt/media/image" ++ decn (part_number slides m) ++ "." ++ im_ext m)%string = ("ppt/media/image" ++ decn (part_number slides m') ++ "." ++ im_ext m')%string
    <-> b = b' /\ im_ext m = im_ext m'.
  Proof.
    intros S K B S' K' B'. destruct (media_number slides i s S k m b K B) as (n & L & N). destruct (media_number slides i' s' S' k' m' b' K' B') as (n' & L' & N').
    unfold part_number. rewrite B, L, B', L'. split.
    - intros E. apply sapp_inj_l, digits_dot in E. assert (n = n') by lia. subst n'. rewrite N in N'. injection N' as -> ->. auto.
    - intros [-> E]. rewrite E in *. rewrite L in L'. injection L' as L'. now rewrite L'.
  Qed.
End M.

Definition of_kind (rels : list rel) (kind id : string) : Prop := exists r, In r rels /\ rel_id r = id /\ rel_type r = doc_rel kind.
Section R.
  Context (X : statics) (title : string) (slides : list slide) (st : settings).
  Notation deck := (create_pptx_with_settings X title slides st).
  Context (i : nat) (s : slide) (H : nth_error slides i = Some s) (OK : deck_slide_ok s = true) (ST : stored s = true) (LF : link_ids_free s).
  Lemma ids_seq a n : map (fun j => ("rId" ++ decn (a + j))%string) (seq 0 n) = map (fun k => ("rId" ++ decn k)%string) (seq a n).
  Proof. revert a. induction n as [|n IH]; intros a; [reflexivity|]. cbn [seq map]. rewrite Nat.add_0_r. f_equal. rewrite <- seq_shift, map_map, <- IH. apply map_ext. intros j. do 2 f_equal. lia. Qed.
  Lemma image_ids a (l : list (nat * string)) : map rel_id (map (image_rel a) (enumerate l)) = map (fun k => ("rId" ++ decn k)%string) (seq a (length l)).
  Proof.
    rewrite map_map. unfold image_rel. cbn [rel_id]. rewrite <- ids_seq. unfold enumerate. generalize (seq 0 (length l)) (seq_length (length l) 0). intros q Q.
    revert l Q. induction q as [|x q IH]; intros [|y l] Q; try discriminate; [reflexivity|]. cbn [combine map fst]. f_equal. apply IH. now injection Q.
  Qed.
  Lemma rel_ids_all : map rel_id (my_rels slides i s) = map (fun k => ("rId" ++ decn k)%string) (seq 1 (own_rels s)) ++ map snd (slide_links s).
  Proof.
    unfold my_rels, slide_rel_list. rewrite !map_app, image_ids, map_length. unfold chart_rels. rewrite !map_map. cbn [chart_rel rel_id fst link_rel]. rewrite ids_seq.
    change (fun x : hyperlink * string => snd x) with (@snd hyperlink string).
    replace (own_rels s) with (1 + ((if has_notes s then 1 else 0) + (length (s_images s) + (length (s_charts s) + (if s_ink s then 1 else 0))))) by (unfold own_rels, noted, has_notes; lia).
    unfold start, slide_content_rel_start. generalize (map snd (slide_links s)) as L. intros L.
    destruct (has_notes s), (s_ink s); cbn [Nat.add seq map app rel_id]; rewrite ?seq_app, ?map_app, <- ?app_assoc; cbn [seq map app]; rewrite ?seq_app, ?map_app, <- ?app_assoc, ?Nat.add_0_r; cbn [seq map app]; reflexivity.
  Qed.
  Lemma rid_inj k j : ("rId" ++ decn k)%string = ("rId" ++ decn j)%string -> k = j.
  Proof. intros E. apply sapp_inj_l in E. now apply decn_inj. Qed.
  Lemma rel_ids_NoDup : NoDup (map rel_id (my_rels slides i s)).
  Proof.
    rewrite rel_ids_all. apply NoDup_app_i; [apply FinFun.Injective_map_NoDup; [intros k j; apply rid_inj|apply seq_NoDup]|apply LF|].
    intros r R L. apply in_map_iff in R. destruct R as (k & <- & K). apply in_seq in K. apply (proj2 LF _ k L); [lia|reflexivity].
  Qed.
  Lemma links_ids : flat_map link_ids (s_shapes s) = map snd (slide_links s).
  Proof.
    unfold slide_links. induction (s_shapes s) as [|t l IH]; [reflexivity|]. cbn [flat_map]. rewrite map_app, IH. f_equal. unfold link_ids, shape_link. destruct (sh_link t) as [h|]; [|reflexivity]. now destruct (h_rid h).
  Qed.
  Lemma slide_ids : exists P C K, rel_ids_used (tree s) = map snd (slide_links s) ++ P ++ C ++ K
    /\ length P = length (s_images s) /\ Forall (of_kind (my_rels slides i s) "image") P
    /\ length C = length (s_charts s) /\ Forall (of_kind (my_rels slides i s) "chart") C
    /\ length K = (if s_ink s then 1 else 0) /\ Forall (of_kind (my_rels slides i s) "ink") K.
  Proof.
    exists (map (image_rid s) (seq 0 (length (s_images s)))), (chart_rids (start s) (length (s_charts s))), (match my_ink s with Some r => if s_ink s then [r] else [] | None => [] end).
    split; [rewrite <- links_ids; exact (rel_ids_eq s _ _ (rids_fine s) (rids_length s))|]. split; [now rewrite map_length, seq_length|]. split.
    - apply Forall_forall. intros r R. apply in_map_iff in R. destruct R as (k & <- & K). apply in_seq in K. destruct (nth_error (s_images s) k) as [m|] eqn:M; [|apply nth_error_None in M; lia].
      exists (image_rel (if has_notes s then 3 else 2) (k, (part_number slides m, im_ext m))). split; [|split; [|reflexivity]].
      + unfold my_rels, slide_rel_list. do 2 (apply in_or_app; right). apply in_or_app. left. apply in_map. apply enumerate_nth. now apply (map_nth_error (fun m => (part_number slides m, im_ext m))).
      + unfold image_rel, image_rid, has_notes. cbn [rel_id fst snd]. destruct (s_notes s); reflexivity.
    - split; [apply rids_length|]. split.
      + apply Forall_forall. intros r R. unfold chart_rids in R. apply in_map_iff in R. destruct R as (j & <- & J). eexists. split; [|split].
        * unfold my_rels, slide_rel_list. do 3 (apply in_or_app; right). apply in_or_app. left. apply in_map. unfold chart_rels. apply in_map_iff. exists j. split; [reflexivity|exact J].
        * reflexivity.
        * reflexivity.
      + unfold my_ink. destruct (s_ink s) eqn:I; [|split; [reflexivity|constructor]]. split; [reflexivity|]. constructor; [|constructor]. eexists. split; [|split].
        * unfold my_rels, slide_rel_list. do 4 (apply in_or_app; right). apply in_or_app. left. rewrite I. left. reflexivity.
        * reflexivity.
        * reflexivity.
  Qed.
  Lemma link_rel_in h r : In (h, r) (slide_links s) -> In (link_rel (h, r)) (my_rels slides i s).
  Proof. intros L. unfold my_rels, slide_rel_list. do 5 (apply in_or_app; right). now apply in_map. Qed.
  Lemma used_in_rels : incl (rel_ids_used (tree s)) (map rel_id (my_rels slides i s)).
  Proof.
    destruct slide_ids as (P & C & K & E & _ & FP & _ & FC & _ & FK). rewrite E. intros r R.
    assert (F : forall k l, Forall (of_kind (my_rels slides i s) k) l -> In r l -> In r (map rel_id (my_rels slides i s))).
    { intros k l F I. rewrite Forall_forall in F. destruct (F r I) as (q & Q & <- & _). now apply in_map. }
    rewrite !in_app_iff in R. destruct R as [R|[R|[R|R]]]; [|exact (F _ P FP R)|exact (F _ C FC R)|exact (F _ K FK R)]. rewrite rel_ids_all. apply in_or_app. now right.
  Qed.
End R.

(** ** Content types of media *)
Lemma existsb_in (f : string -> bool) l e : In e l -> f e = true -> existsb f l = true.
Proof. intros I F. apply existsb_exists. eauto. Qed.
Lemma image_default e exts : In e ["jpg"; "png"; "gif"] -> In e exts -> exists t, In (e, t) (image_defaults exts).
Proof.
  intros E I. unfold image_defaults. destruct E as [<-|[<-|[<-|[]]]].
  - rewrite (existsb_in is_jpeg exts "jpg" I eq_refl). eexists. now left.
  - rewrite (existsb_in is_png exts "png" I eq_refl). eexists. apply in_or_app. right. now left.
  - rewrite (existsb_in is_gif exts "gif" I eq_refl). eexists. apply in_or_app. right. apply in_or_app. right. now left.
Qed.
