(** Lemmas: every part of a generated deck has the content type it must have,
    and every override names a part. *)
From Coq Require Import String Ascii List Bool Arith NArith Lia.
From Verif Require Import Str Num XmlSpec XmlProofs XmlTpl OpcSpec GenModel GenProofs FontsModel FontsSpec PresProofs TypesProofs ChartModel ShapeModel SlideModel DeckModel ResolveSpec ResolveModel ResolveProofs DeckSpec DeckInput DeckParts DeckWhole DeckRels DeckTypes DeckKindSpec DeckClosed.
Import ListNotations.
Open Scope nat_scope.
Open Scope string_scope.
Local Open Scope list_scope.

Lemma split_dot e s : sforall (fun c => negb (Ascii.eqb c ".")) e = true -> split_once "." (e ++ "." ++ s) = Some (e, s).
Proof.
  induction e as [|c e IH]; [reflexivity|]. cbn [sforall]. intros H. apply andb_true_iff in H. destruct H as [H1 H2]. apply negb_true_iff in H1. cbn [append split_once strip_prefix].
  cbn [append] in IH. rewrite Ascii.eqb_sym, H1. now rewrite (IH H2).
Qed.
Lemma sforall_srev p s : sforall p (srev s) = sforall p s.
Proof. induction s as [|c s IH]; [reflexivity|]. change (String c s) with (s1 c ++ s)%string. rewrite srev_sapp, !sforall_app, IH. cbn. now rewrite andb_true_r, andb_comm. Qed.
Lemma ext_of a e : sforall (fun c => negb (Ascii.eqb c ".")) e = true -> extension_of (a ++ "." ++ e) = e.
Proof. intros H. unfold extension_of. rewrite !srev_sapp, sapp_assoc. change (srev ".") with ".". rewrite split_dot by (now rewrite sforall_srev). apply srev_involutive. Qed.
Lemma ext_num pre k e : sforall (fun c => negb (Ascii.eqb c ".")) e = true -> extension_of (pre ++ decn k ++ "." ++ e) = e.
Proof. intros H. rewrite <- sapp_assoc. now apply ext_of. Qed.
Lemma find_consistent {A} (f : A * string -> bool) l x t : In x l -> f x = true -> (forall y, In y l -> f y = true -> snd y = t) -> option_map snd (find f l) = Some t.
Proof.
  intros I F C. destruct (find f l) as [y|] eqn:E; [|exact (match Bool.eq_true_false_abs _ F (find_none f l E x I) with end)]. apply find_some in E. cbn. f_equal. now apply C.
Qed.

(** ** The overrides *)
Definition over_ok (has : string -> Prop) (o : string * string) : Prop :=
  exists n, fst o = ("/" ++ n)%string /\ wanted_type n = Some (snd o) /\ (extension_of n = "xml" \/ extension_of n = "xlsx") /\ has n.
Section K.
  Context (X : statics) (title : string) (count : nat) (custom : option (list slide)) (st : settings) (CO : contents_ok count custom).
  Notation deck := (write_package_files X title count custom st).
  Notation ok := (over_ok (has X title count custom st)).
  Definition overrides : list (string * string) := deck_overrides count (count_if has_notes (deck_slides custom)) (length (all_charts (deck_slides custom))) (st_handout st) (st_signature st) (count_if s_ink (deck_slides custom)).
  Lemma lit_ok n t : wanted_type n = Some t -> extension_of n = "xml" -> has X title count custom st n -> ok (("/" ++ n)%string, t).
  Proof. intros A B C. exists n. auto. Qed.
  Lemma num_ok pre e t k : (forall k, wanted_type (pre ++ decn k ++ "." ++ e) = Some t) -> e = "xml" \/ e = "xlsx" -> has X title count custom st (pre ++ decn k ++ "." ++ e) -> ok (("/" ++ pre ++ decn k ++ "." ++ e)%string, t).
  Proof. intros A B C. exists (pre ++ decn k ++ "." ++ e)%string. split; [reflexivity|]. split; [apply A|]. split; [|exact C]. rewrite ext_num; [exact B|]. now destruct B as [-> | ->]. Qed.
  Lemma nums_ok pre t n : (forall k, wanted_type (pre ++ decn k ++ ".xml") = Some t) -> (forall k, 1 <= k <= n -> has X title count custom st (pre ++ decn k ++ ".xml")) ->
    forall o, In o (nums ("/" ++ pre) ".xml" t n) -> ok o.
  Proof. intros A B o O. unfold nums in O. apply in_map_iff in O. destruct O as (k & <- & K). apply in_seq in K. apply (num_ok pre "xml" t k A); [now left|]. apply B. lia. Qed.
  Lemma notes_count : length (notes_contents custom) = count_if has_notes (deck_slides custom).
  Proof. apply (flat_map_ix_length notes_text has_notes (fun i s => create_notes_xml (i + 1) (match s_notes s with Some t => t | None => "" end))). intros i x. unfold notes_text, has_notes. cbn [fst snd]. now destruct (s_notes x). Qed.
  Lemma notes_any : Nat.ltb 0 (count_if has_notes (deck_slides custom)) = deck_notes custom.
  Proof. unfold count_if, deck_notes. induction (deck_slides custom) as [|s l IH]; [reflexivity|]. cbn [filter existsb]. destruct (has_notes s); [reflexivity|exact IH]. Qed.
  Lemma overrides_ok o : In o overrides -> ok o.
  Proof.
    unfold overrides, deck_overrides. intros O. repeat (apply in_app_or in O; destruct O as [O|O]).
    - destruct O as [<-|[]]. apply lit_ok; [reflexivity..|]. apply has_first. cbn; auto.
    - apply (nums_ok "ppt/slides/slide" slide_type count); [reflexivity| |exact O]. intros k K. apply has_slide. rewrite (proj1 CO). exact K.
    - apply (nums_ok "ppt/notesSlides/notesSlide" (pml "notesSlide") (count_if has_notes (deck_slides custom))); [reflexivity| |exact O]. intros k K. apply has_notes_part. now rewrite notes_count.
    - rewrite notes_any in O. destruct (deck_notes custom) eqn:N; [|destruct O]. destruct O as [<-|[<-|[]]]; (apply lit_ok; [reflexivity..|apply has_master; [exact N|cbn; auto]]).
    - destruct (st_handout st) eqn:N; [|destruct O]. destruct O as [<-|[<-|[]]]; (apply lit_ok; [reflexivity..|apply has_handout; [exact N|cbn; auto]]).
    - apply in_flat_map in O. destruct O as (k & K & O). apply in_seq in K. destruct O as [<-|[<-|[]]].
      + apply (num_ok "ppt/charts/chart" "xml" chart_type k); [reflexivity|now left|]. apply (has_num X title count custom st _ _ _ _ k (deck_chart_parts X title count custom st)). rewrite map_length. lia.
      + apply (num_ok "ppt/embeddings/Microsoft_Excel_Sheet" "xlsx" sheet_type k); [reflexivity|now right|]. apply has_sheet. lia.
    - apply (nums_ok "ppt/slideLayouts/slideLayout" (pml "slideLayout") standard_layout_count); [reflexivity| |exact O]. intros k K. apply has_theme. unfold standard_layout_count in K. unfold theme_names.
      destruct k as [|[|[|[|[|[|[|[|k]]]]]]]]; try lia; cbn; auto 20.
    - destruct O as [<-|[<-|[<-|[<-|[<-|[<-|[<-|[]]]]]]]]; (apply lit_ok; [reflexivity..|]); try (apply has_theme; unfold theme_names; cbn; auto 20; fail); try (apply has_standard; cbn; auto; fail); apply has_props; cbn; auto.
    - destruct (st_signature st) eqn:N; [|destruct O]. destruct O as [<-|[]]. apply lit_ok; [reflexivity..|apply has_sig; [exact N|cbn; auto]].
    - apply (nums_ok "ppt/ink/ink" (pml "ink") (count_if s_ink (deck_slides custom))); [reflexivity| |exact O]. intros k K.
      apply (has_num X title count custom st _ _ _ _ k (deck_ink_parts X title count custom st)). rewrite map_length. exact K.
  Qed.
  Definition defaults : list (string * string) := deck_defaults (length (all_charts (deck_slides custom))) (extensions (deck_reg custom)) (st_signature st) (has_fonts st).
  Lemma by_override n t : In (("/" ++ n)%string, t) overrides -> content_type (defaults, overrides) n = wanted_type n.
  Proof.
    intros O. assert (W : forall o, In o overrides -> String.eqb (fst o) ("/" ++ n) = true -> Some (snd o) = wanted_type n).
    { intros o Oo E. apply String.eqb_eq in E. destruct (overrides_ok o Oo) as (m & M & Wm & _). rewrite M in E. apply sapp_inj_l in E. subst m. now symmetry. }
    unfold content_type. cbn [snd]. destruct (find _ overrides) as [o|] eqn:F.
    - apply find_some in F. now apply W.
    - exfalso. pose proof (find_none _ _ F _ O) as G. cbn [fst] in G. now rewrite String.eqb_refl in G.
  Qed.
  Definition default_types : list (string * string) :=
    image_types ++ [("rels", package "relationships+xml"); ("xml", "application/xml"); ("xlsx", office "spreadsheetml.sheet"); ("sigs", package "digital-signature-origin"); ("fntdata", "application/x-fontdata")].
  Lemma defaults_incl d : In d defaults -> In d default_types.
  Proof.
    unfold defaults, deck_defaults, image_defaults, when. rewrite !in_app_iff. intros D. unfold default_types, image_types, sheet_type, ct, office, package. cbn [app In].
    repeat match goal with
    | [ H : _ \/ _ |- _ ] => destruct H
    | [ H : In _ (if ?b then _ else _) |- _ ] => destruct b
    | [ H : In _ (_ :: _) |- _ ] => destruct H
    | [ H : In _ [] |- _ ] => destruct H
    end; subst; auto 20.
  Qed.
  Lemma by_default n t : extension_of n <> "xml" -> extension_of n <> "xlsx" -> In (extension_of n, t) defaults -> content_type (defaults, overrides) n = Some t.
  Proof.
    intros N1 N2 D. unfold content_type. cbn [fst snd]. destruct (find (fun o => String.eqb (fst o) ("/" ++ n)) overrides) as [o|] eqn:F.
    - exfalso. apply find_some in F. destruct F as [Oo E]. apply String.eqb_eq in E. destruct (overrides_ok o Oo) as (m & M & _ & [Q|Q] & _); rewrite M in E; apply sapp_inj_l in E; subst m; contradiction.
    - apply (find_consistent _ _ (extension_of n, t)); [exact D|apply String.eqb_refl|]. intros y Y E. apply String.eqb_eq in E. apply defaults_incl in D, Y.
      revert D Y E. unfold default_types, image_types. cbn [app In]. generalize (extension_of n). intros e D Y E.
      repeat match goal with [ H : _ \/ _ |- _ ] => destruct H | [ H : False |- _ ] => destruct H end; subst; cbn [fst snd] in *; congruence.
  Qed.
  Lemma rels_default : In ("rels", package "relationships+xml") defaults.
  Proof. unfold defaults, deck_defaults. apply in_or_app. right. now left. Qed.
  Definition right_type (n : string) : Prop := content_type (defaults, overrides) n = wanted_type n /\ wanted_type n <> None.
  Lemma lit_over n t : wanted_type n <> None -> In (("/" ++ n)%string, t) overrides -> right_type n.
  Proof. intros W O. split; [now apply (by_override n t)|exact W]. Qed.
  Lemma rels_right n a : n = (a ++ ".rels")%string -> wanted_type n = Some (package "relationships+xml") -> right_type n.
  Proof.
    intros -> W. assert (E : extension_of (a ++ ".rels") = "rels") by (apply (ext_of a "rels"); reflexivity). split; [|rewrite W; discriminate]. rewrite W. apply by_default; rewrite E; [discriminate..|apply rels_default].
  Qed.
  Tactic Notation "inov" integer(k) := unfold overrides, deck_overrides; do k (apply in_or_app; right).
  Ltac rels := match goal with |- right_type ?n => let a := eval vm_compute in (srev (match strip_prefix "sler." (srev n) with Some r => r | None => "" end)) in apply (rels_right _ a); reflexivity end.
  Lemma nums_in pre post t n k : 1 <= k <= n -> In ((pre ++ decn k ++ post)%string, t) (nums pre post t n).
  Proof. intros K. unfold nums. apply in_map_iff. exists k. split; [reflexivity|]. apply in_seq. lia. Qed.
  Lemma num_right pre post t n j e l : (forall k, wanted_type (pre ++ decn k ++ post) <> None) -> (forall o, In o (nums ("/" ++ pre) post t n) -> In o overrides) -> length l = n ->
    In e (numF 1 pre post l) -> j = fst e -> right_type j.
  Proof.
    intros W O L E ->. apply numF_In in E. destruct E as (k & c & K & ->). cbn [fst]. apply (lit_over _ t); [apply W|]. apply O. apply (nums_in ("/" ++ pre) post t n (1 + k)).
    assert (k < length l) by (apply nth_error_Some; congruence). lia.
  Qed.
  Lemma num_rels pre j e l : (forall k, wanted_type (pre ++ decn k ++ ".xml.rels") = Some (package "relationships+xml")) -> In e (numF 1 pre ".xml.rels" l) -> j = fst e -> right_type j.
  Proof.
    intros W E ->. apply numF_In in E. destruct E as (k & c & K & ->). cbn [fst]. apply (rels_right _ (pre ++ decn (1 + k) ++ ".xml")%string); [|apply W]. now rewrite !sapp_assoc.
  Qed.
  Lemma all_right : (forall b e, In (b, e) (all_media (deck_slides custom)) -> In e ["jpg"; "png"; "gif"]) ->
    forall n c, In (n, c) deck -> n <> "[Content_Types].xml" -> right_type n.
  Proof.
    intros ME n c E NC. rewrite deck_blocks in E. unfold entries in E. apply in_flat_map in E. destruct E as (b & B & E). unfold blocks in B.
    repeat (destruct B as [<-|B]; [cbn [snd] in E|]); [..|destruct B].
    - destruct E as [E|[E|[E|[E|[]]]]]; injection E as <- _; [contradiction|rels|rels|]. eapply lit_over; [discriminate|]. inov 0. apply in_or_app. left. now left.
    - destruct E as [E|[E|[E|[]]]]; injection E as <- _; (eapply lit_over; [discriminate|]; inov 7; apply in_or_app; left; cbn; auto 10).
    - destruct (st_handout st) eqn:S; [|destruct E]. destruct E as [E|[E|[E|[]]]]; injection E as <- _; [| |rels]; (eapply lit_over; [discriminate|]; inov 4; apply in_or_app; left; rewrite S; cbn; auto 10).
    - destruct (slides_block_heads X count custom _ E) as (p & x & P & Ex).
      assert (M : In (n, c) (family p (slides_block X count custom))) by (apply filter_In; split; [exact E|rewrite Ex; apply starts_self]).
      rewrite <- (slides_family X title count custom st p P) in M. destruct P as [<-|[<-|[<-|[]]]].
      + rewrite deck_ink_parts in M. eapply (num_right P_ink ".xml" (pml "ink")); [intros; discriminate| |rewrite map_length; reflexivity|exact M|reflexivity]. intros o O. inov 9. exact O.
      + rewrite deck_slide_parts in M. eapply (num_right P_slide ".xml" slide_type); [intros; discriminate| |exact (proj1 CO)|exact M|reflexivity]. intros o O. inov 1. apply in_or_app. now left.
      + rewrite deck_notes_parts in M. eapply (num_right P_notes ".xml" (pml "notesSlide")); [intros; discriminate| |exact notes_count|exact M|reflexivity]. intros o O. inov 2. apply in_or_app. now left.
    - eapply num_rels; [|exact E|reflexivity]. reflexivity.
    - eapply num_rels; [|exact E|reflexivity]. reflexivity.
    - destruct (deck_notes custom) eqn:S; [|destruct E]. pose proof notes_any as NA. rewrite S in NA. destruct E as [E|[E|[E|[]]]]; injection E as <- _; [| |rels]; (eapply lit_over; [discriminate|]; inov 3; apply in_or_app; left; rewrite NA; cbn; auto 10).
    - unfold write_theme_and_layouts in E. apply in_app_or in E. destruct E as [E|[E|[E|[E|[]]]]].
      + apply in_flat_map in E. destruct E as (k & K & E). apply in_seq in K. destruct E as [E|[E|[]]]; injection E as <- _.
        * apply (lit_over _ (pml "slideLayout")); [discriminate|]. inov 6. apply in_or_app. left. apply (nums_in "/ppt/slideLayouts/slideLayout" ".xml"). lia.
        * apply (rels_right _ ("ppt/slideLayouts/_rels/slideLayout" ++ decn k ++ ".xml")%string); [|reflexivity]. unfold layout_rels_path. now rewrite !sapp_assoc.
      + injection E as <- _. eapply lit_over; [discriminate|]; inov 7; apply in_or_app; left; cbn; auto 10.
      + injection E as <- _. rels.
      + injection E as <- _. eapply lit_over; [discriminate|]; inov 7; apply in_or_app; left; cbn; auto 10.
    - destruct E as [E|[E|[]]]; injection E as <- _; (eapply lit_over; [discriminate|]; inov 7; apply in_or_app; left; cbn; auto 10).
    - destruct (charts_heads X (all_charts (deck_slides custom)) 1 _ E) as (p & x & P & Ex).
      assert (M : In (n, c) (family p (write_slide_charts X 1 (all_charts (deck_slides custom))))) by (apply filter_In; split; [exact E|rewrite Ex; apply starts_self]).
      destruct P as [<-|[<-|[<-|[]]]].
      + rewrite charts_charts in M. apply numF_In in M. destruct M as (k & x1 & K & M). injection M as -> _. apply (lit_over _ chart_type); [discriminate|]. inov 5. apply in_or_app. left. apply in_flat_map. exists (1 + k). split; [|now left].
        apply in_seq. assert (k < length (map chart_part_xml (all_charts (deck_slides custom)))) by (apply nth_error_Some; congruence). rewrite map_length in *. lia.
      + rewrite charts_rels in M. eapply num_rels; [|exact M|reflexivity]. reflexivity.
      + rewrite charts_sheets in M. apply numF_In in M. destruct M as (k & x1 & K & M). injection M as -> _. apply (lit_over _ sheet_type); [discriminate|]. inov 5. apply in_or_app. left. apply in_flat_map. exists (1 + k). split; [|right; now left].
        apply in_seq. assert (k < length (map (fun _ => x_workbook X) (all_charts (deck_slides custom)))) by (apply nth_error_Some; congruence). rewrite map_length in *. lia.
    - apply in_map_iff in E. destruct E as ([k [b x]] & E & I). cbn [fst snd] in E. injection E as <- _. apply in_combine_r in I. assert (I' := I). unfold deck_reg in I. rewrite registry_eq, uniques_In in I. specialize (ME _ _ I).
      assert (EX : In x (extensions (deck_reg custom))) by (unfold extensions; apply (in_map snd) in I'; exact I').
      assert (EE : extension_of (media_path (k + 1) x) = x) by (apply (ext_num "ppt/media/image"); destruct ME as [<-|[<-|[<-|[]]]]; reflexivity).
      assert (W : wanted_type (media_path (k + 1) x) = option_map snd (find (fun d => String.eqb (fst d) x) image_types)) by (unfold wanted_type; rewrite EE; reflexivity).
      unfold right_type. rewrite W. split; [|destruct ME as [<-|[<-|[<-|[]]]]; discriminate].
      destruct ME as [<-|[<-|[<-|[]]]]; (apply by_default; rewrite EE; [discriminate..|]; unfold defaults, deck_defaults; apply in_or_app; left; unfold image_defaults).
      + replace (existsb is_jpeg (extensions (deck_reg custom))) with true; [now left|]. symmetry. apply existsb_exists. exists "jpg". auto.
      + replace (existsb is_png (extensions (deck_reg custom))) with true; [apply in_or_app; right; now left|]. symmetry. apply existsb_exists. exists "png". auto.
      + replace (existsb is_gif (extensions (deck_reg custom))) with true; [apply in_or_app; right; apply in_or_app; right; now left|]. symmetry. apply existsb_exists. exists "gif". auto.
    - apply in_map_iff in E. destruct E as (f & E & I). injection E as <- _.
      assert (EE : extension_of (part_name f) = "fntdata"). { unfold part_name. rewrite <- (sapp_assoc "-"), <- !sapp_assoc. apply (ext_of _ "fntdata"). reflexivity. }
      split; [|discriminate]. change (wanted_type (part_name f)) with (Some "application/x-fontdata"). apply by_default; rewrite EE; [discriminate..|]. unfold defaults, deck_defaults. do 4 (apply in_or_app; right).
      unfold has_fonts. destruct (st_fonts st); [destruct I|now left].
    - destruct (st_signature st) eqn:S; [|destruct E]. destruct E as [E|[E|[]]]; injection E as <- _.
      + split; [|discriminate]. change (wanted_type "_xmlsignatures/origin.sigs") with (Some (package "digital-signature-origin")). apply by_default; [discriminate..|]. unfold defaults, deck_defaults. do 3 (apply in_or_app; right). rewrite S. now left.
      + eapply lit_over; [discriminate|]; inov 8; apply in_or_app; left; rewrite S; cbn; auto 10.
  Qed.
  Lemma deck_types : exists xml, In ("[Content_Types].xml", xml) deck /\ types_of xml = Some (defaults, overrides).
  Proof. eexists. split; [|apply eager_types]. apply (in_block X title count custom st 0 _ _ eq_refl). now left. Qed.
End K.
