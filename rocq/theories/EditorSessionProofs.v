(** Lemmas: failures, frame, index parts and opening of an editor. *)
From Coq Require Import String Ascii List Bool Arith Lia Permutation.
From stdpp Require Import base gmap strings.
From Verif Require Import Str GenModel PackageModel PackageSpec PackageProofs EditorModel EditorSpec OpcSpec PresProofs TypesProofs EditorIndexProofs EditorProofs.
Import ListNotations.
Open Scope string_scope.
Open Scope nat_scope.
Open Scope string_scope.

Section Editor.
Context {content : Type} (slide_xml : nat -> content -> string) (lossy : string -> string).

(** ** Failures *)

Lemma failure_unchanged o e e' : apply content slide_xml lossy o e = (NotFound, e') -> e' = e.
Proof.
  destruct o as [c|i c|i|i|i c|a b]; cbn [apply]; unfold add_slide, update_slide, remove_slide, duplicate_slide, insert_slide, reorder_slide; cbv zeta.
  - discriminate.
  - destruct (Nat.leb _ _); [|discriminate]. intros H. now injection H.
  - destruct (Nat.leb _ _); [|discriminate]. intros H. now injection H.
  - destruct (Nat.leb _ _); [intros H; now injection H|]. destruct (get_part _ _); [discriminate|]. intros H. now injection H.
  - destruct (Nat.ltb _ _); [|discriminate]. intros H. now injection H.
  - destruct (_ || _); [intros H; now injection H|]. destruct (Nat.eqb _ _); discriminate.
Qed.

Lemma failure_iff o e : numbered e ->
  (fst (apply content slide_xml lossy o e) = NotFound <-> out_of_range o (slide_count e)).
Proof.
  intros H. destruct (apply_sim slide_xml lossy o e H) as (A & _). rewrite A.
  destruct o as [c|i c|i|i|i c|a b]; cbn [list_step out_of_range]; unfold slides_of; rewrite ?nth_map_seq, ?map_length, ?seq_length.
  - split; [discriminate|intros []].
  - destruct (Nat.ltb_spec i (slide_count e)); cbn [fst]; split; auto; try discriminate; lia.
  - destruct (Nat.ltb_spec i (slide_count e)); cbn [fst]; split; auto; try discriminate; lia.
  - destruct (Nat.ltb_spec i (slide_count e)); cbn [fst]; split; auto; try discriminate; lia.
  - destruct (Nat.leb_spec i (slide_count e)); cbn [fst]; split; auto; try discriminate; lia.
  - destruct (Nat.ltb_spec a (slide_count e)); cbn [fst]; [|split; auto; lia].
    destruct (Nat.ltb_spec b (slide_count e)); cbn [fst]; split; auto; try discriminate; lia.
Qed.

(** ** Frame *)

Lemma move_frame a b p k : k <> a -> k <> b -> move_part a b p !! k = p !! k.
Proof. intros A B. rewrite move_lookup. now rewrite !(proj2 (String.eqb_neq _ _)) by assumption. Qed.
Lemma fold_frame (f : package -> nat -> package) k : (forall p i, f p i !! k = p !! k) ->
  forall l p, fold_left f l p !! k = p !! k.
Proof. intros H. induction l as [|i l IH]; intros p; cbn [fold_left]; [reflexivity|]. rewrite IH. apply H. Qed.

Lemma frame o e name : ~ editor_name name -> pkg (snd (apply content slide_xml lossy o e)) !! name = pkg e !! name.
Proof.
  intros N.
  assert (A1 : forall i, name <> slide_path i) by (intros i ->; apply N; left; now exists i).
  assert (A2 : forall i, name <> slide_rels_path i) by (intros i ->; apply N; right; left; now exists i).
  assert (A3 : ~ index_name name) by (intros [E|[E|E]]; apply N; unfold editor_name; auto 10).
  assert (A4 : name <> "ppt/presentation.xml" /\ name <> "ppt/_rels/presentation.xml.rels" /\ name <> "[Content_Types].xml" /\
               name <> temp_slide_path /\ name <> temp_rels_path).
  { repeat split; intros ->; apply N; unfold editor_name, temp_slide_path, temp_rels_path; auto 10. }
  destruct A4 as (B1 & B2 & B3 & B4 & B5).
  assert (Q : forall a b p, renumber_slide a b p !! name = p !! name) by (intros; now apply other_renumber).
  assert (I : forall k c (p : package), name <> k -> add_part k c p !! name = p !! name).
  { intros k c p Hk. unfold add_part. rewrite lookup_insert_ne by congruence. reflexivity. }
  assert (D : forall k (p : package), name <> k -> snd (remove_part k p) !! name = p !! name).
  { intros k p Hk. unfold remove_part. cbn [snd]. rewrite lookup_delete_ne by congruence. reflexivity. }
  destruct o as [c|i c|i|i|i c|a b]; cbn [apply]; unfold add_slide, update_slide, remove_slide, duplicate_slide, insert_slide, reorder_slide, shift_up; cbv zeta.
  - cbn [snd pkg]. rewrite !update_lookup by assumption. now rewrite !I by auto.
  - destruct (Nat.leb _ _); cbn [snd pkg]; [reflexivity|]. now rewrite I by auto.
  - destruct (Nat.leb _ _); cbn [snd pkg]; [reflexivity|]. rewrite rebuild_lookup by assumption.
    rewrite fold_frame by auto. now rewrite !D by auto.
  - destruct (Nat.leb _ _); cbn [snd pkg]; [reflexivity|]. destruct (get_part _ _); cbn [snd pkg]; [|reflexivity].
    rewrite rebuild_lookup by assumption. rewrite !I by auto. now rewrite fold_frame by auto.
  - destruct (Nat.ltb _ _); cbn [snd pkg]; [reflexivity|].
    rewrite rebuild_lookup by assumption. rewrite !I by auto. now rewrite fold_frame by auto.
  - destruct (_ || _); cbn [snd pkg]; [reflexivity|]. destruct (Nat.eqb _ _); cbn [snd pkg]; [reflexivity|].
    rewrite rebuild_lookup by assumption. rewrite !(move_frame temp_rels_path), !(move_frame temp_slide_path) by auto.
    destruct (Nat.ltb _ _); rewrite fold_frame by auto; now rewrite !move_frame by auto.
Qed.

Lemma session_frame os : forall e name, ~ editor_name name ->
  pkg (snd (session content slide_xml lossy os e)) !! name = pkg e !! name.
Proof.
  induction os as [|o os IH]; intros e name N; [reflexivity|]. cbn [session].
  pose proof (frame o e name N) as F. destruct (apply content slide_xml lossy o e) as [r e1]. cbn [snd] in F.
  specialize (IH e1 name N). destruct (session content slide_xml lossy os e1) as [rs2 e2]. cbn [snd] in *. congruence.
Qed.

(** ** Index parts *)

Lemma rebuild_consistent n p : indexes_consistent (Editor (rebuild lossy n p) n).
Proof.
  unfold rebuild, rebuild_content_types, rebuild_presentation_rels, rebuild_presentation_xml, add_part.
  set (hn := presentation_has_notes (part_string_or_empty lossy p _)). set (hh := presentation_has_handout (part_string_or_empty lossy p _)).
  set (hn' := presentation_has_notes _). set (hh' := presentation_has_handout _). clearbody hn hh hn' hh'.
  destruct (rebuilt_types_read n) as (d & o & T1 & T2).
  exists (rebuilt_presentation_xml n hn hh), (create_presentation_rels_xml_full n hn' hh'), (rebuilt_content_types n),
    (pres_rel_list n hn' hh'), (sld_ids n), d, o. cbn [pkg slide_count].
  split; [rewrite !lookup_insert_ne by discriminate; apply lookup_insert|].
  split; [rewrite lookup_insert_ne by discriminate; apply lookup_insert|].
  split; [apply lookup_insert|].
  split; [apply rebuilt_rels_read|]. split; [apply rebuilt_pres_read|]. split; [exact T1|].
  split; [apply pres_rel_nodup|]. split; [unfold sld_ids; now rewrite map_length, seq_length|].
  split; [apply sld_ids_nodup|]. split; [|exact T2].
  intros i id r H. apply sld_ids_nth in H. destruct H as (L & _ & ->). now apply pres_rel_slide.
Qed.

Lemma structural_consistent o e i e' : structural o -> apply content slide_xml lossy o e = (Ok i, e') -> indexes_consistent e'.
Proof.
  destruct o as [c|k c|k|k|k c|a b]; cbn [apply structural]; try (intros []; fail);
    unfold remove_slide, duplicate_slide, insert_slide, reorder_slide; cbv zeta.
  - intros _. destruct (Nat.leb _ _); [discriminate|]. intros H. injection H as _ <-. apply rebuild_consistent.
  - intros _. destruct (Nat.leb _ _); [discriminate|]. destruct (get_part _ _); [|discriminate]. intros H. injection H as _ <-. apply rebuild_consistent.
  - intros _. destruct (Nat.ltb _ _); [discriminate|]. intros H. injection H as _ <-. apply rebuild_consistent.
  - intros N. destruct (_ || _); [discriminate|]. rewrite (proj2 (Nat.eqb_neq _ _) N). intros H. injection H as _ <-. apply rebuild_consistent.
Qed.
End Editor.

(** ** Opening *)

Lemma split_once_no_char c p s : sforall (fun d => negb (Ascii.eqb d c)) s = true -> split_once (String c p) s = None.
Proof.
  induction s as [|d s IH]; [reflexivity|]. cbn [sforall split_once strip_prefix]. rewrite andb_true_iff. intros [H1 H2].
  apply negb_true_iff in H1. rewrite Ascii.eqb_sym in H1. rewrite H1. now rewrite IH.
Qed.
Lemma sforall_imp (f g : ascii -> bool) s : (forall c, f c = true -> g c = true) -> sforall f s = true -> sforall g s = true.
Proof.
  intros H. induction s as [|c s IH]; [reflexivity|]. cbn [sforall]. rewrite !andb_true_iff. intros [A B]. split; [now apply H|now apply IH].
Qed.
Lemma slide_path_is_slide i : is_slide_path (slide_path i) = true.
Proof.
  unfold is_slide_path. rewrite !andb_true_iff. split; [split|].
  - apply starts_with_iff. exists (decn i ++ ".xml"). reflexivity.
  - apply ends_with_iff. exists ("ppt/slides/slide" ++ decn i). unfold slide_path. now rewrite sapp_assoc.
  - unfold contains. rewrite split_once_no_char; [reflexivity|]. unfold slide_path. rewrite !sforall_app.
    apply andb_true_iff. split; [reflexivity|]. apply andb_true_iff. split; [|reflexivity].
    apply (sforall_imp is_digit); [|apply decn_digits]. intros c Hc. destruct (Ascii.eqb_spec c "_"); [subst c; discriminate|reflexivity].
Qed.

Lemma open_numbered p keys n :
  keys_order p keys ->
  (forall i, 1 <= i <= n -> get_part p (slide_path i) <> None) ->
  (forall k, get_part p k <> None -> starts_with "ppt/slides/slide" k = true -> ends_with ".xml" k = true ->
     exists i, 1 <= i <= n /\ k = slide_path i) ->
  (forall i, n < i -> get_part p (slide_rels_path i) = None) ->
  get_part p temp_slide_path = None -> get_part p temp_rels_path = None ->
  numbered (open_editor p keys) /\ slide_count (open_editor p keys) = n.
Proof.
  intros K H1 H2 H3 T1 T2.
  assert (C : count_slides keys = n).
  { unfold count_slides. rewrite <- (seq_length n 1), <- (map_length slide_path). apply Permutation_length.
    assert (ND : List.NoDup keys /\ forall x, In x keys <-> get_part p x <> None).
    { destruct (PackageProofs.observers p "" keys K) as (_ & _ & A & B & _). now split. }
    destruct ND as [ND HK]. apply Permutation.NoDup_Permutation.
    - apply List.NoDup_filter, ND.
    - apply FinFun.Injective_map_NoDup; [intros a b; apply slide_path_inj|apply seq_NoDup].
    - intros k. rewrite filter_In, HK, in_map_iff. split.
      + intros [A B]. unfold is_slide_path in B. rewrite !andb_true_iff in B. destruct B as [[B1 B2] _].
        destruct (H2 k A B1 B2) as (i & Hi & ->). exists i. split; [reflexivity|]. apply in_seq. lia.
      + intros (i & <- & Hi). apply in_seq in Hi. split; [apply H1; lia|apply slide_path_is_slide]. }
  split; [|exact C]. unfold numbered, open_editor. cbn [pkg slide_count]. rewrite C.
  split; [exact H1|]. split; [|exact (conj T1 T2)].
  intros i Hi. split; [|now apply H3].
  destruct (p !! ("ppt/slides/slide" ++ decn i ++ ".xml")) as [x|] eqn:E; [|reflexivity]. exfalso.
  pose proof (slide_path_is_slide i) as S. unfold is_slide_path in S. rewrite !andb_true_iff in S. destruct S as [[S1 S2] _].
  destruct (H2 (slide_path i)) as (j & Hj & Ej); [unfold get_part, slide_path; rewrite E; discriminate|exact S1|exact S2|].
  apply slide_path_inj in Ej. lia.
Qed.

(** ** A concrete deck, and what goes wrong *)

Definition deck (n : nat) (notes handout : bool) : editor :=
  Editor (fold_left (fun p i => add_part (slide_path i) ("slide " ++ decn i) (add_part (slide_rels_path i) create_slide_rels_xml p)) (seq 1 n)
    (add_part "ppt/presentation.xml" (create_presentation_xml n notes handout)
    (add_part "ppt/_rels/presentation.xml.rels" (create_presentation_rels_xml_full n notes handout)
    (add_part "ppt/media/image1.png" "png"
    (add_part "[Content_Types].xml" (rebuilt_content_types n) new))))) n.

Fixpoint nodupb (l : list string) : bool :=
  match l with [] => true | x :: l => negb (existsb (String.eqb x) l) && nodupb l end.
Lemma nodupb_false l : nodupb l = false -> ~ List.NoDup l.
Proof.
  induction l as [|x l IH]; [discriminate|]. cbn [nodupb]. intros H N. inversion N as [|? ? N1 N2]; subst.
  apply andb_false_iff in H. destruct H as [H|H]; [|now apply IH].
  apply negb_false_iff, existsb_exists in H. destruct H as (y & Hy & E). apply String.eqb_eq in E. subst y. contradiction.
Qed.

Lemma deck_numbered : numbered (deck 3 true false).
Proof.
  split; [|split; [|split; vm_compute; reflexivity]].
  - intros n Hn. change (1 <= n <= 3) in Hn. assert (n = 1 \/ n = 2 \/ n = 3) as [->|[->| ->]] by lia; vm_compute; discriminate.
  - intros n Hn. change (3 < n) in Hn.
    unfold deck. cbn [pkg seq fold_left]. unfold add_part.
    split; rewrite !lookup_insert_ne by first [discriminate | intros X; first [apply (slide_path_inj _ n) in X | apply (slide_rels_path_inj _ n) in X]; lia];
      unfold new; apply lookup_empty.
Qed.

Lemma session_list {content} (slide_xml : nat -> content -> string) lossy os e : numbered e ->
  let r := session content slide_xml lossy os e in
  let s := list_session content slide_xml create_slide_rels_xml os (slides_of e) in
  fst r = fst s /\ slides_of (snd r) = snd s /\ slide_count (snd r) = length (snd s) /\ numbered (snd r).
Proof.
  intros H. cbv zeta. destruct (session_sim slide_xml lossy os e H) as (A & B & C).
  split; [exact A|]. split; [exact B|]. split; [|exact C]. rewrite <- B. symmetry. apply slides_length.
Qed.

(** The deck above after one structural edit, as starting point. *)
Definition deck' : editor := snd (reorder_slide (fun s => s) 0 1 (deck 3 true false)).
Lemma deck'_numbered : numbered deck'.
Proof. apply (reorder_sim (content := string) (fun n c => c) (fun s => s) 0 1 _ deck_numbered). Qed.

Lemma add_slide_duplicate_id :
  exists e e' rels l, numbered e /\ indexes_consistent e /\
    apply string (fun n c => c) (fun s => s) (AddSlide _ "x") e = (Ok 3, e') /\
    get_part (pkg e') "ppt/_rels/presentation.xml.rels" = Some rels /\ rels_of rels = Some l /\ ~ List.NoDup (map rel_id l).
Proof.
  exists deck'. do 3 eexists. split; [exact deck'_numbered|].
  split; [apply (structural_consistent (content := string) (fun n c => c) (fun s => s) (ReorderSlide _ 0 1) (deck 3 true false) 1); [discriminate|reflexivity]|].
  split; [reflexivity|]. split; [vm_compute; reflexivity|]. split; [vm_compute; reflexivity|].
  apply nodupb_false. vm_compute. reflexivity.
Qed.
Lemma notes_master_misresolved :
  exists e e' pres rels l id r, numbered e /\
    apply string (fun n c => c) (fun s => s) (RemoveSlide _ 0) e = (Ok 0, e') /\
    get_part (pkg e') "ppt/presentation.xml" = Some pres /\
    id_list pres "p:notesMasterIdLst" "p:notesMasterId" = Some [(id, r)] /\
    get_part (pkg e') "ppt/_rels/presentation.xml.rels" = Some rels /\ rels_of rels = Some l /\
    option_map rel_type (lookup_rel r l) = Some (doc_rel "viewProps").
Proof.
  exists (deck 3 true false). do 6 eexists. split; [exact deck_numbered|]. split; [reflexivity|].
  split; [vm_compute; reflexivity|]. split; [vm_compute; reflexivity|]. split; [vm_compute; reflexivity|].
  split; [vm_compute; reflexivity|]. vm_compute. reflexivity.
Qed.
