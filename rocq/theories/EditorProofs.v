From Coq Require Import String Ascii List Bool Arith Lia.
From stdpp Require Import base gmap strings.
From Verif Require Import Str GenModel PackageModel EditorModel EditorSpec OpcSpec.
Import ListNotations.
Open Scope string_scope.
Open Scope nat_scope.
Open Scope string_scope.

(** ** Path names *)

Lemma sapp_inj_r a b s : a ++ s = b ++ s -> a = b.
Proof.
  intros H. assert (K : srev (a ++ s) = srev (b ++ s)) by now rewrite H.
  rewrite !srev_sapp in K. apply sapp_inj_l in K.
  rewrite <- (srev_involutive a), <- (srev_involutive b). now rewrite K.
Qed.
Lemma slide_path_inj i j : slide_path i = slide_path j -> i = j.
Proof. unfold slide_path. intros H. apply sapp_inj_l in H. apply sapp_inj_r in H. now apply decn_inj. Qed.
Lemma slide_rels_path_inj i j : slide_rels_path i = slide_rels_path j -> i = j.
Proof. unfold slide_rels_path. intros H. apply sapp_inj_l in H. apply sapp_inj_r in H. now apply decn_inj. Qed.
Lemma slide_ne_rels i j : slide_path i <> slide_rels_path j.
Proof. discriminate. Qed.
Lemma slide_ne_temp i : slide_path i <> temp_slide_path /\ slide_path i <> temp_rels_path.
Proof. split; discriminate. Qed.
Lemma rels_ne_temp i : slide_rels_path i <> temp_slide_path /\ slide_rels_path i <> temp_rels_path.
Proof. split; discriminate. Qed.

(** ** Slots *)

(** The two families of slots of a package. *)
Definition xs (p : package) (i : nat) : option string := p !! slide_path i.
Definition rs (p : package) (i : nat) : option string := p !! slide_rels_path i.

Definition mv (old new : nat) (f : nat -> option string) (j : nat) : option string :=
  if Nat.eqb j new then (match f old with Some c => Some c | None => if Nat.eqb old new then None else f new end)
  else if Nat.eqb j old then None else f j.
Definition up (i : nat) (v : option string) (f : nat -> option string) (j : nat) : option string :=
  if Nat.eqb j i then v else f j.

Lemma move_lookup old new p k :
  move_part old new p !! k =
  if String.eqb k new then (match p !! old with Some c => Some c | None => if String.eqb old new then None else p !! new end)
  else if String.eqb k old then None else p !! k.
Proof.
  unfold move_part, remove_part, add_part. destruct (p !! old) as [c|] eqn:E.
  - destruct (String.eqb_spec k new) as [->|N1]; [apply lookup_insert|].
    rewrite lookup_insert_ne by congruence. destruct (String.eqb_spec k old) as [->|N2]; [apply lookup_delete|].
    now rewrite lookup_delete_ne by congruence.
  - destruct (String.eqb_spec k new) as [->|N1].
    + destruct (String.eqb_spec old new) as [->|N3]; [apply lookup_delete|now rewrite lookup_delete_ne by congruence].
    + destruct (String.eqb_spec k old) as [->|N2]; [apply lookup_delete|].
      now rewrite lookup_delete_ne by congruence.
Qed.

Lemma eqb_slide i j : String.eqb (slide_path i) (slide_path j) = Nat.eqb i j.
Proof.
  destruct (Nat.eqb_spec i j) as [->|N]; [apply String.eqb_refl|]. apply String.eqb_neq. intros H. now apply N, slide_path_inj.
Qed.
Lemma eqb_rels i j : String.eqb (slide_rels_path i) (slide_rels_path j) = Nat.eqb i j.
Proof.
  destruct (Nat.eqb_spec i j) as [->|N]; [apply String.eqb_refl|]. apply String.eqb_neq. intros H. now apply N, slide_rels_path_inj.
Qed.

Lemma xs_renumber a b p j : xs (renumber_slide a b p) j = mv a b (xs p) j.
Proof.
  unfold xs, renumber_slide. rewrite move_lookup.
  replace (String.eqb (slide_path j) (slide_rels_path b)) with false by reflexivity.
  replace (String.eqb (slide_path j) (slide_rels_path a)) with false by reflexivity.
  rewrite move_lookup, !eqb_slide. reflexivity.
Qed.
Lemma rs_renumber a b p j : rs (renumber_slide a b p) j = mv a b (rs p) j.
Proof.
  unfold rs, renumber_slide. rewrite move_lookup, !eqb_rels. unfold mv.
  assert (Q : forall k, move_part (slide_path a) (slide_path b) p !! slide_rels_path k = p !! slide_rels_path k).
  { intros k. rewrite move_lookup. reflexivity. }
  now rewrite !Q.
Qed.
Lemma other_renumber a b p k : (forall i, k <> slide_path i) -> (forall i, k <> slide_rels_path i) ->
  renumber_slide a b p !! k = p !! k.
Proof.
  intros H1 H2. unfold renumber_slide. rewrite !move_lookup.
  rewrite !(proj2 (String.eqb_neq _ _)) by auto. reflexivity.
Qed.

(** A fold of renumberings acts on the slots as the fold of [mv]. *)
Section Folds.
Context (src dst : nat -> nat).
Lemma fold_slots l : forall p (f g : nat -> option string), (forall j, xs p j = f j) -> (forall j, rs p j = g j) ->
  let p' := fold_left (fun p i => renumber_slide (src i) (dst i) p) l p in
  (forall j, xs p' j = fold_left (fun f i => mv (src i) (dst i) f) l f j) /\
  (forall j, rs p' j = fold_left (fun f i => mv (src i) (dst i) f) l g j) /\
  (forall k, (forall i, k <> slide_path i) -> (forall i, k <> slide_rels_path i) -> p' !! k = p !! k).
Proof.
  induction l as [|i l IH]; intros p f g Hf Hg; cbn [fold_left]; [now repeat split|].
  destruct (IH (renumber_slide (src i) (dst i) p) (mv (src i) (dst i) f) (mv (src i) (dst i) g)) as (A & B & C).
  - intros j. rewrite xs_renumber. unfold mv. now rewrite !Hf.
  - intros j. rewrite rs_renumber. unfold mv. now rewrite !Hg.
  - split; [exact A|]. split; [exact B|]. intros k H1 H2. rewrite C by assumption. now apply other_renumber.
Qed.
End Folds.

Ltac nat_cases :=
  repeat match goal with
         | |- context [Nat.eqb ?a ?b] => destruct (Nat.eqb_spec a b)
         | |- context [Nat.ltb ?a ?b] => destruct (Nat.ltb_spec a b)
         | |- context [Nat.leb ?a ?b] => destruct (Nat.leb_spec a b)
         | H : context [Nat.eqb ?a ?b] |- _ => destruct (Nat.eqb_spec a b)
         | H : context [Nat.ltb ?a ?b] |- _ => destruct (Nat.ltb_spec a b)
         | H : context [Nat.leb ?a ?b] |- _ => destruct (Nat.leb_spec a b)
         end; subst; try lia; try reflexivity; try (f_equal; lia).

(** Moving m slots down by one into a hole at k. *)
Lemma fold_down m : forall k f, f k = None -> forall j,
  fold_left (fun f i => mv (i + 1) i f) (seq k m) f j =
  if Nat.ltb j k then f j else if Nat.ltb j (k + m) then f (j + 1) else if Nat.eqb j (k + m) then None else f j.
Proof.
  induction m as [|m IH]; intros k f Hk j; cbn [seq fold_left].
  - nat_cases. all: rewrite ?Nat.add_0_r in *; congruence.
  - rewrite IH.
    2:{ unfold mv. replace (Nat.eqb (S k) k) with false by (symmetry; apply Nat.eqb_neq; lia).
        now replace (Nat.eqb (S k) (k + 1)) with true by (symmetry; apply Nat.eqb_eq; lia). }
    unfold mv. nat_cases.
    destruct (f (k + 1)); congruence.
Qed.

(** Moving m slots up by one into a hole at k + m. *)
Lemma fold_up m : forall k f, f (k + m) = None -> forall j,
  fold_left (fun f i => mv (i - 1) i f) (rev (seq (k + 1) m)) f j =
  if Nat.ltb j k then f j else if Nat.eqb j k then None else if Nat.leb j (k + m) then f (j - 1) else f j.
Proof.
  induction m as [|m IH]; intros k f Hk j.
  - cbn [seq rev fold_left]. rewrite Nat.add_0_r in *. nat_cases. congruence.
  - rewrite seq_S, rev_app_distr. cbn [rev app fold_left]. rewrite IH.
    2:{ unfold mv. replace (Nat.eqb (k + m) (k + 1 + m)) with false by (symmetry; apply Nat.eqb_neq; lia).
        now replace (Nat.eqb (k + m) (k + 1 + m - 1)) with true by (symmetry; apply Nat.eqb_eq; lia). }
    unfold mv. nat_cases.
    replace (k + 1 + m) with (k + S m) in * by lia. rewrite Hk. now destruct (f (k + S m - 1)).
Qed.

Lemma fold_down' m : forall k f, f k = None -> forall j,
  fold_left (fun f i => mv i (i - 1) f) (seq (k + 1) m) f j =
  if Nat.ltb j k then f j else if Nat.ltb j (k + m) then f (j + 1) else if Nat.eqb j (k + m) then None else f j.
Proof.
  induction m as [|m IH]; intros k f Hk j; cbn [seq fold_left].
  - nat_cases. all: rewrite ?Nat.add_0_r in *; congruence.
  - change (S (k + 1)) with (S k + 1). rewrite IH.
    2:{ unfold mv. replace (Nat.eqb (S k) (k + 1 - 1)) with false by (symmetry; apply Nat.eqb_neq; lia).
        now replace (Nat.eqb (S k) (k + 1)) with true by (symmetry; apply Nat.eqb_eq; lia). }
    unfold mv. replace (k + 1 - 1) with k by lia. nat_cases.
    destruct (f (k + 1)); congruence.
Qed.

Lemma fold_up' m : forall k f, f (k + m) = None -> forall j,
  fold_left (fun f i => mv i (i + 1) f) (rev (seq k m)) f j =
  if Nat.ltb j k then f j else if Nat.eqb j k then None else if Nat.leb j (k + m) then f (j - 1) else f j.
Proof.
  induction m as [|m IH]; intros k f Hk j.
  - cbn [seq rev fold_left]. rewrite Nat.add_0_r in *. nat_cases. congruence.
  - rewrite seq_S, rev_app_distr. cbn [rev app fold_left]. rewrite IH.
    2:{ unfold mv. replace (Nat.eqb (k + m) (k + m + 1)) with false by (symmetry; apply Nat.eqb_neq; lia).
        now rewrite Nat.eqb_refl. }
    unfold mv. nat_cases.
    all: replace (k + m + 1 - 1) with (k + m) by lia; replace (k + m + 1) with (k + S m) by lia; rewrite ?Hk; now destruct (f (k + m)).
Qed.

(** ** Slots of a package *)

Definition slots (p : package) (f g : nat -> option string) : Prop :=
  (forall j, xs p j = f j) /\ (forall j, rs p j = g j).
Definition other (k : string) : Prop := (forall i, k <> slide_path i) /\ (forall i, k <> slide_rels_path i).

Lemma slots_add_x p f g i c : slots p f g -> slots (add_part (slide_path i) c p) (up i (Some c) f) g.
Proof.
  intros [A B]. unfold slots, xs, rs, add_part, up in *. split; intros j.
  - destruct (Nat.eqb_spec j i) as [->|N]; [apply lookup_insert|]. rewrite lookup_insert_ne; [apply A|]. intros H. apply N. symmetry. now apply slide_path_inj.
  - rewrite lookup_insert_ne by discriminate. apply B.
Qed.
Lemma slots_add_r p f g i c : slots p f g -> slots (add_part (slide_rels_path i) c p) f (up i (Some c) g).
Proof.
  intros [A B]. unfold slots, xs, rs, add_part, up in *. split; intros j.
  - rewrite lookup_insert_ne by discriminate. apply A.
  - destruct (Nat.eqb_spec j i) as [->|N]; [apply lookup_insert|]. rewrite lookup_insert_ne; [apply B|]. intros H. apply N. symmetry. now apply slide_rels_path_inj.
Qed.
Lemma slots_del_x p f g i : slots p f g -> slots (delete (slide_path i) p) (up i None f) g.
Proof.
  intros [A B]. unfold slots, xs, rs, up in *. split; intros j.
  - destruct (Nat.eqb_spec j i) as [->|N]; [apply lookup_delete|]. rewrite lookup_delete_ne; [apply A|]. intros H. apply N. symmetry. now apply slide_path_inj.
  - rewrite lookup_delete_ne by discriminate. apply B.
Qed.
Lemma slots_del_r p f g i : slots p f g -> slots (delete (slide_rels_path i) p) f (up i None g).
Proof.
  intros [A B]. unfold slots, xs, rs, up in *. split; intros j.
  - rewrite lookup_delete_ne by discriminate. apply A.
  - destruct (Nat.eqb_spec j i) as [->|N]; [apply lookup_delete|]. rewrite lookup_delete_ne; [apply B|]. intros H. apply N. symmetry. now apply slide_rels_path_inj.
Qed.
Lemma slots_other p f g k c : other k -> slots p f g -> slots (add_part k c p) f g.
Proof.
  intros [O1 O2] [A B]. unfold slots, xs, rs, add_part in *. split; intros j.
  - rewrite lookup_insert_ne by (intros H; now apply (O1 j)). apply A.
  - rewrite lookup_insert_ne by (intros H; now apply (O2 j)). apply B.
Qed.
Lemma other_pres : other "ppt/presentation.xml".
Proof. split; intros; discriminate. Qed.
Lemma other_rels : other "ppt/_rels/presentation.xml.rels".
Proof. split; intros; discriminate. Qed.
Lemma other_types : other "[Content_Types].xml".
Proof. split; intros; discriminate. Qed.
Lemma other_temp_x : other temp_slide_path.
Proof. split; intros; discriminate. Qed.
Lemma other_temp_r : other temp_rels_path.
Proof. split; intros; discriminate. Qed.

Lemma slots_ext p f g f' g' : slots p f g -> (forall j, f j = f' j) -> (forall j, g j = g' j) -> slots p f' g'.
Proof. intros [A B] F G. split; intros j; [now rewrite <- F|now rewrite <- G]. Qed.

Section Editor.
Context {content : Type} (slide_xml : nat -> content -> string) (lossy : string -> string).

Lemma slots_rebuild n p f g : slots p f g -> slots (rebuild lossy n p) f g.
Proof.
  intros H. unfold rebuild, rebuild_content_types, rebuild_presentation_rels, rebuild_presentation_xml.
  apply slots_other; [apply other_types|]. apply slots_other; [apply other_rels|]. apply slots_other; [apply other_pres|]. exact H.
Qed.
Lemma slots_update k h p f g : other k -> slots p f g -> slots (update_part lossy k h p) f g.
Proof. intros O H. unfold update_part. destruct (get_part p k); [now apply slots_other|exact H]. Qed.

Definition index_name (k : string) : Prop :=
  k = "ppt/presentation.xml" \/ k = "ppt/_rels/presentation.xml.rels" \/ k = "[Content_Types].xml".

Lemma rebuild_lookup n p k : ~ index_name k -> rebuild lossy n p !! k = p !! k.
Proof.
  intros H. unfold rebuild, rebuild_content_types, rebuild_presentation_rels, rebuild_presentation_xml, add_part.
  unfold index_name in H. rewrite !lookup_insert_ne by (intros E; apply H; rewrite <- E; auto). reflexivity.
Qed.
Lemma update_lookup k0 h p k : k <> k0 -> update_part lossy k0 h p !! k = p !! k.
Proof. intros H. unfold update_part, add_part. destruct (get_part p k0); [rewrite lookup_insert_ne by congruence|]; reflexivity. Qed.

(** ** Lists of slots *)

Definition hslide (f g : nat -> option string) (j : nat) : slide :=
  (match f j with Some x => x | None => "" end, g j).
Definition view (f g : nat -> option string) (n : nat) : list slide := map (hslide f g) (seq 1 n).

Lemma slides_view e f g : slots (pkg e) f g -> slides_of e = view f g (slide_count e).
Proof.
  intros [A B]. unfold slides_of, view. apply map_ext. intros j. unfold nth_slide, hslide.
  rewrite <- A, <- B. reflexivity.
Qed.

Lemma firstn_map_seq {A} (h : nat -> A) i n k : i <= n -> firstn i (map h (seq k n)) = map h (seq k i).
Proof.
  intros H. replace n with (i + (n - i)) by lia. rewrite seq_app, map_app, firstn_app, map_length, seq_length, Nat.sub_diag.
  rewrite firstn_O, app_nil_r. rewrite firstn_all2; [reflexivity|]. now rewrite map_length, seq_length.
Qed.
Lemma skipn_map_seq {A} (h : nat -> A) i n k : i <= n -> skipn i (map h (seq k n)) = map h (seq (k + i) (n - i)).
Proof.
  intros H. replace n with (i + (n - i)) at 1 by lia. rewrite seq_app, map_app, skipn_app, map_length, seq_length, Nat.sub_diag.
  rewrite skipn_O. rewrite skipn_all2; [reflexivity|]. now rewrite map_length, seq_length.
Qed.
Lemma nth_map_seq {A} (h : nat -> A) i n : nth_error (map h (seq 1 n)) i = if Nat.ltb i n then Some (h (i + 1)) else None.
Proof.
  destruct (Nat.ltb_spec i n) as [L|L].
  - rewrite nth_error_map, (nth_error_nth' _ 0) by now rewrite seq_length. rewrite seq_nth by assumption. cbn. now rewrite Nat.add_1_r.
  - apply nth_error_None. now rewrite map_length, seq_length.
Qed.

Lemma insert_at_map {A} (h h' : nat -> A) i n x : i <= n -> (forall j, 1 <= j <= i -> h' j = h j) -> h' (i + 1) = x ->
  (forall j, i + 1 < j <= n + 1 -> h' j = h (j - 1)) ->
  map h' (seq 1 (n + 1)) = insert_at i x (map h (seq 1 n)).
Proof.
  intros L H1 H2 H3. unfold insert_at. rewrite firstn_map_seq, skipn_map_seq by assumption.
  replace (n + 1) with (i + S (n - i)) by lia. rewrite seq_app, map_app. cbn [seq map]. f_equal; [|f_equal].
  - apply map_ext_in. intros j Hj. apply in_seq in Hj. apply H1. lia.
  - rewrite <- H2. f_equal. lia.
  - rewrite <- (seq_shift (n - i) (1 + i)), map_map. apply map_ext_in. intros j Hj. apply in_seq in Hj.
    rewrite H3 by lia. f_equal. lia.
Qed.
Lemma delete_at_map {A} (h h' : nat -> A) i n : i < n -> (forall j, 1 <= j <= i -> h' j = h j) ->
  (forall j, i < j <= n - 1 -> h' j = h (j + 1)) ->
  map h' (seq 1 (n - 1)) = delete_at i (map h (seq 1 n)).
Proof.
  intros L H1 H2. unfold delete_at. rewrite firstn_map_seq, skipn_map_seq by lia.
  replace (n - 1) with (i + (n - S i)) by lia. rewrite seq_app, map_app. f_equal.
  - apply map_ext_in. intros j Hj. apply in_seq in Hj. apply H1. lia.
  - replace (1 + S i) with (S (1 + i)) by lia. rewrite <- (seq_shift (n - S i) (1 + i)), map_map. apply map_ext_in. intros j Hj. apply in_seq in Hj.
    rewrite H2 by lia. f_equal. lia.
Qed.

(** ** The invariant on slots *)

Definition good (f g : nat -> option string) (n : nat) : Prop :=
  (forall j, 1 <= j <= n -> f j <> None) /\ (forall j, n < j -> f j = None /\ g j = None).

Lemma numbered_slots e : numbered e <->
  exists f g, slots (pkg e) f g /\ good f g (slide_count e) /\ pkg e !! temp_slide_path = None /\ pkg e !! temp_rels_path = None.
Proof.
  unfold numbered. split.
  - intros (A & B & C & D). exists (xs (pkg e)), (rs (pkg e)). split; [split; intros; reflexivity|]. split; [split; [exact A|exact B]|]. exact (conj C D).
  - intros (f & g & [F G] & [A B] & C & D). split; [|split; [|now split]].
    + intros n Hn. change (xs (pkg e) n <> None). rewrite F. now apply A.
    + intros n Hn. change (xs (pkg e) n = None /\ rs (pkg e) n = None). rewrite F, G. now apply B.
Qed.

(** ** One lemma per operation: result, new slots, invariant *)

Definition sim (r : outcome * editor) (l : outcome * list slide) : Prop :=
  fst r = fst l /\ slides_of (snd r) = snd l /\ numbered (snd r).

Lemma sim_intro o e f g n l : slots (pkg e) f g -> slide_count e = n -> good f g n ->
  pkg e !! temp_slide_path = None -> pkg e !! temp_rels_path = None -> view f g n = l -> sim (o, e) (o, l).
Proof.
  intros S C G T1 T2 V. split; [reflexivity|]. split; [|apply numbered_slots; exists f, g; cbn [snd]; rewrite C; exact (conj S (conj G (conj T1 T2)))].
  cbn [snd]. rewrite (slides_view e f g S), C. exact V.
Qed.

Lemma not_index_temp : ~ index_name temp_slide_path /\ ~ index_name temp_rels_path.
Proof. unfold index_name. split; intros [H|[H|H]]; discriminate. Qed.

Notation step := (list_step content slide_xml create_slide_rels_xml).

Lemma slides_length e : length (slides_of e) = slide_count e.
Proof. unfold slides_of. now rewrite map_length, seq_length. Qed.

Lemma add_sim c e : numbered e -> sim (add_slide content slide_xml lossy c e) (step (AddSlide content c) (slides_of e)).
Proof.
  intros H. apply numbered_slots in H. destruct H as (f & g & S & [G1 G2] & T1 & T2).
  cbn [list_step]. rewrite slides_length. unfold add_slide. replace (slide_count e + 1 - 1) with (slide_count e) by lia.
  set (n := slide_count e + 1).
  eapply sim_intro with (f := up n (Some (slide_xml n c)) f) (g := up n (Some create_slide_rels_xml) g) (n := n).
  - cbn [pkg]. apply slots_update; [apply other_types|]. apply slots_update; [apply other_rels|]. apply slots_update; [apply other_pres|].
    apply slots_add_r, slots_add_x, S.
  - reflexivity.
  - unfold good, up. split; intros j Hj.
    + destruct (Nat.eqb_spec j n); [discriminate|]. apply G1. lia.
    + replace (Nat.eqb j n) with false by (symmetry; apply Nat.eqb_neq; lia). apply G2. lia.
  - cbn [pkg]. rewrite !update_lookup by discriminate. unfold add_part. rewrite !lookup_insert_ne by discriminate. exact T1.
  - cbn [pkg]. rewrite !update_lookup by discriminate. unfold add_part. rewrite !lookup_insert_ne by discriminate. exact T2.
  - rewrite (slides_view e f g S). unfold view, n. rewrite seq_app, map_app. cbn [seq map]. f_equal.
    + apply map_ext_in. intros j Hj. apply in_seq in Hj. unfold hslide, up.
      now replace (Nat.eqb j (slide_count e + 1)) with false by (symmetry; apply Nat.eqb_neq; lia).
    + unfold hslide, up. replace (1 + slide_count e) with (slide_count e + 1) by lia. now rewrite Nat.eqb_refl.
Qed.

Lemma sim_same e : numbered e -> sim (NotFound, e) (NotFound, slides_of e).
Proof. intros H. split; [reflexivity|]. split; [reflexivity|exact H]. Qed.

Lemma update_sim i c e : numbered e -> sim (update_slide content slide_xml i c e) (step (UpdateSlide content i c) (slides_of e)).
Proof.
  intros H. pose proof H as H'. apply numbered_slots in H. destruct H as (f & g & S & [G1 G2] & T1 & T2).
  cbn [list_step]. unfold update_slide. unfold slides_of at 1. rewrite nth_map_seq.
  destruct (Nat.leb_spec (slide_count e) i) as [L|L]; [replace (Nat.ltb i (slide_count e)) with false by (symmetry; apply Nat.ltb_ge; lia); now apply sim_same|].
  replace (Nat.ltb i (slide_count e)) with true by (symmetry; now apply Nat.ltb_lt).
  eapply sim_intro with (f := up (i + 1) (Some (slide_xml (i + 1) c)) f) (g := g) (n := slide_count e).
  - apply slots_add_x, S.
  - reflexivity.
  - unfold good, up. split; intros j Hj.
    + destruct (Nat.eqb_spec j (i + 1)); [discriminate|]. now apply G1.
    + replace (Nat.eqb j (i + 1)) with false by (symmetry; apply Nat.eqb_neq; lia). now apply G2.
  - cbn [pkg]. unfold add_part. now rewrite lookup_insert_ne by discriminate.
  - cbn [pkg]. unfold add_part. now rewrite lookup_insert_ne by discriminate.
  - rewrite (slides_view e f g S). unfold view.
    set (h1 := fun j => if Nat.leb j i then hslide f g j else hslide f g (j + 1)).
    rewrite <- (delete_at_map (hslide f g) h1) by (assumption || (intros j Hj; unfold h1; nat_cases)).
    replace (slide_count e) with (slide_count e - 1 + 1) at 1 by lia.
    apply insert_at_map; [lia| | |].
    + intros j Hj. unfold h1, hslide, up. nat_cases.
    + unfold hslide, up. rewrite Nat.eqb_refl. destruct S as [_ B]. unfold nth_slide. cbn [snd].
      change (pkg e !! _) with (rs (pkg e) (i + 1)). now rewrite B.
    + intros j Hj. unfold h1, hslide, up. nat_cases. all: replace (j - 1 + 1) with j by lia; reflexivity.
Qed.

Lemma remove_sim i e : numbered e -> sim (remove_slide lossy i e) (step (RemoveSlide content i) (slides_of e)).
Proof.
  intros H. pose proof H as H'. apply numbered_slots in H. destruct H as (f & g & S & [G1 G2] & T1 & T2).
  cbn [list_step]. unfold remove_slide. unfold slides_of at 1. rewrite nth_map_seq.
  destruct (Nat.leb_spec (slide_count e) i) as [L|L]; [replace (Nat.ltb i (slide_count e)) with false by (symmetry; apply Nat.ltb_ge; lia); now apply sim_same|].
  replace (Nat.ltb i (slide_count e)) with true by (symmetry; now apply Nat.ltb_lt).
  cbn [remove_part snd]. set (n := slide_count e) in *.
  set (p1 := delete (slide_rels_path (i + 1)) (delete (slide_path (i + 1)) (pkg e))).
  assert (S1 : slots p1 (up (i + 1) None f) (up (i + 1) None g)) by (apply slots_del_r, slots_del_x, S).
  destruct (fold_slots (fun i => i) (fun i => i - 1) (seq (i + 1 + 1) (n - (i + 1))) p1 _ _ (proj1 S1) (proj2 S1)) as (A & B & C).
  set (p2 := fold_left _ _ p1) in *.
  assert (Z : forall h, up (i + 1) None h (i + 1) = None) by (intros h; unfold up; now rewrite Nat.eqb_refl).
  set (sh := fun (h : nat -> option string) j => if Nat.leb j i then h j else if Nat.leb j (n - 1) then h (j + 1) else if Nat.eqb j n then None else h j).
  assert (Q : forall h j, fold_left (fun f i => mv i (i - 1) f) (seq (i + 1 + 1) (n - (i + 1))) (up (i + 1) None h) j = sh h j).
  { intros h j. rewrite fold_down' by apply Z. unfold sh, up. nat_cases. }
  eapply sim_intro with (f := sh f) (g := sh g) (n := n - 1).
  - cbn [pkg]. apply slots_rebuild. split; intros j; [rewrite A|rewrite B]; apply Q.
  - reflexivity.
  - unfold good, sh. split; intros j Hj.
    + nat_cases; apply G1; lia.
    + nat_cases; try (split; reflexivity). apply G2. lia.
  - cbn [pkg]. rewrite rebuild_lookup by apply not_index_temp. rewrite C by (intros; discriminate).
    unfold p1. now rewrite !lookup_delete_ne by discriminate.
  - cbn [pkg]. rewrite rebuild_lookup by apply not_index_temp. rewrite C by (intros; discriminate).
    unfold p1. now rewrite !lookup_delete_ne by discriminate.
  - rewrite (slides_view e f g S). fold n. unfold view. apply delete_at_map; [exact L| |].
    + intros j Hj. unfold hslide, sh. nat_cases.
    + intros j Hj. unfold hslide, sh. nat_cases.
Qed.

Lemma shift_up_slots k n p f g : k <= n + 1 -> slots p f g -> f (n + 1) = None -> g (n + 1) = None ->
  let sh := fun (h : nat -> option string) j => if Nat.ltb j k then h j else if Nat.eqb j k then None else if Nat.leb j (n + 1) then h (j - 1) else h j in
  slots (shift_up k n p) (sh f) (sh g) /\
  (forall q, (forall i, q <> slide_path i) -> (forall i, q <> slide_rels_path i) -> shift_up k n p !! q = p !! q).
Proof.
  intros L S F G sh. unfold shift_up.
  destruct (fold_slots (fun i => i - 1) (fun i => i) (rev (seq (k + 1) (n + 1 - k))) p _ _ (proj1 S) (proj2 S)) as (A & B & C).
  split; [|exact C].
  assert (Q : forall h j, h (n + 1) = None -> fold_left (fun f i => mv (i - 1) i f) (rev (seq (k + 1) (n + 1 - k))) h j = sh h j).
  { intros h j Hn. rewrite fold_up by (now replace (k + (n + 1 - k)) with (n + 1) by lia).
    unfold sh. replace (k + (n + 1 - k)) with (n + 1) by lia. reflexivity. }
  split; intros j; [rewrite A|rewrite B]; now apply Q.
Qed.

(** Common part of insert and duplicate. *)
Lemma put_sim o i x r e f g : numbered e -> slots (pkg e) f g -> good f g (slide_count e) -> i <= slide_count e ->
  let p := add_part (slide_rels_path (i + 1)) r (add_part (slide_path (i + 1)) x (shift_up (i + 1) (slide_count e) (pkg e))) in
  let e' := Editor (rebuild lossy (slide_count e + 1) p) (slide_count e + 1) in
  sim (o, e') (o, insert_at i (x, Some r) (slides_of e)).
Proof.
  intros H S [G1 G2] L p e'. apply numbered_slots in H. destruct H as (_ & _ & _ & _ & T1 & T2).
  set (n := slide_count e) in *.
  destruct (shift_up_slots (i + 1) n (pkg e) f g) as [S1 C]; [lia|exact S|now apply G2; lia|now apply G2; lia|].
  cbv zeta in S1.
  set (sh := fun (h : nat -> option string) j => if Nat.ltb j (i + 1) then h j else if Nat.eqb j (i + 1) then None else if Nat.leb j (n + 1) then h (j - 1) else h j).
  change (slots (shift_up (i + 1) n (pkg e)) (sh f) (sh g)) in S1.
  eapply sim_intro with (f := up (i + 1) (Some x) (sh f)) (g := up (i + 1) (Some r) (sh g)) (n := n + 1).
  - cbn [pkg]. apply slots_rebuild. apply slots_add_r, slots_add_x, S1.
  - reflexivity.
  - unfold good, up, sh. split; intros j Hj.
    + nat_cases; try discriminate; apply G1; lia.
    + nat_cases. all: try (apply G2; lia).
  - unfold e', p. cbn [pkg]. rewrite rebuild_lookup by apply not_index_temp. unfold add_part. rewrite !lookup_insert_ne by discriminate.
    rewrite C by (intros; discriminate). exact T1.
  - unfold e', p. cbn [pkg]. rewrite rebuild_lookup by apply not_index_temp. unfold add_part. rewrite !lookup_insert_ne by discriminate.
    rewrite C by (intros; discriminate). exact T2.
  - rewrite (slides_view e f g S). fold n. unfold view. apply insert_at_map; [exact L| | |].
    + intros j Hj. unfold hslide, up, sh. nat_cases.
    + unfold hslide, up. now rewrite Nat.eqb_refl.
    + intros j Hj. unfold hslide, up, sh. nat_cases.
Qed.

Lemma insert_sim i c e : numbered e -> sim (insert_slide content slide_xml lossy i c e) (step (InsertSlide content i c) (slides_of e)).
Proof.
  intros H. pose proof H as H'. apply numbered_slots in H'. destruct H' as (f & g & S & G & _).
  cbn [list_step]. rewrite slides_length. unfold insert_slide.
  destruct (Nat.ltb_spec (slide_count e) i) as [L|L].
  - replace (Nat.leb i (slide_count e)) with false by (symmetry; apply Nat.leb_gt; lia). now apply sim_same.
  - replace (Nat.leb i (slide_count e)) with true by (symmetry; now apply Nat.leb_le).
    now apply (put_sim (Ok i) i (slide_xml (i + 1) c) create_slide_rels_xml e f g).
Qed.

Lemma duplicate_sim i e : numbered e -> sim (duplicate_slide lossy i e) (step (DuplicateSlide content i) (slides_of e)).
Proof.
  intros H. pose proof H as H'. apply numbered_slots in H'. destruct H' as (f & g & S & G & _).
  cbn [list_step]. unfold duplicate_slide. unfold slides_of at 1. rewrite nth_map_seq.
  destruct (Nat.leb_spec (slide_count e) i) as [L|L]; [replace (Nat.ltb i (slide_count e)) with false by (symmetry; apply Nat.ltb_ge; lia); now apply sim_same|].
  replace (Nat.ltb i (slide_count e)) with true by (symmetry; now apply Nat.ltb_lt).
  destruct (get_part (pkg e) (slide_path (i + 1))) as [x|] eqn:E.
  2:{ exfalso. destruct G as [G1 _], S as [A _]. apply (G1 (i + 1)); [lia|]. rewrite <- A. exact E. }
  unfold copy_of, nth_slide. cbn [fst snd]. change (pkg e !! ("ppt/slides/slide" ++ decn (i + 1) ++ ".xml")) with (get_part (pkg e) (slide_path (i + 1))).
  rewrite E. replace (i + 2) with (i + 1 + 1) by lia.
  apply (put_sim (Ok (i + 1)) (i + 1) x _ e f g); [exact H|exact S|exact G|lia].
Qed.

Lemma reorder_sim a b e : numbered e -> sim (reorder_slide lossy a b e) (step (ReorderSlide content a b) (slides_of e)).
Proof.
  intros H. pose proof H as H'. apply numbered_slots in H. destruct H as (f & g & S & [G1 G2] & T1 & T2).
  cbn [list_step]. unfold reorder_slide. unfold slides_of at 1 2. rewrite !nth_map_seq.
  set (n := slide_count e) in *.
  destruct (Nat.leb_spec n a) as [L|L]; [replace (Nat.ltb a n) with false by (symmetry; apply Nat.ltb_ge; lia); now apply sim_same|].
  replace (Nat.ltb a n) with true by (symmetry; now apply Nat.ltb_lt). cbn [orb].
  destruct (Nat.leb_spec n b) as [L2|L2]; [replace (Nat.ltb b n) with false by (symmetry; apply Nat.ltb_ge; lia); now apply sim_same|].
  replace (Nat.ltb b n) with true by (symmetry; now apply Nat.ltb_lt).
  assert (Hs : nth_slide (pkg e) (a + 1) = hslide f g (a + 1)).
  { destruct S as [A B]. unfold nth_slide, hslide. rewrite <- A, <- B. reflexivity. }
  rewrite Hs, (slides_view e f g S). fold n. unfold view.
  set (h1 := fun j => if Nat.leb j a then hslide f g j else hslide f g (j + 1)).
  rewrite <- (delete_at_map (hslide f g) h1) by (assumption || (intros j Hj; unfold h1; nat_cases)).
  destruct (Nat.eqb_spec a b) as [<-|N].
  { eapply sim_intro with (f := f) (g := g) (n := n); [exact S|reflexivity|now split|exact T1|exact T2|].
    unfold view. replace n with (n - 1 + 1) at 1 by lia. apply insert_at_map; [lia| |reflexivity|].
    - intros j Hj. unfold h1. nat_cases.
    - intros j Hj. unfold h1. nat_cases. }
  (* after moving out *)
  set (p1 := move_part (slide_rels_path (a + 1)) temp_rels_path (move_part (slide_path (a + 1)) temp_slide_path (pkg e))).
  assert (S1 : slots p1 (up (a + 1) None f) (up (a + 1) None g)).
  { destruct S as [A B]. unfold p1. split; intros j; [unfold xs|unfold rs]; rewrite !move_lookup; unfold up.
    - replace (String.eqb (slide_path j) temp_rels_path) with false by reflexivity.
      replace (String.eqb (slide_path j) (slide_rels_path (a + 1))) with false by reflexivity.
      replace (String.eqb (slide_path j) temp_slide_path) with false by reflexivity.
      rewrite eqb_slide. destruct (Nat.eqb j (a + 1)); [reflexivity|apply A].
    - replace (String.eqb (slide_rels_path j) temp_rels_path) with false by reflexivity.
      replace (String.eqb (slide_rels_path j) temp_slide_path) with false by reflexivity.
      replace (String.eqb (slide_rels_path j) (slide_path (a + 1))) with false by reflexivity.
      rewrite eqb_rels. destruct (Nat.eqb j (a + 1)); [reflexivity|apply B]. }
  assert (X1 : p1 !! temp_slide_path = f (a + 1)).
  { destruct S as [A _]. unfold p1. rewrite move_lookup. cbn [String.eqb].
    replace (String.eqb temp_slide_path temp_rels_path) with false by reflexivity.
    replace (String.eqb temp_slide_path (slide_rels_path (a + 1))) with false by reflexivity.
    rewrite move_lookup, String.eqb_refl. rewrite <- A. unfold xs. destruct (pkg e !! slide_path (a + 1)); [reflexivity|].
    destruct (String.eqb _ _); [reflexivity|exact T1]. }
  assert (X2 : p1 !! temp_rels_path = g (a + 1)).
  { destruct S as [_ B]. unfold p1. rewrite move_lookup, String.eqb_refl.
    assert (W : forall q, q = slide_rels_path (a + 1) \/ q = temp_rels_path -> move_part (slide_path (a + 1)) temp_slide_path (pkg e) !! q = pkg e !! q).
    { intros q [->| ->]; rewrite move_lookup; reflexivity. }
    rewrite !W by auto. rewrite <- B. unfold rs. destruct (pkg e !! slide_rels_path (a + 1)); [reflexivity|].
    destruct (String.eqb _ _); [reflexivity|exact T2]. }
  set (sh := fun (h : nat -> option string) j =>
     if Nat.eqb j (b + 1) then None else
     if Nat.ltb a b then (if Nat.leb j a then h j else if Nat.leb j b then h (j + 1) else h j)
     else (if Nat.leb j b then h j else if Nat.leb j (a + 1) then h (j - 1) else h j)).
  match goal with |- sim (_, Editor (rebuild _ _ (move_part _ _ (move_part _ _ ?P))) _) _ => set (p2 := P) end.
  assert (S2 : slots p2 (sh f) (sh g) /\ p2 !! temp_slide_path = f (a + 1) /\ p2 !! temp_rels_path = g (a + 1)).
  { unfold p2. fold p1. destruct (Nat.ltb_spec a b) as [Lab|Lab].
    - destruct (fold_slots (fun i => i + 1) (fun i => i) (seq (a + 1) (b + 1 - (a + 1))) p1 _ _ (proj1 S1) (proj2 S1)) as (A & B & C).
      split; [|split; rewrite C by (intros; discriminate); assumption].
      split; intros j; [rewrite A|rewrite B]; rewrite fold_down by (unfold up; now rewrite Nat.eqb_refl);
        unfold sh, up; nat_cases.
    - destruct (fold_slots (fun i => i) (fun i => i + 1) (rev (seq (b + 1) (a + 1 - (b + 1)))) p1 _ _ (proj1 S1) (proj2 S1)) as (A & B & C).
      split; [|split; rewrite C by (intros; discriminate); assumption].
      split; intros j; [rewrite A|rewrite B]; rewrite fold_up' by (unfold up; replace (b + 1 + (a + 1 - (b + 1))) with (a + 1) by lia; now rewrite Nat.eqb_refl);
        unfold sh, up; nat_cases. }
  clearbody p2. destruct S2 as ([A B] & Y1 & Y2).
  eapply sim_intro with (f := up (b + 1) (f (a + 1)) (sh f)) (g := up (b + 1) (g (a + 1)) (sh g)) (n := n).
  - cbn [pkg]. apply slots_rebuild. split; intros j; [unfold xs; rewrite !move_lookup|unfold rs; rewrite move_lookup]; unfold up.
    + replace (String.eqb (slide_path j) (slide_rels_path (b + 1))) with false by reflexivity.
      replace (String.eqb (slide_path j) temp_rels_path) with false by reflexivity.
      replace (String.eqb (slide_path j) temp_slide_path) with false by reflexivity.
      rewrite eqb_slide, Y1. destruct (Nat.eqb j (b + 1)); [|apply A].
      destruct (f (a + 1)); [reflexivity|]. change (String.eqb temp_slide_path (slide_path (b + 1))) with false. cbv iota.
      change (xs p2 (b + 1) = None). rewrite A. unfold sh. now rewrite Nat.eqb_refl.
    + assert (W : forall q, q <> temp_slide_path -> (forall i, q <> slide_path i) -> move_part temp_slide_path (slide_path (b + 1)) p2 !! q = p2 !! q).
      { intros q Q1 Q2. rewrite move_lookup. rewrite !(proj2 (String.eqb_neq _ _)) by auto. reflexivity. }
      rewrite !W by (intros; discriminate). rewrite eqb_rels, Y2.
      change (String.eqb temp_rels_path (slide_rels_path (b + 1))) with false. change (String.eqb (slide_rels_path j) temp_rels_path) with false. cbv iota.
      destruct (Nat.eqb j (b + 1)); [|apply B]. destruct (g (a + 1)); [reflexivity|].
      change (rs p2 (b + 1) = None). rewrite B. unfold sh. now rewrite Nat.eqb_refl.
  - reflexivity.
  - unfold good, up, sh. split; intros j Hj.
    + nat_cases; apply G1; lia.
    + nat_cases; apply G2; lia.
  - cbn [pkg]. rewrite rebuild_lookup by apply not_index_temp. rewrite !move_lookup.
    change (String.eqb temp_slide_path (slide_rels_path (b + 1))) with false.
    change (String.eqb temp_slide_path temp_rels_path) with false.
    change (String.eqb temp_slide_path (slide_path (b + 1))) with false. now rewrite String.eqb_refl.
  - cbn [pkg]. rewrite rebuild_lookup by apply not_index_temp. rewrite move_lookup.
    change (String.eqb temp_rels_path (slide_rels_path (b + 1))) with false. now rewrite String.eqb_refl.
  - unfold view. replace n with (n - 1 + 1) at 1 by lia. apply insert_at_map; [lia| | |].
    + intros j Hj. unfold h1, hslide, up, sh. nat_cases.
    + unfold hslide, up. now rewrite Nat.eqb_refl.
    + intros j Hj. unfold h1, hslide, up, sh. nat_cases. all: replace (j - 1 + 1) with j by lia; reflexivity.
Qed.

Lemma apply_sim o e : numbered e -> sim (apply content slide_xml lossy o e) (step o (slides_of e)).
Proof.
  destruct o; [apply add_sim|apply update_sim|apply remove_sim|apply duplicate_sim|apply insert_sim|apply reorder_sim].
Qed.

Lemma session_sim os : forall e, numbered e ->
  let r := session content slide_xml lossy os e in
  let s := list_session content slide_xml create_slide_rels_xml os (slides_of e) in
  fst r = fst s /\ slides_of (snd r) = snd s /\ numbered (snd r).
Proof.
  induction os as [|o os IH]; intros e H; cbn [session list_session]; [split; [reflexivity|split; [reflexivity|exact H]]|].
  destruct (apply_sim o e H) as (A & B & C).
  destruct (apply content slide_xml lossy o e) as [r e1]. destruct (step o (slides_of e)) as [r' l1]. cbn [fst snd] in *. subst r' l1.
  specialize (IH e1 C). cbv zeta in IH. destruct (session content slide_xml lossy os e1) as [rs1 e2].
  destruct (list_session _ _ _ os (slides_of e1)) as [rs2 l2]. cbn [fst snd] in *. destruct IH as (D & E & F).
  split; [congruence|]. now split.
Qed.
End Editor.
