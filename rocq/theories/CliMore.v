(** Proofs about the command-line tool: the report for people, paths, formats and
    merging. *)
From Coq Require Import String Ascii List Bool Arith NArith Lia.
From Verif Require ShapeModel RepairText.
From Verif Require Import Str Num XmlSpec ValidModel PackageModel DeckModel SlideModel ImportModel ReaderModel ReaderSpec SlideBackSpec DocPropsProofs ImportSpec ImportProofs ImportDeck ImportAgain ImportRefute McpModel McpSpec McpProofs McpRefute CliModel CliSpec CliProofs.
Import ListNotations.
Open Scope nat_scope.
Open Scope string_scope.
Local Arguments String.append _ _ : simpl nomatch.

(** ** Validation *)
Lemma none_bad r : how_many Error r = 0 <-> forall i, In i r -> f_severity i = Warning.
Proof.
  induction r as [|i r IH]; cbn [how_many]; [split; [intros _ i []|reflexivity]|]. destruct (f_severity i) eqn:E.
  - rewrite IH. split; [intros H j [<-|J]; auto|intros H j J; apply H; now right].
  - split; [discriminate|]. intros H. specialize (H i (or_introl eq_refl)). congruence.
Qed.
Lemma exit_status file json r : (snd (validate_command file json (Some r)) = 0 <-> forall i, In i r -> f_severity i = Warning) /\ (snd (validate_command file json (Some r)) <= 1).
Proof.
  rewrite <- none_bad. unfold validate_command. destruct (counts r) as (_ & _ & ->). destruct (Nat.eqb (how_many Error r) 0) eqn:E.
  - apply Nat.eqb_eq in E. destruct json; cbn; lia.
  - apply Nat.eqb_neq in E. cbn. lia.
Qed.
Lemma json_printed file r : fst (validate_command file true (Some r)) = print_json file r.
Proof. unfold validate_command. now destruct (report_is_valid r). Qed.
Lemma json_status file r : exists v, read_json (fst (validate_command file true (Some r))) = Some v /\ v = report_json file r.
Proof. exists (report_json file r). rewrite json_printed. now split; [apply json_back|]. Qed.
Lemma of_lines_app l m : of_lines (l ++ m) = of_lines l ++ of_lines m.
Proof. induction l as [|x l IH]; [reflexivity|]. cbn [List.app of_lines fold_right]. fold (of_lines (l ++ m)). fold (of_lines l). now rewrite IH, !sapp_assoc. Qed.
Lemma human_lines file r : fst (validate_command file false (Some r)) = of_lines (report_lines file r).
Proof.
  unfold validate_command, print_human, summary_line, report_lines, report_head. destruct (counts r) as (-> & -> & ->).
  assert (F : sconcat (map human_finding r) = of_lines (flat_map line_for r)).
  { clear. induction r as [|i r IH]; [reflexivity|]. cbn [map flat_map]. rewrite of_lines_app, <- IH. change (sconcat (human_finding i :: map human_finding r)) with (human_finding i ++ sconcat (map human_finding r)).
    f_equal. unfold human_finding, line_for. cbn [of_lines fold_right]. replace (named (f_category i)) with (category_name (f_category i)) by (now destruct (f_category i)). rewrite !sapp_assoc. now rewrite sapp_nil_r. }
  rewrite F. destruct r as [|i r].
  - rewrite of_lines_app. cbn [fst of_lines fold_right]. now rewrite !sapp_assoc.
  - generalize (flat_map line_for (i :: r)). intros ls. rewrite !of_lines_app. destruct (Nat.eqb (how_many Error (i :: r)) 0); cbn [fst of_lines fold_right]; rewrite !sapp_assoc; cbn [String.append]; reflexivity.
Qed.
Lemma without_all c s : without c s <-> sforall (fun x => negb (Ascii.eqb x c)) s = true.
Proof.
  split.
  - induction s as [|x s IH]; intros H; [reflexivity|]. cbn [sforall]. destruct (Ascii.eqb x c) eqn:E.
    + apply Ascii.eqb_eq in E as ->. now destruct (H "" s).
    + apply IH. intros a b ->. now apply (H (String x a) b).
  - intros H a b ->. rewrite sforall_app in H. cbn [sforall] in H. now rewrite Ascii.eqb_refl, andb_false_r in H.
Qed.
Lemma split_app c s t : split_char c (s ++ String c t) = (split_char c s ++ split_char c t)%list.
Proof. apply RepairText.split_char_app. Qed.
Lemma split_none c s : without c s -> split_char c s = [s].
Proof.
  intros H. apply without_all in H. induction s as [|x s IH]; [reflexivity|]. cbn [sforall] in H. apply andb_true_iff in H as [A B]. cbn [split_char].
  apply negb_true_iff in A. now rewrite A, (IH B).
Qed.
Lemma lines_read l : Forall (without LF) l -> split_char LF (of_lines l) = (l ++ [""])%list.
Proof.
  induction 1 as [|x l H _ IH]; [reflexivity|]. cbn [of_lines fold_right]. fold (of_lines l). change (x ++ nl ++ of_lines l) with (x ++ String LF (of_lines l)). now rewrite split_app, (split_none _ _ H), IH.
Qed.
Lemma without_app c a b : without c a -> without c b -> without c (a ++ b).
Proof. rewrite !without_all, sforall_app. now intros -> ->. Qed.
Lemma without_dec n : without LF (decn n).
Proof. apply without_all. eapply sforall_weaken; [|apply decn_digits]. intros x. now destruct x as [[] [] [] [] [] [] [] []]. Qed.
Ltac wo := match goal with |- without _ (_ ++ _) => apply without_app; wo | |- _ => try apply without_dec; try (apply without_all; reflexivity); try assumption end.
Lemma human_read file r : without LF file -> one_liners r -> split_char LF (fst (validate_command file false (Some r))) = (report_lines file r ++ [""])%list.
Proof.
  intros A B. rewrite human_lines. apply lines_read. unfold report_lines, report_head. apply Forall_app. split; [repeat constructor; wo|]. apply Forall_app. split; [|destruct (Nat.eqb _ 0); repeat constructor; wo].
  assert (F : Forall (without LF) (flat_map line_for r)).
  { clear A. induction B as [|i r (B1 & B2) _ IH]; [constructor|]. cbn [flat_map]. apply Forall_app. split; [|exact IH]. unfold line_for. repeat constructor; wo.
    - destruct (f_severity i); wo.
    - destruct (f_category i); wo.
    - destruct (f_path i); [now apply B2|wo]. }
  destruct r as [|i r]; [repeat constructor; wo|]. apply Forall_app. split; [exact F|]. repeat constructor; [wo|]. destruct (Nat.eqb _ 0); wo.
Qed.

(** ** Where the file goes *)
Lemma split_join c s : sjoin (s1 c) (split_char c s) = s.
Proof.
  induction s as [|x s IH]; [reflexivity|]. cbn [split_char]. destruct (split_char c s) as [|y l] eqn:E; [now destruct s as [|z s]; cbn in E; [|destruct (Ascii.eqb z c); [|destruct (split_char c s)]]|].
  destruct (Ascii.eqb x c) eqn:X.
  - apply Ascii.eqb_eq in X as ->. change (sjoin (s1 c) ("" :: y :: l)) with ("" ++ s1 c ++ sjoin (s1 c) (y :: l)). now rewrite IH.
  - rewrite <- IH. now destruct l.
Qed.
Lemma join_last c x l y : exists a, sjoin (s1 c) (x :: l ++ [y])%list = a ++ s1 c ++ y.
Proof.
  revert x. induction l as [|z l IH]; intros x; [now exists x|]. destruct (IH z) as (a & A). exists (x ++ s1 c ++ a).
  change (sjoin (s1 c) (x :: (z :: l) ++ [y])%list) with (x ++ s1 c ++ sjoin (s1 c) (z :: l ++ [y])%list). now rewrite A, !sapp_assoc.
Qed.
Lemma parent_of d n : directory_ok d -> file_name_ok n -> path_last (d ++ "/" ++ n) = Some (d, n).
Proof.
  intros (D & E) (N1 & N2 & N3 & N4). unfold path_last. change (d ++ "/" ++ n) with (d ++ String "/" n). rewrite split_app, (split_none _ _ N2).
  pose proof (split_join "/" d) as J. destruct (split_char "/" d) as [|root rest] eqn:S; [now cbn in J; subst d|]. cbn [List.app]. rewrite rev_app_distr. cbn [rev List.app drop_passed].
  assert (P : passed_over n = false). { unfold passed_over. apply orb_false_iff. split; now apply String.eqb_neq. } rewrite P. apply String.eqb_neq in N4. rewrite N4.
  f_equal. f_equal. unfold path_parent. assert (Q : drop_passed (rev rest) = rev rest).
  { destruct rest as [|y l _] using rev_ind; [reflexivity|]. rewrite rev_app_distr. cbn [rev List.app drop_passed]. destruct (join_last "/" root l y) as (a & A). rewrite A in J.
    destruct (passed_over y) eqn:Y; [|reflexivity]. exfalso. unfold passed_over in Y. apply orb_true_iff in Y as [Y|Y]; apply String.eqb_eq in Y as ->; destruct (E a) as [E1 E2]; [apply E1|apply E2]; now rewrite <- J. }
  rewrite Q. destruct root as [|c root]; [|now rewrite rev_involutive]. destruct rest as [|y l]; [now cbn in J; subst d|]. destruct (rev (y :: l)) as [|z k] eqn:R; [|now rewrite <- R, rev_involutive]. apply (f_equal (@length _)) in R. rewrite rev_length in R. discriminate.
Qed.
Lemma bare_name n : file_name_ok n -> path_last n = Some ("", n).
Proof.
  intros (N1 & N2 & N3 & N4). unfold path_last. rewrite (split_none _ _ N2). cbn [rev drop_passed]. apply String.eqb_neq in N1, N3, N4. now rewrite N1, N3, N4.
Qed.
Lemma last_dot_none s : last_dot s = None -> without "." s.
Proof.
  induction s as [|c s IH]; intros H; [now apply without_all|]. cbn [last_dot] in H. destruct (last_dot s); [discriminate|]. destruct (Ascii.eqb c ".") eqn:E; [discriminate|].
  apply without_all. cbn [sforall]. rewrite E. apply without_all. now apply IH.
Qed.
Lemma last_dot_end a b : without "." b -> last_dot (a ++ "." ++ b) = Some a.
Proof.
  intros H. assert (B : last_dot b = None). { apply without_all in H. induction b as [|c b IH]; [reflexivity|]. cbn [sforall] in H. apply andb_true_iff in H as [H1 H2]. cbn [last_dot]. rewrite (IH H2). now apply negb_true_iff in H1 as ->. }
  induction a as [|c a IH]; [cbn; now rewrite B|]. cbn [String.append last_dot]. cbn [String.append] in IH. now rewrite IH.
Qed.
Lemma last_dot_some s a : last_dot s = Some a -> exists b, s = a ++ "." ++ b /\ without "." b.
Proof.
  revert a. induction s as [|c s IH]; intros a H; [discriminate|]. cbn [last_dot] in H. destruct (last_dot s) as [t|] eqn:E.
  - injection H as <-. destruct (IH t eq_refl) as (b & -> & B). now exists b.
  - destruct (Ascii.eqb c ".") eqn:C; [|discriminate]. injection H as <-. apply Ascii.eqb_eq in C as ->. exists s. split; [reflexivity|]. now apply last_dot_none.
Qed.
Lemma stem_is n s : stem_of n s -> file_stem n = s.
Proof.
  unfold file_stem. intros [(e & -> & E & S)|(<- & H)].
  - rewrite (last_dot_end _ _ E). destruct s; [congruence|reflexivity].
  - destruct (last_dot n) as [t|] eqn:L; [|reflexivity]. apply last_dot_some in L as (b & E & _). now rewrite (H _ _ E).
Qed.
Lemma stem_exists n : exists s, stem_of n s.
Proof.
  destruct (last_dot n) as [t|] eqn:L.
  - apply last_dot_some in L as (b & E & B). destruct t as [|c t].
    + exists n. right. split; [reflexivity|]. intros a x F. destruct a as [|y a]; [reflexivity|]. exfalso. rewrite E in F. cbn in F. injection F as _ F. apply (B a x). exact F.
    + exists (String c t). left. exists b. repeat split; [exact E|exact B|discriminate].
  - exists n. right. split; [reflexivity|]. intros a b E. exfalso. exact (last_dot_none n L a b E).
Qed.
Lemma output_in d n s : directory_ok d -> file_name_ok n -> stem_of n s -> default_output (d ++ "/" ++ n) = d ++ "/" ++ s ++ ".pptx".
Proof. intros D N S. unfold default_output. rewrite (parent_of d n D N), (stem_is n s S). destruct D as (D & _). destruct d; [congruence|reflexivity]. Qed.
Lemma output_here n s : file_name_ok n -> stem_of n s -> default_output n = s ++ ".pptx".
Proof. intros N S. unfold default_output. rewrite (bare_name n N). now rewrite (stem_is n s S). Qed.

(** ** Which format *)
Lemma lower_same x y : ShapeModel.lower x = y -> same_letter x y.
Proof. intros <-. destruct x as [[] [] [] [] [] [] [] []]; try (left; reflexivity); right; repeat (left; reflexivity) || (vm_compute; repeat first [left; reflexivity|right]). Qed.
Definition no_capital (c : ascii) : bool := negb (existsb (fun p => Ascii.eqb c (fst p)) capitals).
Lemma same_lower x y : no_capital y = true -> same_letter x y -> ShapeModel.lower x = y.
Proof.
  intros N [->|I].
  - destruct y as [[] [] [] [] [] [] [] []]; (reflexivity || discriminate N).
  - clear N. unfold capitals in I. cbn in I. repeat destruct I as [I|I]; try (injection I as <- <-; reflexivity). destruct I.
Qed.
Lemma lowercase_app a b : ShapeModel.lowercase (a ++ b) = ShapeModel.lowercase a ++ ShapeModel.lowercase b.
Proof. apply smap_app. Qed.
Lemma lowercase_same b : forall e, sforall no_capital e = true -> (ShapeModel.lowercase b = e <-> Forall2 same_letter (list_ascii_of_string b) (list_ascii_of_string e)).
Proof.
  induction b as [|x b IH]; intros [|y e] N; cbn [list_ascii_of_string]; try (split; intros H; [discriminate H|inversion H]); [split; [constructor|reflexivity]|].
  cbn [sforall] in N. apply andb_true_iff in N as [N1 N2]. change (ShapeModel.lowercase (String x b)) with (String (ShapeModel.lower x) (ShapeModel.lowercase b)). split.
  - intros H. injection H as H1 H2. constructor; [now apply lower_same|now apply IH].
  - intros H. inversion H as [|? ? ? ? A B]; subst. rewrite (same_lower x y N1 A). f_equal. now apply IH.
Qed.
Lemma lowercase_split s : forall a e, ShapeModel.lowercase s = a ++ e -> exists x b, s = x ++ b /\ ShapeModel.lowercase b = e.
Proof.
  induction s as [|c s IH]; intros a e H.
  - symmetry in H. apply sapp_nil_iff in H as [-> ->]. now exists "", "".
  - destruct a as [|y a]; [now exists "", (String c s)|]. change (String (ShapeModel.lower c) (ShapeModel.lowercase s) = String y (a ++ e)) in H. injection H as _ H. destruct (IH _ _ H) as (x & b & -> & B). now exists (String c x), b.
Qed.
Lemma ends_lower e s : sforall no_capital e = true -> (ends_with e (ShapeModel.lowercase s) = true <-> ends_in e s).
Proof.
  intros N. rewrite ends_with_iff. unfold ends_in. split.
  - intros (t & T). destruct (lowercase_split _ _ _ T) as (x & b & -> & B). exists x, b. split; [reflexivity|]. now apply lowercase_same.
  - intros (a & b & -> & F). apply lowercase_same in F; [|exact N]. exists (ShapeModel.lowercase a). now rewrite lowercase_app, F.
Qed.
Lemma format_asked f out : export_choice (Some f) out = f.
Proof. reflexivity. Qed.
Lemma format_found out : (ends_in ".pdf" out -> export_choice None out = Pdf) /\ (ends_in ".html" out -> export_choice None out = Html) /\ (ends_in ".png" out -> export_choice None out = Png)
  /\ (~ ends_in ".pdf" out -> ~ ends_in ".html" out -> ~ ends_in ".png" out -> export_choice None out = Pdf).
Proof.
  unfold export_choice. rewrite <- !ends_lower by reflexivity. unfold ends_with. generalize (srev (ShapeModel.lowercase out)). intros t.
  change (srev ".pdf") with "fdp.". change (srev ".html") with "lmth.". change (srev ".png") with "gnp.". destruct t as [|c t]; [cbn; repeat split; congruence|].
  change (starts_with "fdp." (String c t)) with (Ascii.eqb "f" c && starts_with "dp." t). change (starts_with "lmth." (String c t)) with (Ascii.eqb "l" c && starts_with "mth." t).
  change (starts_with "gnp." (String c t)) with (Ascii.eqb "g" c && starts_with "np." t). generalize (starts_with "dp." t), (starts_with "mth." t), (starts_with "np." t). intros x y z.
  assert (E : (Ascii.eqb "f" c = true -> Ascii.eqb "l" c = false /\ Ascii.eqb "g" c = false) /\ (Ascii.eqb "l" c = true -> Ascii.eqb "g" c = false))
    by (split; intros H; apply Ascii.eqb_eq in H as <-; repeat split).
  destruct E as [E1 E2]. revert E1 E2. destruct (Ascii.eqb "f" c), (Ascii.eqb "l" c), (Ascii.eqb "g" c), x, y, z; cbn [andb]; intros E1 E2; repeat split; intros; try congruence;
    try (destruct (E1 eq_refl); congruence); try (specialize (E2 eq_refl); congruence).
Qed.

(** ** Merging *)
Section MERGE.
  Variable (fit : string -> N -> N -> N) (load : string -> option (package * list string)).
  Lemma inputs_rest m l : merge_inputs fit load m l = merge_rest fit load m l.
  Proof. revert m. induction l as [|p l IH]; intros m; [reflexivity|]. cbn [merge_inputs merge_rest]. destruct (from_path fit load p); [apply IH|reflexivity]. Qed.
  Lemma merge_command_works X paths decks first slides : Forall2 (fun p d => saved_deck (load p) (fst d) (snd d)) paths decks -> slides = flat_map snd decks -> slides <> [] -> (N.of_nat (length slides) < u32_max)%N ->
    plain_title (x_now X) = true -> hd_error decks = Some first ->
    exists files, merge_command X fit load paths = Some files
      /\ forall is_dir keys, (forall n c, In (n, c) files -> is_dir n = false) -> keys_order (open_entries is_dir files) keys ->
         exists q, import_pptx fit (open_entries is_dir files) keys = Some q /\ p_title q = visible (fst first) /\ Forall2 kept_slide slides (p_slides q).
  Proof.
    intros F -> NE LT NW H. unfold merge_command. destruct F as [|p d ps ds Hd F]; [discriminate|]. cbn [hd_error] in H. injection H as ->.
    assert (PT : plain_title (fst first) = true) by (destruct Hd as (? & ? & ? & ? & _ & _ & _ & _ & _ & _ & _ & _ & ?); assumption).
    destruct (deck_loads fit load _ _ _ Hd) as (q & Q & S & T & Fq & I). rewrite Q. destruct (rest_merges fit load _ _ F q) as (r & R & R1 & R2 & l & R3 & R4 & R5). rewrite inputs_rest, R.
    assert (K : Forall2 (fits_in fit) (flat_map snd (first :: ds)) (p_slides r)) by (rewrite R3; cbn [flat_map]; now apply Forall2_app).
    assert (IM : Forall (imported fit) (p_slides r)) by (rewrite R3; now apply Forall_app).
    assert (LE : length (p_slides r) = length (flat_map snd (first :: ds))) by (clear -K; induction K; cbn; congruence).
    assert (NR : p_slides r <> []) by (destruct (p_slides r); [destruct (flat_map snd (first :: ds)); [congruence|discriminate]|discriminate]).
    unfold build. destruct (p_slides r) as [|v w] eqn:V; [congruence|]. rewrite <- V in *. clear NR V. rewrite R2, S, R1, T. eexists. split; [reflexivity|]. intros is_dir keys D KO.
    pose proof (imported_again fit X (DeckModel.Presentation (visible (fst first)) (p_slides r) no_settings) is_dir keys) as G. cbn [p_title p_slides p_settings] in G.
    destruct (G D KO) as (z & Z1 & _ & Z2 & Z3); [now rewrite LE|exact IM|]. exists z. split; [exact Z1|]. split; [rewrite (Z3 NW (plain_visible _ PT)); apply visible_idem|].
    rewrite Z2. clear -K. induction K as [|? ? ? ? [HK _] _ IH]; constructor; assumption.
  Qed.
  Lemma merge_command_fails X paths : (exists p, In p paths /\ from_path fit load p = None) -> merge_command X fit load paths = None.
  Proof.
    unfold merge_command. intros (p & I & E). destruct paths as [|x l]; [destruct I|].
    destruct I as [<-|I]; [now rewrite E|]. destruct (from_path fit load x); [|reflexivity]. rewrite inputs_rest, rest_fails; [reflexivity|now exists p].
  Qed.
End MERGE.
