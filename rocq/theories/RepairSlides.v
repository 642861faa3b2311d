(** Listing the slides that are not listed. *)
From Coq Require Import String Ascii List Bool Arith NArith Lia Permutation.
From stdpp Require Import base gmap strings.
From Verif Require Import Str Num ExportModel ResolveModel ValidModel ValidSpec ValidProofs PackageModel PackageProofs RepairModel RepairSpec RepairProofs RepairText.
Import ListNotations.
Open Scope nat_scope.
Open Scope string_scope.
Local Arguments String.append _ _ : simpl nomatch.

Notation PR := "ppt/_rels/presentation.xml.rels".
Notation PX := "ppt/presentation.xml".
Notation CT := "[Content_Types].xml".
Notation same := (fun s : string => s).

(** ** Reading back the new line *)
Lemma digits_but c k : is_digit c = false -> sforall (fun d => negb (Ascii.eqb c d)) (dec k) = true.
Proof.
  intros D. assert (H := dec_digits k). induction (dec k) as [|x s IH]; [reflexivity|]. cbn in *. apply andb_prop in H as [X H]. rewrite (IH H), andb_true_r.
  destruct (Ascii.eqb_spec c x); [subst; congruence|reflexivity].
Qed.
Lemma sforall_flip c s : sforall (fun d => negb (Ascii.eqb c d)) s = sforall (fun d => negb (Ascii.eqb d c)) s.
Proof. induction s as [|x s IH]; [reflexivity|]. cbn. now rewrite IH, Ascii.eqb_sym. Qed.
Lemma digits_not c k : is_digit c = false -> sforall (fun d => negb (Ascii.eqb d c)) (dec k) = true.
Proof. rewrite <- sforall_flip. apply digits_but. Qed.
Lemma absent_nil p : p <> "" -> absent p "".
Proof. intros N a b E. destruct a; cbn in E; [|discriminate]. destruct p; [congruence|discriminate]. Qed.
Lemma absent_char c p x : sforall (fun d => negb (Ascii.eqb c d)) x = true -> absent (String c p) x.
Proof. intros H. rewrite <- (sapp_nil_r x). apply absent_before; [exact H|]. now apply absent_nil. Qed.
Lemma absent_lit p s : split_once p s = None -> absent p s.
Proof. apply split_once_none. Qed.
Definition urlT := "http://schemas.openxmlformats.org/officeDocument/2006/relationships/slide".
Lemma new_type k t : extract_attribute (slide_relationship ("rId" ++ dec k) t) "Type" = Some slide_rel_type.
Proof.
  unfold extract_attribute, slide_relationship. change ("Type" ++ "=""") with "Type=""".
  replace ("  <Relationship Id=""" ++ ("rId" ++ dec k) ++ """ Type=""http://schemas.openxmlformats.org/officeDocument/2006/relationships/slide"" Target=""" ++ t ++ """/>")
    with (("  <Relationship Id=""rId" ++ dec k ++ """ ") ++ "Type=""" ++ (slide_rel_type ++ """" ++ (" Target=""" ++ t ++ """/>"))) by (rewrite !sapp_assoc; reflexivity).
  rewrite split_once_first; [|reflexivity|apply absent_char; rewrite !sforall_app, digits_but by reflexivity; reflexivity].
  change dq with """". rewrite unquoted_split; reflexivity.
Qed.
Lemma new_target k t : unquoted t -> extract_attribute (slide_relationship ("rId" ++ dec k) t) "Target" = Some t.
Proof.
  intros U. unfold extract_attribute, slide_relationship. change ("Target" ++ "=""") with "Target=""".
  replace ("  <Relationship Id=""" ++ ("rId" ++ dec k) ++ """ Type=""http://schemas.openxmlformats.org/officeDocument/2006/relationships/slide"" Target=""" ++ t ++ """/>")
    with ((("  <Relationship Id=""rId" ++ dec k ++ """") ++ (String " " ("Type=""" ++ slide_rel_type ++ """ "))) ++ "Target=""" ++ (t ++ """" ++ "/>")) by (rewrite !sapp_assoc; reflexivity).
  rewrite split_once_first; [|reflexivity|].
  - change dq with """". now rewrite unquoted_split.
  - apply absent_join; [|apply absent_lit; vm_compute; reflexivity|reflexivity]. apply absent_char. rewrite !sforall_app, digits_but by reflexivity. reflexivity.
Qed.
Lemma new_has_target k t : contains "Relationship" (slide_relationship ("rId" ++ dec k) t) = true /\ contains "Target=" (slide_relationship ("rId" ++ dec k) t) = true.
Proof.
  split; apply contains_iff; unfold slide_relationship.
  - exists "  <", (" Id=""" ++ ("rId" ++ dec k) ++ """ Type=""http://schemas.openxmlformats.org/officeDocument/2006/relationships/slide"" Target=""" ++ t ++ """/>"). reflexivity.
  - exists ("  <Relationship Id=""" ++ ("rId" ++ dec k) ++ """ Type=""http://schemas.openxmlformats.org/officeDocument/2006/relationships/slide"" "), ("""" ++ t ++ """/>"). rewrite !sapp_assoc. reflexivity.
Qed.
Lemma new_one_line k t : sforall (fun c => negb (Ascii.eqb c LF)) t = true -> all_lines (slide_relationship ("rId" ++ dec k) t) = [slide_relationship ("rId" ++ dec k) t].
Proof.
  intros F. apply all_lines_one.
  - unfold slide_relationship. rewrite !sforall_app, F, digits_not by reflexivity. reflexivity.
  - unfold slide_relationship. rewrite <- !sapp_assoc. unfold strip_cr. rewrite srev_sapp. reflexivity.
Qed.
Lemma new_no_close k t : sforall (fun c => negb (Ascii.eqb "<" c)) t = true -> absent "</Relationships>" (slide_relationship ("rId" ++ dec k) t ++ nl).
Proof.
  intros F. unfold slide_relationship.
  change (("  <Relationship Id=""" ++ ("rId" ++ dec k) ++ """ Type=""http://schemas.openxmlformats.org/officeDocument/2006/relationships/slide"" Target=""" ++ t ++ """/>") ++ nl)
    with (String " " (String " " (String "<" (("Relationship Id=""" ++ ("rId" ++ dec k) ++ """ Type=""http://schemas.openxmlformats.org/officeDocument/2006/relationships/slide"" Target=""" ++ t ++ """/>") ++ nl)))).
  apply absent_left; [|reflexivity]. apply absent_left; [|reflexivity]. apply absent_left; [|reflexivity]. apply absent_char. rewrite !sforall_app, F, digits_but by reflexivity. reflexivity.
Qed.
Lemma ends_xml s f : s = "ppt/slides/slide" ++ f -> ends_with ".xml" s = true -> exists g, f = g ++ ".xml".
Proof.
  intros -> E. unfold ends_with in E. rewrite srev_sapp in E. apply starts_with_iff in E. destruct E as (t & E). destruct (prefix_cases _ _ _ _ E) as [(u & X)|(u & X & N & T)].
  - exists (srev u). rewrite <- (srev_involutive f), X, srev_sapp. now rewrite srev_involutive.
  - exfalso. cbn in T. assert (H : match u with String c _ => c = "e"%char | "" => True end) by (destruct u as [|c u]; [exact I|cbn in T; now injection T]).
    destruct (srev f) as [|a [|b [|c [|d x]]]]; cbn in X.
    + subst u. discriminate.
    + injection X as _ X. subst u. discriminate.
    + injection X as _ _ X. subst u. discriminate.
    + injection X as _ _ _ X. subst u. discriminate.
    + injection X as _ _ _ _ X. destruct x; cbn in X; [congruence|discriminate].
Qed.
Lemma new_quoted k g : unquoted g -> quoted "Id=""" "rId" (slide_relationship ("rId" ++ dec k) ("slides/slide" ++ g ++ ".xml") ++ nl) ["rId" ++ dec k].
Proof.
  intros U. unfold slide_relationship.
  replace (("  <Relationship Id=""" ++ ("rId" ++ dec k) ++ """ Type=""http://schemas.openxmlformats.org/officeDocument/2006/relationships/slide"" Target=""" ++ ("slides/slide" ++ g ++ ".xml") ++ """/>") ++ nl)
    with ("  <Relationship " ++ "Id=""" ++ ("rId" ++ dec k) ++ """" ++ ((" Type=""http://schemas.openxmlformats.org/officeDocument/2006/relationships/slide"" Target=""" ++ ("slides/slide" ++ g)) ++ (".xml" ++ """/>" ++ nl)))
    by (rewrite !sapp_assoc; reflexivity).
  change ("slides/slide" ++ g) with (String "s" ("lides/slide" ++ g)). change (".xml" ++ """/>" ++ nl) with (String "." ("xml""/>" ++ nl)).
  constructor.
  - apply absent_lit. vm_compute. reflexivity.
  - unfold unquoted. rewrite sforall_app, digits_not by reflexivity. reflexivity.
  - right. reflexivity.
  - constructor. apply absent_join; [|apply absent_lit; vm_compute; reflexivity|reflexivity]. apply absent_join; [apply absent_lit; vm_compute; reflexivity| |reflexivity].
    intros a b E. assert (Q : unquoted (String "s" ("lides/slide" ++ g))) by (unfold unquoted; change (String "s" ("lides/slide" ++ g)) with ("slides/slide" ++ g); rewrite sforall_app; exact U).
    unfold unquoted in Q. rewrite E, !sforall_app in Q. apply andb_prop in Q as [_ Q]. apply andb_prop in Q as [Q _]. discriminate.
Qed.
Lemma entry_quoted m k : quoted "<p:sldId id=""" "" (slide_entry m ("rId" ++ dec k) ++ nl) [dec m].
Proof.
  unfold slide_entry. replace (("<p:sldId id=""" ++ dec m ++ """ r:id=""" ++ ("rId" ++ dec k) ++ """/>") ++ nl) with ("" ++ "<p:sldId id=""" ++ dec m ++ """" ++ (" r:id=""rId" ++ dec k ++ """/>" ++ nl)) by (rewrite !sapp_assoc; reflexivity).
  constructor; [now apply absent_nil| |now left|].
  - unfold unquoted. rewrite digits_not by reflexivity. reflexivity.
  - constructor. apply absent_char. rewrite !sforall_app, digits_but by reflexivity. reflexivity.
Qed.
Lemma entry_no_close m k : absent "</p:sldIdLst>" (slide_entry m ("rId" ++ dec k) ++ nl).
Proof.
  unfold slide_entry. change (("<p:sldId id=""" ++ dec m ++ """ r:id=""" ++ ("rId" ++ dec k) ++ """/>") ++ nl) with (String "<" (("p:sldId id=""" ++ dec m ++ """ r:id=""" ++ ("rId" ++ dec k) ++ """/>") ++ nl)).
  apply absent_left; [|reflexivity]. apply absent_char. rewrite !sforall_app, !digits_but by reflexivity. reflexivity.
Qed.

(** ** What validation finds *)
Definition rels_file (n : string) : Prop := n = "_rels/.rels" \/ n = PR \/ (starts_with "ppt/slides/_rels/" n = true /\ ends_with ".xml.rels" n = true).
Record fine (p : package) (ss : list string) : Prop := {
  f_required : forall n, In n (map fst REQUIRED_PARTS_REPAIR) -> get_part p n <> None;
  f_xml : forall n c, get_part p n = Some c -> ends_with ".xml" n || ends_with ".rels" n = true -> blank_text c = false;
  f_rels : forall n c, rels_file n -> get_part p n = Some c -> forall line, In line (lines c) -> check_line p n line = [];
  f_refs : forall s, In s (referenced_slides same p) -> is_slide s = true /\ get_part p s <> None;
  f_slides : forall s, is_slide s = true -> get_part p s <> None -> In s (referenced_slides same p) \/ In s ss;
  f_ss : forall s, In s ss -> is_slide s = true /\ get_part p s <> None;
  f_types : forall ct n, get_part p CT = Some ct -> get_part p n <> None -> n = CT \/ typed ct n = true
}.
Lemma in_paths o p n : fair o -> In n (part_paths o p) <-> get_part p n <> None.
Proof. intros [F _]. unfold part_paths. destruct (keys_spec p _ (F (map fst (map_to_list p)))) as (_ & K & _). apply K. Qed.
Lemma in_set o l s : fair o -> In s (the_set o l) <-> In s l.
Proof. intros [_ F]. unfold the_set. rewrite (Permutation_in' eq_refl (F _)). apply nodup_In. Qed.
Lemma flat_empty {A B} (f : A -> list B) l : (forall x, In x l -> f x = []) -> flat_map f l = [].
Proof. induction l as [|x l IH]; intros H; [reflexivity|]. cbn. rewrite (H x (or_introl eq_refl)). apply IH. intros y Y. apply H. now right. Qed.
Lemma existsb_in s l : existsb (String.eqb s) l = true <-> In s l.
Proof. rewrite existsb_exists. split; [intros (x & I & E); apply String.eqb_eq in E; now subst|intros I; exists s; split; [exact I|apply String.eqb_refl]]. Qed.
Lemma text_same p n : text same p n = get_part p n.
Proof. unfold text. now destruct (get_part p n). Qed.
Lemma fine_valid o p : fair o -> fine p [] -> validate same o p = [].
Proof.
  intros F H. unfold validate. assert (V1 : check_required_parts p = []).
  { apply flat_empty. intros [n d] I. assert (X := f_required _ _ H n). destruct (PackageModel.has_part p n) eqn:E; [reflexivity|]. exfalso.
    assert (G : get_part p n <> None) by (apply X; apply in_map_iff; now exists (n, d)). apply has_get in G. congruence. }
  assert (V2 : check_xml_validity same o p = []).
  { apply flat_empty. intros n I. destruct (_ || _) eqn:E; [|reflexivity]. rewrite text_same. destruct (get_part p n) as [c|] eqn:G; [|reflexivity]. now rewrite (f_xml _ _ H n c G E). }
  assert (R : forall n, rels_file n -> check_rels_file same p n = []).
  { intros n RF. unfold check_rels_file. rewrite text_same. destruct (get_part p n) as [c|] eqn:G; [|reflexivity]. apply flat_empty. exact (f_rels _ _ H n c RF G). }
  assert (V3 : check_relationships same o p = []).
  { unfold check_relationships. rewrite (R "_rels/.rels"), (R PR) by (unfold rels_file; tauto). cbn. apply flat_empty. intros n I. apply R. apply filter_In in I as [_ I]. apply andb_prop in I. unfold rels_file. tauto. }
  assert (V4 : check_slide_references same o p = []).
  { unfold check_slide_references. rewrite !flat_empty; [reflexivity| |].
    - intros s I. apply in_set in I; [|exact F]. unfold actual_slides in I. apply filter_In in I as [I S]. apply in_paths in I; [|exact F]. destruct (f_slides _ _ H s S I) as [X|[]]. apply existsb_in in X. now rewrite X.
    - intros s I. apply in_set in I; [|exact F]. destruct (f_refs _ _ H s I) as [S G]. assert (X : In s (actual_slides o p)) by (apply filter_In; split; [now apply in_paths|exact S]). apply existsb_in in X. now rewrite X. }
  assert (V5 : check_content_types same o p = []).
  { unfold check_content_types. rewrite text_same. destruct (get_part p CT) as [ct|] eqn:G; [|reflexivity]. apply flat_empty. intros n I. apply in_paths in I; [|exact F].
    destruct (f_types _ _ H ct n G I) as [->|T]; [now rewrite String.eqb_refl|]. rewrite T. now destruct (String.eqb n CT). }
  now rewrite V1, V2, V3, V4, V5.
Qed.
Lemma valid_fine o p ss : fair o -> validate same o p = map MissingSlideReference ss -> fine p ss.
Proof.
  intros F V. assert (I : forall i, In i (validate same o p) -> exists s, i = MissingSlideReference s /\ In s ss).
  { intros i X. rewrite V in X. apply in_map_iff in X as (s & <- & X). now exists s. }
  assert (NO : forall i, (forall s, i <> MissingSlideReference s) -> ~ In i (validate same o p)) by (intros i N X; destruct (I i X) as (s & -> & _); now apply (N s)).
  unfold validate in NO, I. split.
  - intros n X G. apply in_map_iff in X as ([m d] & M & X). cbn in M. subst m. apply (NO (MissingPartP n d)); [discriminate|]. apply in_or_app. left. apply in_flat_map. exists (n, d). split; [exact X|].
    destruct (PackageModel.has_part p n) eqn:E; [apply has_get in E; contradiction|now left].
  - intros n c G E. destruct (blank_text c) eqn:B; [|reflexivity]. exfalso. apply (NO (InvalidXmlP n "Invalid XML: empty XML content")); [discriminate|]. apply in_or_app. right. apply in_or_app. left.
    apply in_flat_map. exists n. split; [apply in_paths; [exact F|congruence]|]. rewrite E, text_same, G, B. now left.
  - intros n c RF G line L. destruct (check_line p n line) as [|i l] eqn:E; [reflexivity|]. exfalso.
    assert (BR : exists x y, i = BrokenRelationship n x y). { unfold check_line in E. repeat case_match; try discriminate; injection E as <- _; now eexists _, _. }
    assert (J : In i (check_rels_file same p n)). { unfold check_rels_file. rewrite text_same, G. apply in_flat_map. exists line. split; [exact L|]. rewrite E. now left. }
    apply (NO i); [destruct BR as (x & y & ->); discriminate|]. apply in_or_app. right. apply in_or_app. right. apply in_or_app. left. unfold check_relationships.
    destruct RF as [->|[->|[S E2]]]; [apply in_or_app; now left|apply in_or_app; right; apply in_or_app; now left|]. apply in_or_app. right. apply in_or_app. right. apply in_flat_map. exists n. split; [|exact J].
    apply filter_In. split; [apply in_paths; [exact F|congruence]|]. now rewrite S, E2.
  - intros s R. destruct (existsb (String.eqb s) (actual_slides o p)) eqn:E.
    + apply existsb_in in E. unfold actual_slides in E. apply filter_In in E as [X S]. apply in_paths in X; [|exact F]. now split.
    + exfalso. apply (NO (OrphanSlide s)); [discriminate|]. do 3 (apply in_or_app; right). apply in_or_app. left. unfold check_slide_references. apply in_or_app. left. apply in_flat_map. exists s.
      split; [now apply in_set|]. rewrite E. now left.
  - intros s S G. destruct (existsb (String.eqb s) (referenced_slides same p)) eqn:E; [left; now apply existsb_in|]. right.
    destruct (I (MissingSlideReference s)) as (x & X & J); [|now injection X as <-]. do 3 (apply in_or_app; right). apply in_or_app. left. unfold check_slide_references. apply in_or_app. right. apply in_flat_map. exists s.
    split; [apply in_set; [exact F|]; apply filter_In; split; [now apply in_paths|exact S]|]. rewrite E. now left.
  - intros s J. assert (X : In (MissingSlideReference s) (validate same o p)) by (rewrite V; now apply in_map). unfold validate in X. rewrite !in_app_iff in X.
    assert (Y : In (MissingSlideReference s) (check_slide_references same o p)).
    { destruct X as [X|[X|[X|[X|X]]]]; [exfalso|exfalso| |exact X|exfalso].
      - apply in_flat_map in X as ([n d] & _ & X). destruct (PackageModel.has_part p n); [contradiction|]. destruct X as [X|[]]; discriminate.
      - apply in_flat_map in X as (n & _ & X). repeat case_match; try contradiction; destruct X as [X|[]]; discriminate.
      - exfalso. assert (Z : forall n, ~ In (MissingSlideReference s) (check_rels_file same p n)).
        { intros n Y. unfold check_rels_file in Y. destruct (text same p n); [|contradiction]. apply in_flat_map in Y as (l & _ & Y). unfold check_line in Y. repeat case_match; try contradiction; destruct Y as [Y|[]]; discriminate. }
        unfold check_relationships in X. rewrite !in_app_iff in X. destruct X as [X|[X|X]]; [exact (Z _ X)|exact (Z _ X)|]. apply in_flat_map in X as (n & _ & X). exact (Z _ X).
      - unfold check_content_types in X. destruct (text same p CT); [|contradiction]. apply in_flat_map in X as (n & _ & X). repeat case_match; try contradiction; destruct X as [X|[]]; discriminate. }
    unfold check_slide_references in Y. apply in_app_iff in Y. destruct Y as [Y|Y]; apply in_flat_map in Y as (x & X1 & Y); case_match; try contradiction; destruct Y as [Y|[]]; [discriminate|]. injection Y as ->.
    apply in_set in X1; [|exact F]. unfold actual_slides in X1. apply filter_In in X1 as [X1 S]. apply in_paths in X1; [|exact F]. now split.
  - intros ct n G X. destruct (String.eqb_spec n CT) as [->|N]; [now left|right]. destruct (typed ct n) eqn:T; [reflexivity|]. exfalso. apply (NO (InvalidContentType n)); [discriminate|].
    do 4 (apply in_or_app; right). unfold check_content_types. rewrite text_same, G. apply in_flat_map. exists n. split; [now apply in_paths|]. apply String.eqb_neq in N. rewrite N, T. now left.
Qed.

(** ** One slide *)
Definition CR_ := "</Relationships>". Definition CS_ := "</p:sldIdLst>".
Record shape (p : package) (body tail pbody ptail : string) (rids sids : list string) : Prop := {
  s_rels : get_part p PR = Some (body ++ nl ++ CR_ ++ tail);
  s_body : absent CR_ (body ++ nl); s_tail : absent CR_ tail;
  s_ids : quoted "Id=""" "rId" (body ++ nl) rids; s_tail_ids : absent "Id=""" tail;
  s_pres : get_part p PX = Some (pbody ++ CS_ ++ ptail);
  s_pbody : absent CS_ pbody; s_ptail : absent CS_ ptail;
  s_pids : quoted "<p:sldId id=""" "" pbody sids; s_ptail_ids : absent "<p:sldId id=""" ptail
}.
Definition top (pfx : string) (l : list string) : N := fold_left N.max (numbers pfx l) 0%N.
Lemma max_rel body tail rids : quoted "Id=""" "rId" (body ++ nl) rids -> absent "Id=""" tail -> find_max_rel_id (body ++ nl ++ CR_ ++ tail) = top "rId" rids.
Proof.
  intros Q A. unfold find_max_rel_id, top. change "Id=""rId" with (("Id=" ++ """") ++ "rId").
  assert (Q2 : quoted ("Id=" ++ """") "rId" ((body ++ nl) ++ String "<" ("/Relationships>" ++ tail)) (rids ++ [])).
  { apply quoted_app; [exact Q| |reflexivity|reflexivity]. constructor. change (String "<" ("/Relationships>" ++ tail)) with ("</Relationships>" ++ tail). apply absent_before; [reflexivity|exact A]. }
  rewrite app_nil_r, sapp_assoc in Q2. apply (find_max_exact "Id=" "rId" _ _ eq_refl eq_refl ltac:(discriminate) eq_refl Q2). apply Nat.lt_succ_diag_r.
Qed.
Lemma max_slide pbody ptail sids : quoted "<p:sldId id=""" "" pbody sids -> absent "<p:sldId id=""" ptail -> find_max_slide_id (pbody ++ CS_ ++ ptail) = top "" sids.
Proof.
  intros Q A. unfold find_max_slide_id, top. change "<p:sldId id=""" with (("<p:sldId id=" ++ """") ++ "") at 1.
  assert (Q2 : quoted ("<p:sldId id=" ++ """") "" (pbody ++ String "<" ("/p:sldIdLst>" ++ ptail)) (sids ++ [])).
  { apply quoted_app; [exact Q| |reflexivity|reflexivity]. constructor. apply absent_left; [|reflexivity]. apply absent_before; [reflexivity|exact A]. }
  rewrite app_nil_r in Q2. apply (find_max_exact "<p:sldId id=" "" _ _ eq_refl eq_refl ltac:(discriminate) eq_refl Q2). apply Nat.lt_succ_diag_r.
Qed.
Lemma check_line_dom p q n line : (forall m, PackageModel.has_part p m = PackageModel.has_part q m) -> check_line p n line = check_line q n line.
Proof. intros H. unfold check_line. repeat case_match; try reflexivity; rewrite ?H in *; congruence. Qed.
Lemma next_exact m : (m < u32_max)%N -> next_id m = (m + 1)%N.
Proof. intros H. unfold next_id. apply wadd_exact. unfold u32_max in *. lia. Qed.
Lemma slide_target f : absent "ppt/" f -> replace_str "ppt/" "" ("ppt/slides/slide" ++ f) = "slides/slide" ++ f.
Proof.
  intros A. change ("ppt/slides/slide" ++ f) with ("ppt/" ++ ("slides/slide" ++ f)). rewrite replace_head; [reflexivity|discriminate|]. change (absent "ppt/" ("slides/slide" ++ f)). apply absent_before; [reflexivity|exact A].
Qed.
Lemma some_eq {A} (x y : A) : Some x = Some y -> x = y.
Proof. congruence. Qed.
Lemma one_slide p f ss body tail pbody ptail rids sids : fine p (("ppt/slides/slide" ++ f) :: ss) -> plain_slide ("ppt/slides/slide" ++ f) f ->
  shape p body tail pbody ptail rids sids -> (top "rId" rids < u32_max)%N -> (top "" sids < u32_max)%N ->
  let k := (top "rId" rids + 1)%N in let m := (top "" sids + 1)%N in let q := repair_missing_slide_reference same p ("ppt/slides/slide" ++ f) in
  fine q ss /\ shape q (body ++ nl ++ slide_relationship ("rId" ++ dec k) ("slides/slide" ++ f)) tail (pbody ++ slide_entry m ("rId" ++ dec k) ++ nl) ptail (rids ++ ["rId" ++ dec k]) (sids ++ [dec m])
  /\ (forall n, n <> PR -> n <> PX -> get_part q n = get_part p n).
Proof.
  intros Fi (_ & UQ & NP & LFf & LT) Sh BR BM k m.
  set (s := "ppt/slides/slide" ++ f). set (sr := slide_relationship ("rId" ++ dec k) ("slides/slide" ++ f)). set (se := slide_entry m ("rId" ++ dec k)). set (q := repair_missing_slide_reference same p s).
  destruct (f_ss _ _ Fi s (or_introl eq_refl)) as [IS GS]. assert (SS := IS). unfold is_slide in SS. apply andb_prop in SS as [SS _]. apply andb_prop in SS as [_ SX].
  destruct (ends_xml s f eq_refl SX) as (g & G).
  assert (Q : q = add_part PX (pbody ++ (se ++ nl) ++ CS_ ++ ptail) (add_part PR ((body ++ nl ++ sr) ++ nl ++ CR_ ++ tail) p)).
  { unfold q, repair_missing_slide_reference. rewrite !text_same, (s_rels _ _ _ _ _ _ _ Sh). cbn zeta. rewrite max_rel with (rids := rids) by apply Sh. rewrite next_exact by exact BR. fold k.
    assert (E1 : add_slide_rel (body ++ nl ++ CR_ ++ tail) ("rId" ++ dec k) s = (body ++ nl ++ sr) ++ nl ++ CR_ ++ tail).
    { unfold add_slide_rel. unfold s. rewrite slide_target by exact NP. change ("  <Relationship Id=""" ++ ("rId" ++ dec k) ++ """ Type=""http://schemas.openxmlformats.org/officeDocument/2006/relationships/slide"" Target=""" ++ ("slides/slide" ++ f) ++ """/>") with sr.
      change "
</Relationships>" with (nl ++ CR_). rewrite <- (sapp_assoc body nl). change "</Relationships>" with CR_. rewrite replace_one; [|reflexivity|apply Sh|apply Sh]. now rewrite !sapp_assoc. }
    rewrite E1, text_same, get_add. change (String.eqb PR PX) with false. cbv iota. rewrite (s_pres _ _ _ _ _ _ _ Sh). f_equal.
    unfold add_slide_entry. rewrite max_slide with (sids := sids) by apply Sh. rewrite next_exact by exact BM. fold m.
    change ("<p:sldId id=""" ++ dec m ++ """ r:id=""" ++ ("rId" ++ dec k) ++ """/>") with se. change "</p:sldIdLst>" with CS_ at 1 2. rewrite contains_split. rewrite replace_one; [|reflexivity|apply Sh|apply Sh].
    rewrite !sapp_assoc. reflexivity. }
  assert (GQ : forall n, get_part q n = if String.eqb PX n then Some (pbody ++ (se ++ nl) ++ CS_ ++ ptail) else if String.eqb PR n then Some ((body ++ nl ++ sr) ++ nl ++ CR_ ++ tail) else get_part p n).
  { intros n. rewrite Q, !get_add. reflexivity. }
  assert (GP : get_part q PX = Some (pbody ++ (se ++ nl) ++ CS_ ++ ptail)) by (rewrite GQ; reflexivity).
  assert (GR : get_part q PR = Some ((body ++ nl ++ sr) ++ nl ++ CR_ ++ tail)) by (rewrite GQ; reflexivity).
  assert (GO : forall n, n <> PR -> n <> PX -> get_part q n = get_part p n).
  { intros n N1 N2. rewrite GQ. destruct (String.eqb_spec PX n); [congruence|]. destruct (String.eqb_spec PR n); [congruence|reflexivity]. }
  assert (D : forall n, get_part q n <> None <-> get_part p n <> None).
  { intros n. rewrite GQ. destruct (String.eqb_spec PX n) as [<-|]; [rewrite (s_pres _ _ _ _ _ _ _ Sh); split; discriminate|]. destruct (String.eqb_spec PR n) as [<-|]; [rewrite (s_rels _ _ _ _ _ _ _ Sh); split; discriminate|reflexivity]. }
  assert (HD : forall n, PackageModel.has_part p n = PackageModel.has_part q n).
  { intros n. specialize (D n). rewrite <- !has_get in D. destruct (PackageModel.has_part p n), (PackageModel.has_part q n); try reflexivity; exfalso; intuition discriminate. }
  assert (UT : unquoted ("slides/slide" ++ f)) by (unfold unquoted; rewrite sforall_app; exact UQ).
  assert (LS : line_slide sr = [s]).
  { unfold line_slide, sr. rewrite new_type, new_target by exact UT. change (String.eqb slide_rel_type slide_rel_type) with true. cbv iota. reflexivity. }
  assert (LO : lines (body ++ nl ++ CR_ ++ tail) = (all_lines body ++ lines (CR_ ++ tail))%list) by apply lines_app.
  assert (LN : lines ((body ++ nl ++ sr) ++ nl ++ CR_ ++ tail) = (all_lines body ++ [sr] ++ lines (CR_ ++ tail))%list).
  { rewrite lines_app, all_lines_app. unfold sr at 1. rewrite new_one_line; [now rewrite <- app_assoc|]. rewrite sforall_app. exact LFf. }
  assert (RO : referenced_slides same p = (flat_map line_slide (all_lines body) ++ flat_map line_slide (lines (CR_ ++ tail)))%list).
  { unfold referenced_slides. rewrite text_same, (s_rels _ _ _ _ _ _ _ Sh), LO. apply flat_map_app. }
  assert (RN : referenced_slides same q = (flat_map line_slide (all_lines body) ++ s :: flat_map line_slide (lines (CR_ ++ tail)))%list).
  { unfold referenced_slides. rewrite text_same, GR, LN, !flat_map_app. cbn [flat_map]. now rewrite LS. }
  assert (RI : forall x, In x (referenced_slides same q) <-> x = s \/ In x (referenced_slides same p)).
  { intros x. rewrite RO, RN, !in_app_iff. cbn [In]. intuition congruence. }
  split; [|split; [|exact GO]].
  - split.
    + intros n I. apply D. now apply (f_required _ _ Fi).
    + intros n c Gn E. rewrite GQ in Gn. destruct (String.eqb_spec PX n) as [<-|N1].
      * apply some_eq in Gn; subst c. rewrite <- (sapp_assoc pbody). apply (not_blank (pbody ++ se ++ nl) CS_ ptail). reflexivity.
      * destruct (String.eqb_spec PR n) as [<-|N2]; [|exact (f_xml _ _ Fi n c Gn E)]. apply some_eq in Gn; subst c. rewrite <- (sapp_assoc _ nl). apply (not_blank ((body ++ nl ++ sr) ++ nl) CR_ tail). reflexivity.
    + intros n c RF Gn line L. rewrite <- (check_line_dom p q) by exact HD. destruct (String.eqb_spec n PR) as [->|N].
      * rewrite GR in Gn. apply some_eq in Gn; subst c. rewrite LN in L. rewrite !in_app_iff in L.
        assert (Old : In line (lines (body ++ nl ++ CR_ ++ tail)) -> check_line p PR line = []) by (apply (f_rels _ _ Fi PR); [unfold rels_file; tauto|apply Sh]).
        destruct L as [L|[L|L]]; [apply Old; rewrite LO; apply in_or_app; now left| |apply Old; rewrite LO; apply in_or_app; now right]. destruct L as [<-|[]].
        unfold check_line. destruct (new_has_target k ("slides/slide" ++ f)) as [C1 C2]. fold sr in C1, C2. rewrite C1, C2. cbn [andb]. unfold sr. rewrite new_target by exact UT.
        change (starts_with "http://" ("slides/slide" ++ f) || starts_with "https://" ("slides/slide" ++ f)) with false. cbv iota zeta.
        assert (RS : resolve_path PR ("slides/slide" ++ f) = s) by reflexivity. rewrite RS. apply has_get in GS. now rewrite GS.
      * assert (N2 : n <> PX) by (intros ->; destruct RF as [RF|[RF|[RF _]]]; discriminate). rewrite GO in Gn by assumption. exact (f_rels _ _ Fi n c RF Gn line L).
    + intros x X. apply RI in X. rewrite D. destruct X as [->|X]; [now split|now apply (f_refs _ _ Fi)].
    + intros x S X. apply D in X. destruct (f_slides _ _ Fi x S X) as [Y|[<-|Y]]; [left; apply RI; now right|left; apply RI; now left|now right].
    + intros x X. rewrite D. apply (f_ss _ _ Fi). now right.
    + intros ct n Gc Gn. rewrite GO in Gc by discriminate. apply D in Gn. exact (f_types _ _ Fi ct n Gc Gn).
  - destruct Sh. split; try assumption.
    + rewrite !sapp_assoc, <- (sapp_assoc body nl). change (sr ++ nl) with (String " " (substring 1 (String.length (sr ++ nl)) (sr ++ nl))) || idtac.
      assert (X : exists y, sr ++ nl = String " " y) by (unfold sr, slide_relationship; now eexists). destruct X as (y & Y).
      assert (A : absent CR_ (sr ++ nl)) by (apply new_no_close; rewrite sforall_app; exact LT). rewrite Y in A |- *. now apply absent_join.
    + rewrite !sapp_assoc, <- (sapp_assoc body nl). assert (X : exists y, sr ++ nl = String " " y) by (unfold sr, slide_relationship; now eexists). destruct X as (y & Y).
      assert (A : quoted "Id=""" "rId" (sr ++ nl) ["rId" ++ dec k]). { unfold sr. rewrite G. apply new_quoted. unfold unquoted in UQ |- *. rewrite G, sforall_app in UQ. now apply andb_prop in UQ as [UQ _]. }
      rewrite Y in A |- *. apply quoted_app; [assumption|exact A|reflexivity|reflexivity].
    + rewrite GP. now rewrite !sapp_assoc.
    + assert (X : exists y, se ++ nl = String "<" y) by (unfold se, slide_entry; now eexists). destruct X as (y & Y). assert (A := entry_no_close m k). fold se in A. rewrite Y in A |- *. now apply absent_join.
    + assert (X : exists y, se ++ nl = String "<" y) by (unfold se, slide_entry; now eexists). destruct X as (y & Y). assert (A := entry_quoted m k). fold se in A. rewrite Y in A |- *. apply quoted_app; [assumption|exact A|reflexivity|reflexivity].
Qed.
Lemma top_new pfx l : (top pfx l < u32_max)%N -> top pfx (l ++ [pfx ++ dec (top pfx l + 1)]) = (top pfx l + 1)%N.
Proof.
  intros B. unfold top at 1. rewrite numbers_app. cbn [numbers]. rewrite strip_prefix_app, parse_uint_dec by lia. rewrite fold_left_app. cbn [fold_left]. fold (top pfx l). lia.
Qed.
Lemma all_slides o fs : forall p body tail pbody ptail rids sids q fx kp, fine p (map (append "ppt/slides/slide") fs) -> (forall f, In f fs -> plain_slide ("ppt/slides/slide" ++ f) f) ->
  shape p body tail pbody ptail rids sids -> (top "rId" rids + N.of_nat (length fs) <= u32_max)%N -> (top "" sids + N.of_nat (length fs) <= u32_max)%N ->
  repair_all same o p (map MissingSlideReference (map (append "ppt/slides/slide") fs)) = (q, fx, kp) ->
  fine q [] /\ get_part q PR = Some (body ++ nl ++ new_rels (top "rId" rids + 1) fs ++ CR_ ++ tail)
  /\ get_part q PX = Some (pbody ++ new_entries (top "rId" rids + 1) (top "" sids + 1) fs ++ CS_ ++ ptail) /\ (forall n, n <> PR -> n <> PX -> get_part q n = get_part p n).
Proof.
  induction fs as [|f fs IH]; intros p body tail pbody ptail rids sids q fx kp Fi P Sh BR BM E.
  - injection E as <- _ _. split; [exact Fi|]. destruct Sh. repeat split; assumption.
  - cbn [map repair_all is_repairable repair_issue] in E. cbn [length] in BR, BM. cbn [map] in Fi.
    destruct (one_slide p f _ body tail pbody ptail rids sids Fi (P f (or_introl eq_refl)) Sh ltac:(lia) ltac:(lia)) as (F1 & S1 & O1).
    set (p1 := repair_missing_slide_reference same p ("ppt/slides/slide" ++ f)) in *. destruct (repair_all same o p1 _) as [[q1 fx1] kp1] eqn:A. injection E as <- _ _.
    assert (T1 := top_new "rId" rids ltac:(lia)). assert (T2 : top "" (sids ++ [dec (top "" sids + 1)]) = (top "" sids + 1)%N) by (apply (top_new "" sids); lia).
    destruct (IH _ _ _ _ _ _ _ _ _ _ F1 (fun g G => P g (or_intror G)) S1 ltac:(rewrite T1; lia) ltac:(rewrite T2; lia) A) as (F2 & R2 & X2 & O2).
    split; [exact F2|]. cbv zeta in R2, X2. rewrite T1 in R2. rewrite T1, T2 in X2. split; [|split].
    + rewrite R2. cbn [new_rels]. now rewrite !sapp_assoc.
    + rewrite X2. cbn [new_entries]. now rewrite !sapp_assoc.
    + intros n N1 N2. rewrite O2, O1; auto.
Qed.
Lemma top_bound pfx l n : (forall i, numbered pfx l i -> (i + n <= u32_max)%N) -> (n <= u32_max)%N -> (top pfx l + n <= u32_max)%N.
Proof. intros H B. unfold top. destruct (fold_max (numbers pfx l) 0) as (_ & _ & [->|I]); [lia|]. apply H. now apply numbers_in. Qed.
Lemma slides_listed o1 o2 o3 p r q fs body tail pbody ptail rids sids : fair o1 -> fair o3 -> repair same o1 o2 o3 p = (r, q) ->
  issues_found r = map (fun f => MissingSlideReference ("ppt/slides/slide" ++ f)) fs -> (forall f, In f fs -> plain_slide ("ppt/slides/slide" ++ f) f) ->
  get_part p PR = Some (body ++ nl ++ "</Relationships>" ++ tail) -> absent "</Relationships>" (body ++ nl) -> absent "</Relationships>" tail ->
  quoted "Id=""" "rId" (body ++ nl) rids -> absent "Id=""" tail ->
  get_part p PX = Some (pbody ++ "</p:sldIdLst>" ++ ptail) -> absent "</p:sldIdLst>" pbody -> absent "</p:sldIdLst>" ptail ->
  quoted "<p:sldId id=""" "" pbody sids -> absent "<p:sldId id=""" ptail ->
  (N.of_nat (length fs) <= u32_max)%N -> (forall i, numbered "rId" rids i \/ numbered "" sids i -> (i + N.of_nat (length fs) <= u32_max)%N) ->
  is_valid r = true /\ exists k m, (forall i, numbered "rId" rids i -> (i < k)%N) /\ (forall i, numbered "" sids i -> (i < m)%N)
  /\ get_part q PR = Some (body ++ nl ++ new_rels k fs ++ "</Relationships>" ++ tail)
  /\ get_part q PX = Some (pbody ++ new_entries k m fs ++ "</p:sldIdLst>" ++ ptail)
  /\ (forall n, n <> PR -> n <> PX -> get_part q n = get_part p n).
Proof.
  intros F1 F3 E FD P G1 A1 A2 Q1 A3 G2 A4 A5 Q2 A6 LB B. destruct (repair_steps _ _ _ _ _ _ _ E) as (V & _ & _ & IV & A).
  assert (FD2 : issues_found r = map MissingSlideReference (map (append "ppt/slides/slide") fs)) by (rewrite FD, map_map; reflexivity).
  assert (Fi : fine p (map (append "ppt/slides/slide") fs)) by (apply (valid_fine o1); [exact F1|congruence]).
  rewrite FD2 in A. assert (Sh : shape p body tail pbody ptail rids sids) by (split; assumption).
  assert (T1 : (top "rId" rids + N.of_nat (length fs) <= u32_max)%N) by (apply top_bound; auto).
  assert (T2 : (top "" sids + N.of_nat (length fs) <= u32_max)%N) by (apply top_bound; auto).
  destruct (all_slides o2 fs p body tail pbody ptail rids sids q _ _ Fi P Sh T1 T2 A) as (F2 & R2 & X2 & O2).
  split; [apply IV; left; now apply fine_valid|]. exists (top "rId" rids + 1)%N, (top "" sids + 1)%N. repeat split; auto.
  - intros i I. apply numbers_in in I. destruct (fold_max (numbers "rId" rids) 0) as (_ & H & _). specialize (H i I). unfold top. lia.
  - intros i I. apply numbers_in in I. destruct (fold_max (numbers "" sids) 0) as (_ & H & _). specialize (H i I). unfold top. lia.
Qed.
(** ** Missing content types *)
Lemma type_override o p part ct : get_part p CT = Some ct -> contains "</Types>" ct = true ->
  exists q, repair_issue same o p (InvalidContentType part) = Some q
  /\ exists ct' a b, get_part q CT = Some ct' /\ ct' = a ++ "<Override PartName=""/" ++ part ++ """ ContentType=""" ++ infer_content_type part ++ """/>" ++ b.
Proof.
  intros G C. eexists. split; [reflexivity|]. unfold repair_invalid_content_type. rewrite text_same, G.
  destruct (replace_puts "</Types>" ("  <Override PartName=""/" ++ part ++ """ ContentType=""" ++ infer_content_type part ++ """/>
</Types>") ct ltac:(discriminate) C) as (a & b & ->). eexists _, (a ++ "  "), (nl ++ "</Types>" ++ b). split; [rewrite get_add; reflexivity|]. rewrite !sapp_assoc. reflexivity.
Qed.
