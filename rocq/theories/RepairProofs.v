(** Proofs about repair. *)
From Coq Require Import String Ascii List Bool Arith NArith Lia Permutation.
From stdpp Require Import base gmap strings.
From Verif Require Import Str Num ExportModel ResolveModel ValidModel ValidSpec ValidProofs PackageModel PackageProofs RepairModel RepairSpec.
Import ListNotations.
Open Scope nat_scope.
Open Scope string_scope.
Local Arguments String.append _ _ : simpl nomatch.

(** ** What is reported *)
Section R.
  Context (lossy : string -> string) (o : orders).
  Definition good_problem (i : problem) : Prop := match i with MissingPartP path _ => In path (map fst REQUIRED_PARTS_REPAIR) | _ => True end.
  Lemma good_repaired p i : good_problem i -> exists q, repair_issue lossy o p i = Some q.
  Proof.
    destruct i; cbn [good_problem repair_issue]; try (intros _; now eexists). cbn. unfold repair_missing_part. intros [<-|[<-|[<-|[<-|[]]]]]; cbn; now eexists.
  Qed.
  Lemma in_nil_flat {A B} (P : B -> Prop) (f : A -> list B) l : (forall x y, In x l -> In y (f x) -> P y) -> forall y, In y (flat_map f l) -> P y.
  Proof. intros H y I. apply in_flat_map in I as (x & X & Y). exact (H x y X Y). Qed.
  Lemma found_good p i : In i (validate lossy o p) -> good_problem i.
  Proof.
    unfold validate. rewrite !in_app_iff. intros [H|[H|[H|[H|H]]]].
    - unfold check_required_parts in H. apply in_flat_map in H as ([path d] & I & H). destruct (PackageModel.has_part p path); [contradiction|]. destruct H as [<-|[]].
      cbn [good_problem]. apply in_map_iff. now exists (path, d).
    - unfold check_xml_validity in H. revert H. apply in_nil_flat. intros x y _. repeat case_match; try contradiction; intros [<-|[]]; exact I.
    - assert (F : forall n, forall y, In y (check_rels_file lossy p n) -> good_problem y).
      { intros n y. unfold check_rels_file. destruct (text lossy p n); [|contradiction]. apply in_nil_flat. intros x z _. unfold check_line. repeat case_match; try contradiction; intros [<-|[]]; exact I. }
      unfold check_relationships in H. rewrite !in_app_iff in H. destruct H as [H|[H|H]]; [exact (F _ _ H)|exact (F _ _ H)|]. revert H. apply in_nil_flat. intros x y _. apply F.
    - unfold check_slide_references in H. rewrite in_app_iff in H. destruct H as [H|H]; revert H; apply in_nil_flat; intros x y _; case_match; try contradiction; intros [<-|[]]; exact I.
    - unfold check_content_types in H. destruct (text lossy p _); [|contradiction]. revert H. apply in_nil_flat. intros x y _. repeat case_match; try contradiction; intros [<-|[]]; exact I.
  Qed.
  Lemma all_repaired l : forall p, (forall i, In i l -> good_problem i) -> exists q, repair_all lossy o p l = (q, l, []).
  Proof.
    induction l as [|i l IH]; intros p G; [now exists p|]. cbn [repair_all is_repairable]. destruct (good_repaired p i (G i (or_introl eq_refl))) as (q & E). rewrite E.
    destruct (IH q) as (q' & E'); [intros j J; apply G; now right|]. exists q'. now rewrite E'.
  Qed.
End R.
Lemma repair_steps lossy o1 o2 o3 p r q : repair lossy o1 o2 o3 p = (r, q) ->
  issues_found r = validate lossy o1 p /\ issues_repaired r = issues_found r /\ issues_unrepaired r = [] /\ (is_valid r = true <-> validate lossy o3 q = [] \/ issues_found r = [])
  /\ repair_all lossy o2 p (issues_found r) = (q, issues_found r, []).
Proof.
  unfold repair. destruct (validate lossy o1 p) as [|i l] eqn:V.
  - injection 1 as <- <-. cbn. repeat split; auto.
  - destruct (all_repaired lossy o2 (i :: l) p) as (q' & E); [rewrite <- V; apply found_good|]. rewrite E. injection 1 as <- <-. cbn [issues_found issues_repaired issues_unrepaired is_valid].
    repeat split; [destruct (validate lossy o3 q'); [now left|discriminate]|intros [->|?]; [reflexivity|discriminate]|exact E].
Qed.
(** ** Which parts change *)
Section F.
  Context (lossy : string -> string) (o : orders).
  Notation get := get_part.
  Lemma get_add n m c (p : package) : get (add_part n c p) m = if String.eqb n m then Some c else get p m.
  Proof.
    unfold get_part, add_part. destruct (String.eqb_spec n m) as [->|N]; [apply lookup_insert|now apply lookup_insert_ne].
  Qed.
  (** What one repair can write. *)
  Definition writes (i : problem) (n : string) : Prop :=
    match i with
    | MissingPartP path _ | InvalidXmlP path _ => n = path
    | BrokenRelationship source _ _ => n = source
    | MissingSlideReference _ => n = "ppt/_rels/presentation.xml.rels" \/ n = "ppt/presentation.xml"
    | OrphanSlide _ => n = "ppt/_rels/presentation.xml.rels"
    | InvalidContentType _ => n = "[Content_Types].xml"
    end.
  Definition step_ok (i : problem) (p q : package) : Prop :=
    forall n, get q n = get p n \/ (writes i n /\ get q n <> None /\ (get p n <> None \/ exists d, i = MissingPartP n d)).
  Lemma step_add i p m c : writes i m -> (get p m <> None \/ exists d, i = MissingPartP m d) -> step_ok i p (add_part m c p).
  Proof.
    intros W G n. rewrite get_add. destruct (String.eqb_spec m n) as [->|N]; [right|now left]. split; [exact W|]. split; [discriminate|exact G].
  Qed.
  Lemma text_get p m s : text lossy p m = Some s -> get p m <> None.
  Proof. unfold text. destruct (get p m); [discriminate|]. discriminate. Qed.
  Lemma issue_frame p i q : repair_issue lossy o p i = Some q -> step_ok i p q.
  Proof.
    assert (Same : forall j, step_ok j p p) by (intros j n; now left).
    destruct i; cbn [repair_issue]; intros E.
    - unfold repair_missing_part in E. repeat (case_match; [injection E as <-; apply step_add; [reflexivity|right; now eexists]|]). discriminate.
    - injection E as <-. unfold repair_invalid_xml. destruct (text lossy p path) eqn:T; [|apply Same]. apply step_add; [reflexivity|left; exact (text_get _ _ _ T)].
    - injection E as <-. unfold repair_broken_relationship. destruct (text lossy p source) eqn:T; [|apply Same]. apply step_add; [reflexivity|left; exact (text_get _ _ _ T)].
    - injection E as <-. unfold repair_missing_slide_reference. destruct (text lossy p _) eqn:T; [|apply Same]. set (c := add_slide_rel _ _ _). set (p1 := add_part _ c p).
      assert (S1 : step_ok (MissingSlideReference slide_path) p p1) by (apply step_add; [now left|left; exact (text_get _ _ _ T)]).
      destruct (text lossy p1 _) eqn:T1; [|exact S1].
      assert (P1 : get p "ppt/presentation.xml" <> None).
      { destruct (S1 "ppt/presentation.xml") as [E|(_ & _ & [E|(d & E)])]; [|exact E|discriminate]. rewrite <- E. exact (text_get _ _ _ T1). }
      intros n. rewrite get_add. destruct (String.eqb_spec "ppt/presentation.xml" n) as [<-|N]; [|apply S1]. right. split; [now right|]. split; [discriminate|now left].
    - injection E as <-. unfold repair_orphan_slide. destruct (text lossy p _) eqn:T; [|apply Same]. apply step_add; [reflexivity|left; exact (text_get _ _ _ T)].
    - injection E as <-. unfold repair_invalid_content_type. destruct (text lossy p _) eqn:T; [|apply Same]. apply step_add; [reflexivity|left; exact (text_get _ _ _ T)].
  Qed.
  Lemma all_frame l : forall p q f k, repair_all lossy o p l = (q, f, k) ->
    forall n, get q n = get p n \/ (get q n <> None /\ (exists i, In i l /\ writes i n) /\ (get p n <> None \/ exists d, In (MissingPartP n d) l)).
  Proof.
    induction l as [|i l IH]; intros p q f k E n; [injection E as <- _ _; now left|]. cbn [repair_all is_repairable] in E.
    destruct (repair_issue lossy o p i) as [p1|] eqn:R.
    - destruct (repair_all lossy o p1 l) as [[q1 f1] k1] eqn:A. injection E as <- _ _. apply issue_frame in R. specialize (R n).
      destruct (IH _ _ _ _ A n) as [H|(N & (j & J & W) & H)].
      + destruct R as [R|(W & N & R)]; [left; congruence|]. right. split; [congruence|]. split; [exists i; split; [now left|exact W]|]. destruct R as [R|(d & ->)]; [now left|right; exists d; now left].
      + right. split; [exact N|]. split; [exists j; split; [now right|exact W]|]. destruct H as [H|(d & H)]; [|right; exists d; now right].
        destruct R as [R|(_ & _ & [R|(d & ->)])]; [left; congruence|now left|right; exists d; now left].
    - destruct (repair_all lossy o p l) as [[q1 f1] k1] eqn:A. injection E as <- _ _. destruct (IH _ _ _ _ A n) as [H|(N & (j & J & W) & H)]; [now left|].
      right. split; [exact N|]. split; [exists j; split; [now right|exact W]|]. destruct H as [H|(d & H)]; [now left|right; exists d; now right].
  Qed.
  Lemma missing_done l : forall p q f k n d, repair_all lossy o p l = (q, f, k) -> In (MissingPartP n d) l -> In n (map fst REQUIRED_PARTS_REPAIR) -> get q n <> None.
  Proof.
    induction l as [|i l IH]; intros p q f k n d E I G; [contradiction|]. cbn [repair_all is_repairable] in E. destruct I as [->|I].
    - destruct (good_repaired lossy o p (MissingPartP n d) G) as (p1 & R). rewrite R in E. destruct (repair_all lossy o p1 l) as [[q1 f1] k1] eqn:A. injection E as <- _ _.
      assert (P1 : get p1 n <> None). { cbn [repair_issue] in R. unfold repair_missing_part in R. repeat (case_match; [injection R as <-; rewrite get_add, String.eqb_refl; discriminate|]). discriminate. }
      destruct (all_frame l _ _ _ _ A n) as [H|(N & _)]; [congruence|exact N].
    - destruct (repair_issue lossy o p i) as [p1|]; [destruct (repair_all lossy o p1 l) as [[q1 f1] k1] eqn:A|destruct (repair_all lossy o p l) as [[q1 f1] k1] eqn:A];
        injection E as <- _ _; exact (IH _ _ _ _ n d A I G).
  Qed.
  (** What validation can report about a part. *)
  Lemma found_writes p i n : In i (validate lossy o p) -> writes i n -> fair o -> repairable_part n \/ exists c, get p n = Some c /\ (ends_with ".xml" n = true \/ ends_with ".rels" n = true) /\ trim (lossy c) = "".
  Proof.
    intros H W [FP FS]. unfold validate in H. rewrite !in_app_iff in H. destruct H as [H|[H|[H|[H|H]]]].
    - unfold check_required_parts in H. apply in_flat_map in H as ([path d] & I & H). destruct (PackageModel.has_part p path); [contradiction|]. destruct H as [<-|[]].
      cbn in W. subst n. left. unfold repairable_part. cbn in I. destruct I as [I|[I|[I|[I|[]]]]]; injection I as <- _; tauto.
    - unfold check_xml_validity in H. apply in_flat_map in H as (path & I & H). destruct (ends_with ".xml" path || ends_with ".rels" path) eqn:E; [|contradiction].
      unfold text in H. destruct (get p path) as [c|] eqn:G; [|contradiction]. cbn [option_map] in H. unfold blank_text in H. destruct (String.eqb_spec (trim (lossy c)) "") as [B|]; [|contradiction].
      destruct H as [<-|[]]. cbn in W. subst n. right. exists c. split; [exact G|]. split; [now apply orb_prop|exact B].
    - assert (F : forall m, In i (check_rels_file lossy p m) -> n = m).
      { intros m J. unfold check_rels_file in J. destruct (text lossy p m); [|contradiction]. apply in_flat_map in J as (line & _ & J). unfold check_line in J. repeat case_match; try contradiction; destruct J as [<-|[]]; exact W. }
      left. unfold check_relationships in H. rewrite !in_app_iff in H. destruct H as [H|[H|H]]; [apply F in H; unfold repairable_part; tauto|apply F in H; unfold repairable_part; tauto|].
      apply in_flat_map in H as (m & M & H). apply F in H. subst m. apply filter_In in M as [_ M]. apply andb_prop in M. unfold repairable_part. tauto.
    - left. unfold check_slide_references in H. rewrite in_app_iff in H. destruct H as [H|H]; apply in_flat_map in H as (x & _ & H); case_match; try contradiction; destruct H as [<-|[]]; cbn in W; unfold repairable_part; tauto.
    - left. unfold check_content_types in H. destruct (text lossy p _); [|contradiction]. apply in_flat_map in H as (x & _ & H). repeat case_match; try contradiction; destruct H as [<-|[]]; cbn in W; unfold repairable_part; tauto.
  Qed.
End F.
Lemma repair_frame lossy o1 o2 o3 p r q n : fair o1 -> repair lossy o1 o2 o3 p = (r, q) ->
  (get_part p n <> None -> get_part q n <> None)
  /\ (get_part q n <> None -> get_part p n <> None \/ In n (map fst REQUIRED_PARTS_REPAIR))
  /\ (~ repairable_part n -> (forall c, get_part p n = Some c -> (ends_with ".xml" n = true \/ ends_with ".rels" n = true) -> trim (lossy c) <> "") -> get_part q n = get_part p n).
Proof.
  intros FO E. destruct (repair_steps _ _ _ _ _ _ _ E) as (FD & _ & _ & _ & A). assert (H := all_frame _ _ _ _ _ _ _ A n). split; [|split].
  - intros N. destruct H as [H|(H & _)]; congruence.
  - intros N. destruct H as [H|(_ & _ & [H|(d & H)])]; [left; congruence|now left|]. right. rewrite FD in H. exact (found_good lossy o1 p _ H).
  - intros NR NB. destruct H as [H|(_ & (i & I & W) & _)]; [exact H|]. rewrite FD in I. destruct (found_writes lossy o1 p i n I W FO) as [R|(c & G & X & B)]; [contradiction|]. exfalso. exact (NB c G X B).
Qed.
Lemma has_get p n : PackageModel.has_part p n = true <-> get_part p n <> None.
Proof. unfold PackageModel.has_part, get_part. destruct (p !! n); split; congruence. Qed.
Lemma required_after lossy o1 o2 o3 p r q n : repair lossy o1 o2 o3 p = (r, q) -> In n (map fst REQUIRED_PARTS_REPAIR) -> get_part q n <> None.
Proof.
  intros E I. destruct (repair_steps _ _ _ _ _ _ _ E) as (FD & _ & _ & _ & A). destruct (get_part p n) as [c|] eqn:G.
  - destruct (all_frame _ _ _ _ _ _ _ A n) as [H|(H & _)]; congruence.
  - apply in_map_iff in I as ([m d] & M & I). cbn in M. subst m. apply (missing_done _ _ _ _ _ _ _ n d A); [|apply in_map_iff; now exists (n, d)].
    rewrite FD. unfold validate. apply in_or_app. left. unfold check_required_parts. apply in_flat_map. exists (n, d). split; [exact I|].
    destruct (PackageModel.has_part p n) eqn:X; [apply has_get in X; contradiction|now left].
Qed.
