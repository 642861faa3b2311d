From Coq Require Import String Ascii List Bool Arith NArith.
From Verif Require Import Str Num PackageModel XmlSpec OpcSpec RelsSpec ValidSpec RepairModel RepairSpec RepairProofs RepairRefute ValidRefute.
Import ListNotations.
Open Scope nat_scope.
Open Scope string_scope.

(** Only the repair of a missing part writes the package relationships when they
    are missing. *)
Lemma only_missing lossy o p i : get_part p "_rels/.rels" = None -> In i (validate lossy o p) -> fair o -> writes i "_rels/.rels" -> exists d, i = MissingPartP "_rels/.rels" d.
Proof.
  intros G H [FP FS] W. assert (T : text lossy p "_rels/.rels" = None) by (unfold text; now rewrite G).
  unfold validate in H. rewrite !in_app_iff in H. destruct H as [H|[H|[H|[H|H]]]].
  - unfold check_required_parts in H. apply in_flat_map in H as ([path d] & I & H). destruct (PackageModel.has_part p path); [contradiction|]. destruct H as [<-|[]]. cbn in W. subst path. now exists d.
  - unfold check_xml_validity in H. apply in_flat_map in H as (path & I & H). destruct (ends_with ".xml" path || ends_with ".rels" path); [|contradiction].
    destruct (text lossy p path) eqn:E; [|contradiction]. destruct (blank_text s); [|contradiction]. destruct H as [<-|[]]. cbn in W. congruence.
  - assert (F : forall m, In i (check_rels_file lossy p m) -> False).
    { intros m J. unfold check_rels_file in J. destruct (text lossy p m) eqn:E; [|contradiction]. apply in_flat_map in J as (line & _ & J). unfold check_line in J.
      assert (m = "_rels/.rels"); [|congruence]. symmetry. repeat match type of J with context [match ?x with _ => _ end] => destruct x end; try contradiction; destruct J as [<-|[]]; exact W. }
    exfalso. unfold check_relationships in H. rewrite !in_app_iff in H. destruct H as [H|[H|H]]; [now apply F in H|now apply F in H|]. apply in_flat_map in H as (m & _ & H). now apply F in H.
  - exfalso. unfold check_slide_references in H. rewrite in_app_iff in H. destruct H as [H|H]; apply in_flat_map in H as (x & _ & H);
      repeat match type of H with context [match ?x with _ => _ end] => destruct x end; try contradiction; destruct H as [<-|[]]; cbn in W; [|destruct W]; discriminate.
  - exfalso. unfold check_content_types in H. destruct (text lossy p _); [|contradiction]. apply in_flat_map in H as (x & _ & H).
      repeat match type of H with context [match ?x with _ => _ end] => destruct x end; try contradiction; destruct H as [<-|[]]; cbn in W; discriminate.
Qed.
Lemma stays lossy o l : forall p q f k, repair_all lossy o p l = (q, f, k) -> (forall i, In i l -> writes i "_rels/.rels" -> exists d, i = MissingPartP "_rels/.rels" d) ->
  get_part p "_rels/.rels" = Some generate_package_rels \/ (exists d, In (MissingPartP "_rels/.rels" d) l) -> get_part q "_rels/.rels" = Some generate_package_rels.
Proof.
  induction l as [|i l IH]; intros p q f k E W H.
  - injection E as <- _ _. destruct H as [H|(d & [])]; exact H.
  - assert (W' : forall j, In j l -> writes j "_rels/.rels" -> exists d, j = MissingPartP "_rels/.rels" d) by (intros j J; apply W; now right).
    cbn [repair_all is_repairable] in E. destruct (repair_issue lossy o p i) as [p1|] eqn:R.
    + destruct (repair_all lossy o p1 l) as [[q1 f1] k1] eqn:A. injection E as <- _ _. apply (IH _ _ _ _ A W').
      assert (M : (exists d, i = MissingPartP "_rels/.rels" d) -> get_part p1 "_rels/.rels" = Some generate_package_rels).
      { intros (d & ->). cbn in R. injection R as <-. rewrite get_add. reflexivity. }
      destruct (issue_frame lossy o p i p1 R "_rels/.rels") as [S|(S & _)].
      * destruct H as [H|(d & [->|H])]; [left; congruence|left; apply M; now exists d|right; now exists d].
      * left. apply M. apply W; [now left|exact S].
    + destruct (repair_all lossy o p l) as [[q1 f1] k1] eqn:A. injection E as <- _ _. apply (IH _ _ _ _ A W'). destruct H as [H|(d & [->|H])]; [now left|discriminate R|right; now exists d].
Qed.
Theorem made_rels lossy o1 o2 o3 p r q : fair o1 -> repair lossy o1 o2 o3 p = (r, q) -> get_part p "_rels/.rels" = None ->
  exists t, get_part q "_rels/.rels" = Some t /\ rels_of t = Some
    [Rel "rId1" (doc_rel "officeDocument") "ppt/presentation.xml" "";
     Rel "rId2" "http://schemas.openxmlformats.org/package/2006/relationships/metadata/core-properties" "docProps/core.xml" "";
     Rel "rId3" (doc_rel "extended-properties") "docProps/app.xml" ""].
Proof.
  intros F E G. exists generate_package_rels. split; [|vm_compute; reflexivity]. destruct (repair_steps _ _ _ _ _ _ _ E) as (FD & _ & _ & _ & A). apply (stays _ _ _ _ _ _ _ A).
  - intros i I W. rewrite FD in I. exact (only_missing lossy o1 p i G I F W).
  - right. eexists. rewrite FD. unfold validate. apply in_or_app. left. unfold check_required_parts. apply in_flat_map. exists (nth 1 REQUIRED_PARTS_REPAIR ("", "")). split; [cbn; tauto|].
    cbn [nth REQUIRED_PARTS_REPAIR]. destruct (PackageModel.has_part p "_rels/.rels") eqn:X; [apply has_get in X; contradiction|now left].
Qed.
(** A package without relationships and without document properties. *)
Definition no_rels : package := open_entries no_dir [("[Content_Types].xml", types1); ("ppt/slideMasters/slideMaster1.xml", "<m/>"); ("ppt/_rels/presentation.xml.rels", rels1); ("ppt/presentation.xml", pres1); ("ppt/slides/slide1.xml", "<s/>")].
