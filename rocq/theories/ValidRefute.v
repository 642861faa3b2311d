(** Sample packages and counterexamples for C43. *)
From Coq Require Import String Ascii List Bool Arith ZArith Lia.
From Verif Require Import Str Num XmlSpec OpcSpec GenModel ShapeModel SlideModel SlideRefute DeckModel DeckRefute ResolveSpec ValidModel ValidSpec ValidProofs.
Import ListNotations.
Open Scope nat_scope.
Open Scope string_scope.

Fixpoint zeros (n : nat) : string := match n with O => "" | S n => "0000000000" ++ zeros n end.
(** Fixed parts that meet the conditions on them. *)
Definition statics0 : statics :=
  Statics "<p/>" "<v/>" "<t/>" "<p:bg>" "<p:bg>" (fun _ => "<l/>") "<p:txStyles>" (zeros 700) "<t/>" (fun _ => "<i/>") "PK" "o" "<s/>" "now".
(** The generated deck of DeckRefute: three slides, charts, notes, images, fonts, a signature. *)
Definition package0 : list (string * string) := create_pptx_with_settings statics0 "T" deck0 settings0.
Definition names0 : list string := map fst package0.
Definition no_dir (n : string) : bool := ends_with "/" n.
Definition any_text (c : string) : bool := true.

Fixpoint nodupb (l : list string) : bool := match l with [] => true | x :: l => negb (existsb (String.eqb x) l) && nodupb l end.
Lemma nodupb_ok l : nodupb l = true -> List.NoDup l.
Proof.
  induction l as [|x l IH]; intros H; [constructor|]. cbn in H. apply andb_prop in H as [A B]. constructor; [|now apply IH].
  intros I. apply negb_true_iff in A. assert (T : existsb (String.eqb x) l = true) by (apply existsb_exists; exists x; now rewrite String.eqb_refl). congruence.
Qed.
Lemma names_ok files : nodupb (map fst files) = true -> forallb (fun n => negb (no_dir n)) (map fst files) = true -> archive_names files no_dir (map fst files).
Proof.
  intros A B. split; [now apply nodupb_ok|]. intros n. split.
  - intros I. rewrite forallb_forall in B. specialize (B n I). apply in_map_iff in I as ([m c] & E & I). cbn in E. subst m. exists c. split; [exact I|]. now apply negb_true_iff in B.
  - intros (c & I & _). apply in_map_iff. now exists (n, c).
Qed.
Lemma archive0 : archive_names package0 no_dir names0.
Proof. apply names_ok; vm_compute; reflexivity. Qed.
Lemma valid0 : validate_package package0 any_text names0 = [].
Proof. vm_compute. reflexivity. Qed.

(** The same package with one more entry. *)
Definition with_entry (n c : string) : list (string * string) := (package0 ++ [(n, c)])%list.
Definition bad_rels : string := "<Relationships xmlns=""http://schemas.openxmlformats.org/package/2006/relationships""><Relationship Type=""t"" Target=""missing.xml"" Id=""rId1""/></Relationships>".
Lemma not_present n files : forallb (fun e => negb (String.eqb (fst e) n)) files = true -> ~ present no_dir files n.
Proof.
  intros F (_ & c & I). rewrite forallb_forall in F. specialize (F _ I). cbn in F. now rewrite String.eqb_refl in F.
Qed.
Lemma attribute_order : let files := with_entry "ppt/_rels/presProps.xml.rels" bad_rels in
  archive_names files no_dir (map fst files) /\ validate_package files any_text (map fst files) = []
  /\ rels_of bad_rels = Some [OpcSpec.Rel "rId1" "t" "missing.xml" ""] /\ ~ present no_dir files "ppt/missing.xml".
Proof.
  split; [apply names_ok; vm_compute; reflexivity|]. split; [vm_compute; reflexivity|]. split; [vm_compute; reflexivity|]. apply not_present. vm_compute. reflexivity.
Qed.
Definition good_rels : string := "<Relationships xmlns=""http://schemas.openxmlformats.org/package/2006/relationships""><Relationship Id=""rId1"" Type=""t"" Target=""missing.xml""/></Relationships>".
Lemma unreadable : let files := with_entry "ppt/_rels/presProps.xml.rels" good_rels in
  archive_names files no_dir (map fst files) /\ validate_package files (fun c => negb (String.eqb c good_rels)) (map fst files) = []
  /\ validate_package files any_text (map fst files) <> [].
Proof.
  split; [apply names_ok; vm_compute; reflexivity|]. split; [vm_compute; reflexivity|]. vm_compute. discriminate.
Qed.
Lemma malformed : let files := with_entry "ppt/x.xml" "<a" in
  archive_names files no_dir (map fst files) /\ validate_package files any_text (map fst files) = [] /\ xml_read "<a" = None.
Proof.
  split; [apply names_ok; vm_compute; reflexivity|]. split; [vm_compute; reflexivity|]. vm_compute. reflexivity.
Qed.
Lemma untyped : let files := with_entry "ppt/slides/slide1.xm" "x" in
  archive_names files no_dir (map fst files) /\ validate_package files any_text (map fst files) = []
  /\ exists ct defaults overrides, newest files "[Content_Types].xml" ct /\ types_of ct = Some (defaults, overrides)
       /\ ~ In "xm" (map fst defaults) /\ ~ In "/ppt/slides/slide1.xm" (map fst overrides).
Proof.
  split; [apply names_ok; vm_compute; reflexivity|]. split; [vm_compute; reflexivity|].
  destruct (by_name (with_entry "ppt/slides/slide1.xm" "x") "[Content_Types].xml") as [ct|] eqn:E; [|vm_compute in E; discriminate].
  destruct (types_of ct) as [[d o]|] eqn:T.
  - exists ct, d, o. split; [now apply by_name_newest|]. split; [exact T|]. vm_compute in E. injection E as <-. vm_compute in T. injection T as <- <-.
    split; intros I; cbn in I; repeat (destruct I as [I|I]; [discriminate|]); exact I.
  - exfalso. vm_compute in E. injection E as <-. vm_compute in T. discriminate.
Qed.
(** A generated deck that is reported as broken. *)
Definition quoting : slide :=
  SlideModel.Slide "T" [] [] Bullet None None true false false false false None None TitleAndContent NoTransition None [] [] None [] [] [Code "r:id=""rId99""" "xml" 1%Z 2%Z 3%Z 4%Z] false.
Lemma false_alarm : let files := create_pptx_with_settings statics0 "T" [quoting] no_settings in
  archive_names files no_dir (map fst files) /\ map i_message (validate_package files any_text (map fst files)) = ["ppt/slides/slide1.xml references rId99 but ppt/slides/_rels/slide1.xml.rels has no such relationship"].
Proof. split; [apply names_ok; vm_compute; reflexivity|]. vm_compute. reflexivity. Qed.
Lemma false_alarm_nonempty : let files := create_pptx_with_settings statics0 "T" [quoting] no_settings in validate_package files any_text (map fst files) <> [].
Proof. intros files E. assert (H := proj2 false_alarm). unfold files in E. cbv zeta in H. rewrite E in H. discriminate. Qed.
Lemma untyped_case : exists files names n ct defaults overrides,
  archive_names files no_dir names /\ validate_package files any_text names = [] /\ present no_dir files n /\ n = "ppt/slides/slide1.xm"
  /\ newest files "[Content_Types].xml" ct /\ types_of ct = Some (defaults, overrides) /\ ~ In "xm" (map fst defaults) /\ ~ In ("/" ++ n) (map fst overrides).
Proof.
  destruct untyped as (A & B & ct & d & o & C). exists (with_entry "ppt/slides/slide1.xm" "x"), (map fst (with_entry "ppt/slides/slide1.xm" "x")), "ppt/slides/slide1.xm", ct, d, o.
  split; [exact A|]. split; [exact B|]. split; [|split; [reflexivity|exact C]]. split; [reflexivity|]. exists "x". apply in_or_app. right. now left.
Qed.
Lemma entry_in n c : In (n, c) (with_entry n c).
Proof. apply in_or_app. right. now left. Qed.
