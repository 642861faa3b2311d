(** Samples and counterexamples for C29, C30 and C31. *)
From stdpp Require Import gmap strings.
From Coq Require Import String Ascii List Bool Arith NArith.
From Verif Require Import Str XmlSpec OpcSpec ResolveSpec PackageModel SlideModel SlideSpec SlideRefute GenModel CompressModel CompressSpec CompressProofs ResolveModel ResolveProofs ValidProofs.
Import ListNotations.
Open Scope nat_scope.
Open Scope string_scope.

Definition sample_pieces : list (string * string) :=
  [("", "a x=""1  > 2"" "); ("
  ", "b/"); ("  text  here
", "/a")].
Definition e_in : string := "<a x=""1  > 2"" >
  <b/>  text  here
</a>".
Definition e_out : string := "<a x=""1  > 2"" > <b/> text here</a>".
Lemma sample_minimized : Forall piece_ok sample_pieces /\ doc sample_pieces = e_in /\ minimize_xml e_in = e_out /\ e_in <> e_out.
Proof.
  split; [|repeat split; vm_compute; congruence].
  constructor; [split; [reflexivity|]|repeat constructor]. cbn [snd].
  do 4 (apply tb_char; [reflexivity|]). apply (tb_value "1  > 2" " "); [reflexivity|]. repeat constructor.
Qed.
Lemma text_changed : exists s x y, xml_read s = Some x /\ xml_read (minimize_xml s) = Some y /\ x <> y.
Proof. exists "<a:t>Hello </a:t>". eexists; eexists. split; [vm_compute; reflexivity|]. split; [vm_compute; reflexivity|discriminate]. Qed.
Lemma attribute_changed : exists s x y, xml_read s = Some x /\ xml_read (minimize_xml s) = Some y /\ map (attr "v") (children x) <> map (attr "v") (children y).
Proof. exists "<a>5""<b v=""1  2""/></a>". eexists; eexists. split; [vm_compute; reflexivity|]. split; [vm_compute; reflexivity|vm_compute; discriminate]. Qed.
Lemma not_idempotent : exists s, minimize_xml (minimize_xml s) <> minimize_xml s.
Proof. exists "<a>

</a>". vm_compute. discriminate. Qed.
Lemma sizes_add_up l : a_images (analyze l) + a_xml (analyze l) + a_other (analyze l) = total l.
Proof. rewrite analyze_eq, (sum_split l). reflexivity. Qed.
Lemma categories l : a_images (analyze l) = sum_of an_image l /\ a_xml (analyze l) = sum_of an_xml l /\ a_other (analyze l) = sum_of an_other l.
Proof. rewrite analyze_eq. repeat split. Qed.
Lemma counts l : a_image_count (analyze l) = count an_image l /\ a_slide_count (analyze l) = count a_slide l
  /\ a_image_count (analyze l) + a_media_count (analyze l) = count (starts_with "ppt/media/") l.
Proof. rewrite analyze_eq, media_split. repeat split. Qed.
Lemma upper_case : exists l, count (starts_with "ppt/media/") l = 1 /\ a_image_count (analyze l) = 0 /\ map fst l = ["ppt/media/PHOTO.PNG"].
Proof. exists [("ppt/media/PHOTO.PNG", "x")]. repeat split. Qed.
Section L.
  Context (lossy : string -> string).
  Lemma others_kept (p : package) m : starts_with "ppt/media/" m = false -> remove_unused_media lossy p !! m = p !! m.
  Proof. intros H. rewrite remove_lookup. unfold is_media. rewrite H. reflexivity. Qed.
  Lemma named_kept (p : package) m s c : p !! s = Some c -> a_slide s = true -> contains (file_name m) (lossy c) = true -> remove_unused_media lossy p !! m = p !! m.
  Proof.
    intros P S C. rewrite remove_lookup. replace (referenced lossy p m) with true; [now rewrite andb_false_r|]. symmetry. apply referenced_iff. exists s, c. split; [exact P|]. split; [exact S|]. unfold refers. now rewrite C.
  Qed.
  Lemma removed_unnamed (p : package) m c : p !! m = Some c -> remove_unused_media lossy p !! m = None ->
    starts_with "ppt/media/" m = true /\ forall s x, p !! s = Some x -> a_slide s = true -> contains (file_name m) (lossy x) = false.
  Proof.
    intros P H. rewrite remove_lookup in H. destruct (is_media m && negb (referenced lossy p m)) eqn:E; [|rewrite P in H; discriminate H].
    apply andb_true_iff in E. destruct E as [E1 E2]. split; [exact E1|]. intros s x Q S. apply negb_true_iff in E2.
    destruct (contains (file_name m) (lossy x)) eqn:C; [|reflexivity]. rewrite <- E2. symmetry. apply referenced_iff. exists s, x. split; [exact Q|]. split; [exact S|]. unfold refers. now rewrite C.
  Qed.
  Lemma optimize_lookup (p : package) m :
    optimize_xml_content lossy p !! m = if ends_with ".xml" m || ends_with ".rels" m then option_map (fun c => minimize_xml (lossy c)) (p !! m) else p !! m.
  Proof. unfold optimize_xml_content. rewrite map_lookup_imap. destruct (ends_with ".xml" m || ends_with ".rels" m), (p !! m); reflexivity. Qed.
  Lemma compress_keeps o (p : package) m : o_media o = false -> o_properties o = false -> o_notes o = false ->
    (compress lossy o p !! m = None <-> p !! m = None).
  Proof.
    intros A B C. unfold compress. rewrite A, B, C. destruct (o_xml o); [|reflexivity]. rewrite optimize_lookup.
    destruct (ends_with ".xml" m || ends_with ".rels" m); [|reflexivity]. destruct (p !! m); cbn [option_map]; split; congruence.
  Qed.
  Lemma file_name_end d f : noslash f = true -> file_name (d ++ "/" ++ f) = f.
  Proof.
    intros H. assert (S := split_once_srev f d H). unfold ResolveModel.rsplit_once in S. unfold file_name. change (s1 "/") with "/" in S.
    destruct (split_once "/" (srev (d ++ "/" ++ f))) as [[a b]|]; [|discriminate S]. congruence.
  Qed.
  Lemma last_cut s : exists dir f, s = dir ++ f /\ noslash f = true /\ (dir = "" \/ exists d, dir = d ++ "/").
  Proof.
    induction s as [|c s (dir & f & -> & F & D)].
    - exists "", "". auto.
    - destruct D as [->|(d & ->)].
      + destruct (Ascii.eqb_spec c "/") as [->|N].
        * exists "/", f. split; [reflexivity|]. split; [exact F|]. right. now exists "".
        * exists "", (String c f). split; [reflexivity|]. split; [|now left]. cbn [sforall]. apply andb_true_iff. split; [|exact F].
          apply negb_true_iff. now apply Ascii.eqb_neq.
      + exists (String c d ++ "/"), f. split; [reflexivity|]. split; [exact F|]. right. now exists (String c d).
  Qed.
  Lemma media_cut dir f : noslash f = true -> (dir = "" \/ exists d, dir = d ++ "/") -> file_name ("ppt/media/" ++ dir ++ f) = f.
  Proof.
    intros F [->|(d & ->)].
    - exact (file_name_end "ppt/media" f F).
    - rewrite sapp_assoc. exact (file_name_end ("ppt/media/" ++ d) f F).
  Qed.
  Lemma contains_end a f x : contains (a ++ f) x = true -> contains f x = true.
  Proof. rewrite !contains_iff. intros (u & v & ->). exists (u ++ a), v. now rewrite !sapp_assoc. Qed.
  Lemma unnamed_iff (p : package) m : is_media m && negb (referenced lossy p m) = true <-> unnamed lossy p m.
  Proof.
    rewrite andb_true_iff, negb_true_iff. split.
    - intros [M R]. unfold is_media in M. apply starts_with_iff in M. destruct M as [r ->]. destruct (last_cut r) as (dir & f & -> & F & D).
      exists dir, f. split; [reflexivity|]. split; [exact F|]. split; [exact D|]. intros s x P S. destruct (contains f (lossy x)) eqn:C; [|reflexivity].
      rewrite <- R. symmetry. apply referenced_iff. exists s, x. split; [exact P|]. split; [exact S|]. unfold refers. rewrite (media_cut dir f F D), C. reflexivity.
    - intros (dir & f & -> & F & D & H). split; [unfold is_media; apply starts_with_iff; now exists (dir ++ f)|].
      destruct (referenced lossy p ("ppt/media/" ++ dir ++ f)) eqn:R; [|reflexivity]. apply referenced_iff in R. destruct R as (s & x & P & S & R).
      rewrite <- (H s x P S). unfold refers in R. rewrite (media_cut dir f F D) in R. apply orb_true_iff in R. destruct R as [R|R]; [now symmetry|].
      symmetry. apply (contains_end ("media/" ++ dir)). rewrite sapp_assoc. exact R.
  Qed.
  Lemma compress_exact o (p : package) m :
    (removed lossy (o_media o) (o_properties o) (o_notes o) p m -> compress lossy o p !! m = None)
    /\ (~ removed lossy (o_media o) (o_properties o) (o_notes o) p m -> compress lossy o p !! m =
        if o_xml o && (ends_with ".xml" m || ends_with ".rels" m) then option_map (fun c => minimize_xml (lossy c)) (p !! m) else p !! m).
  Proof.
    pose (gone := (o_media o && (is_media m && negb (referenced lossy p m)))
      || (o_properties o && existsb (String.eqb m) ["docProps/core.xml"; "docProps/app.xml"; "docProps/custom.xml"; "docProps/thumbnail.jpeg"])
      || (o_notes o && starts_with "ppt/notesSlides/" m)).
    assert (G : gone = true <-> removed lossy (o_media o) (o_properties o) (o_notes o) p m).
    { unfold gone, removed. rewrite !orb_true_iff, !(andb_true_iff (o_media o)), !(andb_true_iff (o_properties o)), !(andb_true_iff (o_notes o)), unnamed_iff, existsb_exists.
      assert (E : (exists x, In x ["docProps/core.xml"; "docProps/app.xml"; "docProps/custom.xml"; "docProps/thumbnail.jpeg"] /\ String.eqb m x = true)
        <-> In m ["docProps/core.xml"; "docProps/app.xml"; "docProps/custom.xml"; "docProps/thumbnail.jpeg"]).
      { split; [intros (x & I & Q); apply String.eqb_eq in Q; now subst|intros I; exists m; split; [exact I|apply String.eqb_refl]]. }
      rewrite E. tauto. }
    assert (L : compress lossy o p !! m = if gone then None else
        if o_xml o && (ends_with ".xml" m || ends_with ".rels" m) then option_map (fun c => minimize_xml (lossy c)) (p !! m) else p !! m).
    { unfold compress, gone. cbv zeta. clear G gone.
      destruct (o_xml o), (o_notes o), (o_properties o), (o_media o); cbn [andb orb];
        rewrite ?optimize_lookup, ?notes_lookup, ?props_lookup, ?remove_lookup;
        try destruct (is_media m && negb (referenced lossy p m)); try destruct (existsb (String.eqb m) _); try destruct (starts_with "ppt/notesSlides/" m);
        cbn [orb option_map]; try reflexivity; destruct (ends_with ".xml" m || ends_with ".rels" m); reflexivity. }
    rewrite L. split; intros H.
    - apply G in H. now rewrite H.
    - destruct gone; [exfalso; apply H; now apply G|reflexivity].
  Qed.
End L.
Lemma removed_case : removed (fun s => s) true false false {["ppt/media/b.png" := "B"]} "ppt/media/b.png"
  /\ ~ removed (fun s => s) false true true {["ppt/media/b.png" := "B"]} "ppt/media/b.png"
  /\ removed (fun s => s) false true false {["docProps/app.xml" := "B"]} "docProps/app.xml"
  /\ removed (fun s => s) false false true ∅ "ppt/notesSlides/_rels/n.rels".
Proof.
  split; [|split; [|split]].
  - left. split; [reflexivity|]. exists "", "b.png". split; [reflexivity|]. split; [reflexivity|]. split; [now left|].
    intros s x P S. apply lookup_singleton_Some in P. destruct P as [<- _]. discriminate S.
  - intros [[E _]|[[_ I]|[_ E]]]; [discriminate E| |discriminate E]. cbn [In] in I. repeat (destruct I as [I|I]; [discriminate I|]). exact I.
  - right. left. split; [reflexivity|]. right. left. reflexivity.
  - right. right. split; reflexivity.
Qed.
Lemma media_case : exists p : package, p !! "ppt/slides/slide1.xml" = Some "see a.png" /\ remove_unused_media (fun s => s) p !! "ppt/media/a.png" = Some "A"
  /\ remove_unused_media (fun s => s) p !! "ppt/media/b.png" = None /\ p !! "ppt/media/b.png" = Some "B".
Proof.
  exists (<["ppt/slides/slide1.xml" := "see a.png"]> (<["ppt/media/a.png" := "A"]> {["ppt/media/b.png" := "B"]})).
  split; [reflexivity|]. rewrite !remove_lookup. split; [|split]; vm_compute; reflexivity.
Qed.
Definition pictured : slide :=
  Slide "T" [] [] Bullet None None true false false false false None None TitleAndContent NoTransition None []
    [ShapeModel.Image "a.png" 0 0 10 10 None None [] (Some "bytes") "png"] (Some "notes") [] [chart0] [] false.
Definition slide_rels : string := create_slide_rels_xml_with_images 2 true 1 [("rId4", "../charts/chart1.xml")] [(1, "png")] [] None.
Definition p0 : package :=
  <["ppt/slides/slide1.xml" := slide_xml pictured ["rId4"] None]> (<["ppt/slides/_rels/slide1.xml.rels" := slide_rels]>
    (<["ppt/media/image1.png" := "bytes"]> {["ppt/notesSlides/notesSlide1.xml" := "notes"]})).
Lemma p0_rel (p : package) r e : p !! "ppt/slides/_rels/slide1.xml.rels" = Some slide_rels ->
  (exists l, rels_of slide_rels = Some l /\ In r l) -> rel_mode r <> "External" ->
  rel_target r = ".." ++ "/" ++ fst e ++ "/" ++ snd e -> name (fst e) -> name (snd e) ->
  relates p ["ppt"; "slides"] "slide1.xml" (rel_id r) (path ["ppt"; fst e; snd e]).
Proof.
  intros P (l & L & I) M T N1 N2. exists slide_rels, l, r, [".."; fst e; snd e], ["ppt"; fst e; snd e].
  split; [exact P|]. split; [exact L|]. split; [exact I|]. split; [reflexivity|]. split; [exact M|]. split; [|split; [|reflexivity]].
  - rewrite T. apply more; [reflexivity|]. apply more; [apply N1|]. apply one. apply N2.
  - apply (up ["ppt"]). apply down; [exact N1|]. apply (down ["ppt"; fst e]); [exact N2|]. apply done.
Qed.
Definition rel_no (k : nat) : rel := match rels_of slide_rels with Some l => nth k l (Rel "" "" "" "External") | None => Rel "" "" "" "External" end.
Lemma rel_no_in k : Nat.ltb k 4 = true -> exists l, rels_of slide_rels = Some l /\ In (rel_no k) l.
Proof.
  intros H. unfold rel_no. destruct (rels_of slide_rels) as [l|] eqn:E; [|vm_compute in E; discriminate]. exists l. split; [reflexivity|]. apply nth_In.
  assert (L : option_map (@length _) (rels_of slide_rels) = Some 4) by (vm_compute; reflexivity). rewrite E in L. injection L as ->. now apply Nat.ltb_lt.
Qed.
Lemma media_rel (p : package) : p !! "ppt/slides/_rels/slide1.xml.rels" = Some slide_rels -> relates p ["ppt"; "slides"] "slide1.xml" "rId3" "ppt/media/image1.png".
Proof.
  intros P. assert (E : rel_no 2 = Rel "rId3" (rel_type (rel_no 2)) "../media/image1.png" "") by (vm_compute; reflexivity).
  pose proof (p0_rel p (rel_no 2) ("media", "image1.png") P (rel_no_in 2 eq_refl)) as H. rewrite E in H. cbn [rel_mode rel_target rel_id fst snd] in H.
  apply H; [discriminate|reflexivity| |]; repeat split; discriminate.
Qed.
Lemma notes_rel (p : package) : p !! "ppt/slides/_rels/slide1.xml.rels" = Some slide_rels -> relates p ["ppt"; "slides"] "slide1.xml" "rId2" "ppt/notesSlides/notesSlide1.xml".
Proof.
  intros P. assert (E : rel_no 1 = Rel "rId2" (rel_type (rel_no 1)) "../notesSlides/notesSlide1.xml" "") by (vm_compute; reflexivity).
  pose proof (p0_rel p (rel_no 1) ("notesSlides", "notesSlide1.xml") P (rel_no_in 1 eq_refl)) as H. rewrite E in H. cbn [rel_mode rel_target rel_id fst snd] in H.
  apply H; [discriminate|reflexivity| |]; repeat split; discriminate.
Qed.
Lemma used_media_removed : exists (p : package) id,
  p !! "ppt/slides/slide1.xml" = Some (slide_xml pictured ["rId4"] None)
  /\ (exists x, xml_read (slide_xml pictured ["rId4"] None) = Some x /\ In id (rel_ids_used x))
  /\ relates p ["ppt"; "slides"] "slide1.xml" id "ppt/media/image1.png"
  /\ p !! "ppt/media/image1.png" = Some "bytes"
  /\ remove_unused_media (fun s => s) p !! "ppt/media/image1.png" = None
  /\ relates (remove_unused_media (fun s => s) p) ["ppt"; "slides"] "slide1.xml" id "ppt/media/image1.png".
Proof.
  exists p0, "rId3". split; [reflexivity|]. split; [|split; [|split; [reflexivity|split]]].
  - assert (E : option_map rel_ids_used (xml_read (slide_xml pictured ["rId4"] None)) = Some ["rId3"; "rId4"]) by (vm_compute; reflexivity).
    destruct (xml_read (slide_xml pictured ["rId4"] None)) as [x|]; [|discriminate E]. exists x. split; [reflexivity|]. injection E as ->. now left.
  - apply media_rel. reflexivity.
  - rewrite remove_lookup. replace (referenced (fun s => s) p0 "ppt/media/image1.png") with false; [reflexivity|]. vm_compute. reflexivity.
  - apply media_rel. rewrite others_kept by reflexivity. reflexivity.
Qed.
Lemma notes_dangle : exists (p : package) id, relates p ["ppt"; "slides"] "slide1.xml" id "ppt/notesSlides/notesSlide1.xml"
  /\ p !! "ppt/notesSlides/notesSlide1.xml" = Some "notes"
  /\ remove_notes_slides p !! "ppt/notesSlides/notesSlide1.xml" = None
  /\ relates (remove_notes_slides p) ["ppt"; "slides"] "slide1.xml" id "ppt/notesSlides/notesSlide1.xml".
Proof.
  exists p0, "rId2". split; [apply notes_rel; reflexivity|]. split; [reflexivity|]. split.
  - unfold remove_notes_slides. apply map_filter_lookup_None. right. intros x _. discriminate.
  - apply notes_rel. unfold remove_notes_slides. apply map_filter_lookup_Some. split; reflexivity.
Qed.
