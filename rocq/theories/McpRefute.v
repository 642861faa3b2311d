(** Counterexamples and an example deck on disk for C55. *)
From Coq Require Import String Ascii List Bool Arith NArith ZArith Lia Permutation.
From stdpp Require fin_maps.
From Verif Require Import Str Num XmlSpec FontsModel FontsSpec PackageModel TableModel ShapeModel ChartModel SlideModel SlideInput SlideSpec SlideWant SlideRefute SlideBackSpec DeckModel DeckInput DeckRefute ReaderModel ReaderSpec
  DocPropsProofs MdParseModel ImportModel ImportSpec ImportRefute McpModel McpSpec McpProofs.
Import ListNotations.
Open Scope nat_scope.
Open Scope string_scope.

(** Two files on disk: a deck of several slides, and one of a single slide. *)
Definition pack (title : string) (slides : list slide) : package := open_entries (fun _ => false) (create_pptx_with_settings statics1 title slides no_settings).
Definition disk (path : string) : option (package * list string) :=
  if String.eqb path "a.pptx" then Some (pack "First" deck0, map fst (fin_maps.map_to_list (pack "First" deck0)))
  else if String.eqb path "b.pptx" then Some (pack "Second" [slide_new "More"], map fst (fin_maps.map_to_list (pack "Second" [slide_new "More"]))) else None.
Lemma saved title slides : slides_in slides -> (N.of_nat (length slides) < u32_max)%N -> plain_title title = true -> saved_deck (Some (pack title slides, map fst (fin_maps.map_to_list (pack title slides)))) title slides.
Proof.
  intros A L P. exists statics1, no_settings, (fun _ => false), (map fst (fin_maps.map_to_list (pack title slides))). cbv zeta. split; [reflexivity|]. split; [constructor|]. split; [reflexivity|].
  split; [reflexivity|]. split; [apply Permutation_refl|]. repeat split; assumption.
Qed.
Lemma disk_decks : Forall2 (fun p d => saved_deck (disk p) (fst d) (snd d)) ["a.pptx"; "b.pptx"] [("First", deck0); ("Second", [slide_new "More"])].
Proof.
  constructor; [|constructor; [|constructor]]; cbn [fst snd]; (apply saved; [|vm_compute; reflexivity|vm_compute; reflexivity]).
  - unfold slides_in. assert (H : forallb (fun s => deck_slide_ok s && slide_fits s && sizes_ok s) deck0 = true) by (vm_compute; reflexivity).
    rewrite forallb_forall in H. apply Forall_forall. intros s I. specialize (H s I). apply andb_true_iff in H as [H H3]. apply andb_true_iff in H as [H1 H2]. tauto.
  - constructor; [|constructor]. repeat split; vm_compute; reflexivity.
Qed.
Lemma count_wrong : exists args files l, handle_create_with_tables statics1 "T" "out.pptx" args = Done "Created presentation with 2 table slide(s) at: out.pptx" files
  /\ get_all_slides (reader_open (open_entries (fun _ => false) files) []) = Some l /\ length l = 1.
Proof.
  exists [TableArg "One" [["a"; "b"]; ["1"; "2"]]; TableArg "Two" []]. do 2 eexists. split; [vm_compute; reflexivity|]. split; [vm_compute; reflexivity|reflexivity].
Qed.
Lemma layout_ignored X title path a l : handle_create_presentation X title path [SlideArg (a_title a) (a_bullets a) l] = handle_create_presentation X title path [a].
Proof. destruct a. reflexivity. Qed.
Lemma charts_unseen : exists s ms, deck_slide_ok s = true /\ length (s_charts s) = 1 /\ length (s_images s) = 1
  /\ handle_get_pptx_info (fun _ _ _ => 0%N) (fun _ => Some (pack "T" [s], [])) "a.pptx" = Some ("T", 1, ms) /\ map m_features ms = [["shapes"]].
Proof.
  exists rich. eexists.
  split; [reflexivity|]. split; [reflexivity|]. split; [reflexivity|]. split; [vm_compute; reflexivity|reflexivity].
Qed.
