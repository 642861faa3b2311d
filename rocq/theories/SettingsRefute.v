(** A deck with all settings, and settings that do not reach the deck. *)
From Coq Require Import String Ascii List Bool Arith NArith ZArith.
From Verif Require Import Str Num XmlSpec XmlProofs XmlTpl OpcSpec SlideSpec XmlPath FontsModel SlideModel DeckModel DeckSpec DeckInput DeckRefute SettingsModel SettingsSpec SettingsKinds ShowProofs PrintProofs MasterProofs ThemeProofs SignProofs SettingsThms.
Import ListNotations.
Open Scope nat_scope.
Open Scope string_scope.

Definition show0 : slide_show := SlideShow Kiosk true false true (strip_hash_upper "#00ff7F") (RangeFromTo 2 7) false false.
Definition show1 : slide_show := SlideShow Speaker false false false "FF0000" (RangeCustom [1; 3]%N) false true.
Definition print0 : print_settings := PrintSettings PrintHandouts PrintGray PerPage6 true true false Portrait (Some "A & B") (Some "<foot>") true true.
Definition theme0 : theme := Theme "Sea & ""Sky""" (Colors "101010" "FAFAFA" "202020" "EEEEEE" "0044AA" "0088CC" "00AAAA" "AA4400" "44AA00" "8800CC" "0000EE" "551A8B") "Georgia" "Verdana".
Definition theme1 : theme := theme_new "Office Theme".
Definition sign0 : signature := Signature (Signer "Ann & Co" (Some "a@example.org") (Some "Co") None) Sha384 (Some "2026-01-02T03:04:05Z") Approved (Some "x < y").
Definition strokes0 : list stroke := [Stroke [(0, 0); (-15, 20)]%Z (Pen "FF0000" 53 Ball None); Stroke [(7, 8)]%Z (Pen "00FF00" 106 Flat (Some "128"))].
Definition set0 : presentation_settings := PresentationSettings (Some theme0) (Some show0) (Some print0) [] (Some sign0).
Definition rest0 : rest := Rest "<n/>" (fun _ => strokes0) "PK" "now".

(** A master says nothing of the header's text. *)
Lemma master_header_empty r title slides p q h : ps_print p = Some q -> footer_ok q = true -> pr_header q = Some h ->
  exists x, shows (generate r title slides p) "ppt/slideMasters/slideMaster1.xml" x /\ map shape_runs (placeholders "hdr" x) = [[]].
Proof. intros E F H. destruct (master_kept r title slides p q E F) as (x & S & P & _). exists x. split; [exact S|]. now rewrite H in P. Qed.
(** The fonts of a theme called "Office Theme" with the Office colours are lost,
    also the default ones. *)
Lemma office_fonts_lost r title slides p t : ps_theme p = Some t -> th_name t = "Office Theme" -> th_colors t = office_colors ->
  exists x, shows (generate r title slides p) "ppt/theme/theme1.xml" x /\ latin_face x "a:majorFont" = ["Calibri"] /\ latin_face x "a:minorFont" = ["Calibri"].
Proof.
  intros E N C. destruct (any_theme_reads (Theme "Office Theme" office_colors "Calibri" "Calibri")) as (x & X & _ & _ & R); [reflexivity|intros; now split|]. exists x. split; [|exact R].
  exists office_theme_xml. split; [|exact X]. pose proof (in_theme r title slides p) as I. rewrite E in I. cbn [create_theme_xml] in I. unfold theme_xml in I. rewrite N, C in I. exact I.
Qed.
(** Ink without strokes is a part without a document. *)
Lemma no_strokes r title slides p i s : nth_error slides i = Some s -> s_ink s = true -> r_ink r s = [] ->
  exists n c, In (n, c) (generate r title slides p) /\ starts_with "ppt/ink/" n = true /\ xml_read c = None.
Proof.
  intros H I E. exists (ink_path (DeckWhole.inks_before slides i + 1)), "". split; [|split; reflexivity].
  pose proof (DeckWhole.ink_in (statics_of p r) title slides (settings_of p) i s H I) as K. cbn [statics_of x_ink] in K. rewrite E in K. exact K.
Qed.
