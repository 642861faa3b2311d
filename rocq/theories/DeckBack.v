(** A generated deck, opened and read slide by slide. *)
From Coq Require Import String Ascii List Bool Arith NArith Lia Sorted Permutation.
From Verif Require Import Str Num XmlSpec FontsModel FontsSpec PresProofs PackageModel ShapeModel SlideModel SlideInput SlideWant DeckModel DeckInput DeckParts DeckWhole DeckThms ReaderModel ReaderSpec ReaderProofs DeckReader SlideBackSpec SlideBackProofs.
Import ListNotations.
Open Scope nat_scope.
Open Scope string_scope.

Section B.
  Context (X : statics) (title : string) (slides : list slide) (st : settings) (is_dir : string -> bool).
  Notation deck := (create_pptx_with_settings X title slides st).
  Notation pkg := (open_entries is_dir deck).
  Context (FN : List.NoDup (map part_name (st_fonts st))) (FO : forallb font_ok (st_fonts st) = true) (D : forall n c, In (n, c) deck -> is_dir n = false).
  Context (keys : list string) (K : keys_order pkg keys) (L : (N.of_nat (length slides) < u32_max)%N).
  Lemma rd_pkg : rd_package (reader_open pkg keys) = pkg.
  Proof. unfold reader_open. destruct (core_info pkg). reflexivity. Qed.
  Lemma deck_slide i s : nth_error slides i = Some s -> deck_slide_ok s = true -> slide_fits s = true -> sizes_ok s = true ->
    exists r, get_slide (reader_open pkg keys) i = Some r /\ given_back s r.
  Proof.
    intros H OK F S. unfold get_slide. rewrite rd_pkg, (deck_paths X title slides st is_dir FN FO D keys K L).
    assert (I : i < length slides) by (apply nth_error_Some; congruence).
    erewrite map_nth_error by (apply (nth_error_nth' _ 0); now rewrite seq_length). rewrite seq_nth by exact I. cbn [bind].
    assert (G := deck_get X title slides st is_dir FN D _ _ (slide_in X title slides st i s H)). unfold slide_path in G. rewrite (Nat.add_comm i 1) in G. rewrite G. cbn [bind].
    apply slide_back; [exact (ok_slide s OK)|exact (rids_fine s)|exact F|exact S].
  Qed.
  Lemma deck_slides : Forall (fun s => deck_slide_ok s = true /\ slide_fits s = true /\ sizes_ok s = true) slides ->
    exists l, get_all_slides (reader_open pkg keys) = Some l /\ Forall2 given_back slides l.
  Proof.
    intros A. unfold get_all_slides, rd_count. rewrite (deck_paths X title slides st is_dir FN FO D keys K L), map_length, seq_length.
    assert (Z : forall n k, k + n = length slides -> exists l, opt_all (map (get_slide (reader_open pkg keys)) (seq k n)) = Some l /\ Forall2 given_back (skipn k slides) l).
    { induction n as [|n IH]; intros k E.
      - exists []. split; [reflexivity|]. rewrite skipn_all2 by lia. constructor.
      - destruct (IH (S k) ltac:(lia)) as (l & Q & R). assert (Hk : k < length slides) by lia. apply nth_error_Some in Hk. destruct (nth_error slides k) as [s|] eqn:N; [|congruence].
        rewrite Forall_forall in A. destruct (A s (nth_error_In _ _ N)) as (A1 & A2 & A3). destruct (deck_slide k s N A1 A2 A3) as (r & G & B).
        exists (r :: l). cbn [seq map opt_all]. rewrite G, Q. split; [reflexivity|].
        replace (skipn k slides) with (s :: skipn (S k) slides); [now constructor|].
        clear -N. revert k N. induction slides as [|y l IH]; intros [|k] N; try discriminate; [now injection N as ->|]. cbn [skipn]. now apply IH. }
    exact (Z (length slides) 0 eq_refl).
  Qed.
End B.
