(** Presentations of common kinds read back. *)
From Coq Require Import String Ascii List Bool Arith NArith Lia.
From Verif Require Import Str XmlSpec Num SlideModel DeckModel SettingsModel SlideBackSpec McpSpec ImportProofs McpProofs MdParseModel WebModel WebSpec WebText WebSlides WebThms TemplateModel TemplateSpec.
Import ListNotations.
Open Scope string_scope.

Lemma listed_is t l : listed t l = P (t, l).
Proof. unfold listed. rewrite base_new, base_bullets. reflexivity. Qed.
Lemma listed_shows t l : page_ok (t, l) = true -> shows (listed t l) (t, l).
Proof. intros H. apply andb_prop in H as [A B]. rewrite listed_is. now apply page_shows. Qed.
Lemma centred_shows t b : page_ok (t, []) = true -> text_ok b = true -> shows (with_layout CenteredTitle (add_bullet b (slide_new t))) (t, []).
Proof. intros H B. apply andb_prop in H as [A _]. apply (title_shows t [b] A). cbn. now rewrite B. Qed.
Lemma lists_show l : pages_ok l = true -> Forall2 shows (map (fun m => listed (fst m) (snd m)) l) l.
Proof. induction l as [|[t b] l IH]; intros H; [constructor|]. apply andb_prop in H as [A B]. constructor; [now apply listed_shows|now apply IH]. Qed.
Lemma any_shows {A} t (f : A -> string) l : pages_ok (if_any t (map f l)) = true -> Forall2 shows (if negb (is_nil l) then [listed t (map f l)] else []) (if_any t (map f l)).
Proof. destruct l as [|x l]; intros H; [constructor|]. apply andb_prop in H as [A' _]. constructor; [now apply listed_shows|constructor]. Qed.
Lemma pages_app a b : pages_ok (a ++ b) = pages_ok a && pages_ok b.
Proof. apply forallb_app. Qed.
Lemma same_length a b : Forall2 shows a b -> length a = length b.
Proof. induction 1; cbn; congruence. Qed.
Lemma proposal_back X title author c : pages_ok (proposal_pages title c) = true -> text_ok author = true ->
  reads_as (business_proposal X title author c) (fun l => Forall2 page_read l (proposal_pages title c)).
Proof.
  intros H A. assert (F : Forall2 shows (proposal_slides title author c) (proposal_pages title c)).
  { unfold proposal_pages, pages_ok in H. cbn [forallb] in H. apply andb_prop in H as [H1 H]. apply andb_prop in H as [H2 H]. apply andb_prop in H as [H3 H]. apply andb_prop in H as [H4 H]. apply andb_prop in H as [H5 H]. apply andb_prop in H as [H6 H]. apply andb_prop in H as [H7 H]. apply andb_prop in H as [H8 H].
    unfold proposal_slides, proposal_pages. constructor; [exact (centred_shows _ _ H1 A)|]. constructor; [exact (listed_shows "Agenda" ["Executive Summary"; "Problem Statement"; "Proposed Solution"; "Timeline & Budget"; "Next Steps"] H2)|].
    constructor; [exact (listed_shows _ _ H3)|]. constructor; [exact (listed_shows _ _ H4)|]. constructor; [exact (listed_shows _ _ H5)|]. constructor; [exact (listed_shows _ _ H6)|]. constructor; [exact (listed_shows _ _ H7)|]. constructor; [exact (listed_shows _ _ H8)|].
    constructor; [|constructor]. apply centred_shows; reflexivity. }
  apply deck_shows; [exact F|]. rewrite (same_length _ _ F). reflexivity.
Qed.
Lemma training_back X title author c : pages_ok (training_pages title c) = true -> text_ok author = true -> (N.of_nat (length (training_pages title c)) < u32_max)%N ->
  reads_as (training_material X title author c) (fun l => Forall2 page_read l (training_pages title c)).
Proof.
  intros H A L. assert (F : Forall2 shows (training_slides title author c) (training_pages title c)).
  { unfold training_pages, pages_ok in H. cbn [forallb] in H. apply andb_prop in H as [H1 H]. apply andb_prop in H as [H2 H]. rewrite forallb_app in H. apply andb_prop in H as [H3 H]. cbn [forallb] in H. apply andb_prop in H as [H4 H]. apply andb_prop in H as [H5 H].
    unfold training_slides, training_pages. constructor; [now apply centred_shows|]. constructor; [now apply listed_shows|]. apply Forall2_app; [now apply lists_show|].
    constructor; [now apply listed_shows|]. constructor; [now apply listed_shows|]. constructor; [apply (title_shows "Questions?" []); reflexivity|constructor]. }
  apply deck_shows; [exact F|]. now rewrite (same_length _ _ F).
Qed.
Lemma status_back X title date c : pages_ok (status_pages title c) = true -> text_ok date = true ->
  reads_as (status_report X title date c) (fun l => Forall2 page_read l (status_pages title c)).
Proof.
  intros H A. assert (F : Forall2 shows (status_slides title date c) (status_pages title c)).
  { unfold status_pages in H. rewrite !pages_app in H. apply andb_prop in H as [H1 H]. apply andb_prop in H as [H2 H]. apply andb_prop in H as [H3 H4]. unfold pages_ok in H1, H3. cbn [forallb] in H1, H3. repeat (apply andb_prop in H1 as [? H1]). apply andb_prop in H3 as [H3 _].
    unfold status_slides, status_pages. apply Forall2_app; [|apply Forall2_app; [|apply Forall2_app]].
    - constructor; [now apply centred_shows|]. repeat (constructor; [now apply listed_shows|]). constructor.
    - rewrite <- (map_id (st_blocked c)) at 2. rewrite <- (map_id (st_blocked c)) in H2. rewrite <- (map_id (st_blocked c)) at 3. now apply any_shows.
    - constructor; [now apply listed_shows|constructor].
    - now apply any_shows. }
  apply deck_shows; [exact F|]. rewrite (same_length _ _ F). unfold status_pages. rewrite !app_length. cbn [length]. unfold if_any. destruct (st_blocked c), (said ": " (st_metrics c)); reflexivity.
Qed.
Lemma technical_back X title version c : pages_ok (technical_pages title c) = true -> text_ok version = true -> (N.of_nat (length (technical_pages title c)) < u32_max)%N ->
  reads_as (technical_doc X title version c) (fun l => Forall2 page_read l (technical_pages title c)).
Proof.
  intros H A L. assert (F : Forall2 shows (technical_slides title version c) (technical_pages title c)).
  { unfold technical_pages in H. rewrite !pages_app in H. apply andb_prop in H as [H1 H]. apply andb_prop in H as [H2 H]. apply andb_prop in H as [H3 H4]. unfold pages_ok in H1, H4. cbn [forallb] in H1, H4. repeat (apply andb_prop in H1 as [? H1]). apply andb_prop in H4 as [H4 _].
    unfold technical_slides, technical_pages. apply Forall2_app; [|apply Forall2_app; [|apply Forall2_app]].
    - constructor; [apply centred_shows; [assumption|]; rewrite text_ok_app, A; reflexivity|]. repeat (constructor; [now apply listed_shows|]). constructor.
    - now apply lists_show.
    - now apply any_shows.
    - constructor; [now apply listed_shows|constructor]. }
  apply deck_shows; [exact F|]. now rewrite (same_length _ _ F).
Qed.
Lemma simple_back X title slides : pages_ok slides = true -> (N.of_nat (length slides) < u32_max)%N -> reads_as (simple X title slides) (fun l => Forall2 page_read l slides).
Proof. intros H L. apply deck_shows; [now apply lists_show|]. now rewrite map_length. Qed.
(** Examples *)
Definition some_proposal : proposal := Proposal ["Key insight"] ["Current challenge"; "Cost & time"] ["Our approach"] [("Phase 1", "Week 1-2")] [("Item", "$10,000")] ["Act"].
Lemma proposal_ok : pages_ok (proposal_pages "Budget" some_proposal) = true.
Proof. reflexivity. Qed.
Definition some_training : training := Training ["Learn"] [("Module 1", ["Topic 1"; "Topic 2"])] ["Practice"] ["Key takeaway"].
Lemma training_ok : pages_ok (training_pages "Course" some_training) = true.
Proof. reflexivity. Qed.
Definition some_status : status := Status ["Fine"] ["Item"] ["Other"] [] ["Plan"] [("Speed", "9")].
Lemma status_ok : pages_ok (status_pages "Report" some_status) = true /\ map fst (status_pages "Report" some_status) = ["Report"; "Executive Summary"; "Completed ✓"; "In Progress"; "Next Week"; "Key Metrics"].
Proof. split; reflexivity. Qed.
Definition some_technical : technical := Technical ["System"] ["Parts"] [("Component", ["Feature"])] [("get", "reads")] ["Test"].
Lemma technical_ok : pages_ok (technical_pages "Manual" some_technical) = true.
Proof. reflexivity. Qed.
