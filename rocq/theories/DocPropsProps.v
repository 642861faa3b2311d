(** C36, C37: document properties and time stamps. *)
From Coq Require Import String List Bool Arith NArith.
From Verif Require Import Str XmlSpec OpcSpec XmlPath DocPropsModel DocPropsSpec DocPropsProofs.
Import ListNotations.
Open Scope string_scope.

(** app.xml is well-formed for every slide count and every list of titles (of
    XML characters); the slide count, the notes count, the heading-pair count,
    the size of the titles vector and the titles in it all agree; title [i] is
    the given one, or "Slide i+1" where none is given. *)
Theorem C36_counts_and_titles (slides notes : nat) (titles : list string) :
  Forall (fun t => text_ok t = true) titles ->
  exists x shown, xml_read (app_props_xml slides notes titles) = Some x /\
    (texts (at_path ["Slides"] x) = [decn slides] /\
     texts (at_path ["Notes"] x) = [decn notes] /\
     texts (at_path ["HeadingPairs"; "vt:vector"; "vt:variant"; "vt:i4"] x) = [decn slides] /\
     map (attr "size") (at_path ["TitlesOfParts"; "vt:vector"] x) = [decn slides] /\
     texts (at_path ["TitlesOfParts"; "vt:vector"; "vt:lpstr"] x) = shown) /\
    length shown = slides /\
    forall i, i < slides -> nth_error shown i = Some (match nth_error titles i with Some t => t | None => "Slide " ++ decn (i + 1) end).
Proof. exact (app_reads slides notes titles). Qed.
Print Assumptions C36_counts_and_titles.
Example C36_case : Forall (fun t => text_ok t = true) ["A & B"; "<x>"; ""] /\
  fit_titles 2 ["A & B"; "<x>"; ""] = ["A & B"; "<x>"] /\ fit_titles 4 ["a"; "b"] = ["a"; "b"; "Slide 3"; "Slide 4"].
Proof. repeat constructor. Qed.

(** The titles collected from a deck: one per slide, blank ones replaced; the
    streaming generator collects the same ones. *)
Theorem C36_slide_titles (l : list string) :
  let titles := collect_slide_titles (Some l) (length l) in
  length titles = length l /\
  (forall i t, nth_error l i = Some t -> nth_error titles i = Some (if String.eqb (trim t) "" then "Slide " ++ decn (i + 1) else t)) /\
  collect_slide_titles_lazy (nth_error l) (length l) = titles.
Proof.
  exact (conj (titles_from_length 0 l) (conj (fun i t H => eq_trans (titles_from_nth 0 l i) (f_equal (option_map (slide_title i)) H)) (lazy_titles_eq l))).
Qed.
Print Assumptions C36_slide_titles.
Example C36_titles_case : collect_slide_titles (Some ["a"; "  "; "c"]) 3 = ["a"; "Slide 2"; "c"].
Proof. reflexivity. Qed.

(** core.xml shows the given title and the time stamp when the title needs no escaping. *)
Theorem C36_core_title (secs : N) (title : string) : plain_title title = true ->
  exists x, xml_read (core_props_xml (timestamp secs) title) = Some x /\
    texts (at_path ["dc:title"] x) = [title] /\
    texts (at_path ["dcterms:created"] x) = [timestamp secs] /\ texts (at_path ["dcterms:modified"] x) = [timestamp secs].
Proof. exact (core_reads secs title). Qed.
Print Assumptions C36_core_title.
Example C36_core_case : plain_title "Quarterly ""review""" = true.
Proof. reflexivity. Qed.
(** Finding: a title with an ampersand makes core.xml ill-formed. *)
Theorem C36_core_title_refuted : exists title, text_ok title = true /\ forall secs, secs = 1700000000%N ->
  xml_read (core_props_xml (timestamp secs) title) = None.
Proof. exists "Research & Development". split; [reflexivity|]. intros secs ->. vm_compute. reflexivity. Qed.
Print Assumptions C36_core_title_refuted.

(** Every time stamp (up to the year 9999) has the W3CDTF form and the right
    time of day. *)
Theorem C37_time_of_day (secs : N) : (secs < 253234080000)%N ->
  exists t, read_stamp (timestamp secs) = Some t /\ valid_time t /\ (hour t * 3600 + minute t * 60 + second t = secs mod 86400)%N.
Proof. exact (fun H => ex_intro _ (fields secs) (conj (stamp_reads secs H) (fields_time secs))). Qed.
Print Assumptions C37_time_of_day.

(** When its date exists in the calendar: not in the last five days of the
    365-day "year", and not on the "29th/30th of February" otherwise. *)
Theorem C37_valid_date_iff (secs : N) : (secs < 253234080000)%N ->
  exists t, read_stamp (timestamp secs) = Some t /\
    let r := ((secs / 86400) mod 365)%N in
    (valid_date t <-> ((r < 360)%N /\ (r < 58 \/ (r = 58 /\ leap (year t) = true) \/ 60 <= r)%N)).
Proof. exact (fun H => ex_intro _ (fields secs) (conj (stamp_reads secs H) (fields_date secs))). Qed.
Print Assumptions C37_valid_date_iff.
Example C37_case : (1700000000 < 253234080000)%N /\ timestamp 1700000000 = "2023-12-01T22:13:20Z".
Proof. split; reflexivity. Qed.

(** Later moments have later stamps. *)
Theorem C37_order (a b : N) : (a < b)%N -> (b < 253234080000)%N ->
  exists s t, read_stamp (timestamp a) = Some s /\ read_stamp (timestamp b) = Some t /\ before s t.
Proof.
  exact (fun L H => ex_intro _ (fields a) (ex_intro _ (fields b) (conj (stamp_reads a (N.lt_trans _ _ _ L H)) (conj (stamp_reads b H) (fields_order a b L))))).
Qed.
Print Assumptions C37_order.
(** Up to the year 2334 the year is the right one or the next. *)
Theorem C37_year (secs : N) (k : nat) : k < 365 -> (secs < 253234080000)%N -> (year_days k 1970 <= secs / 86400 < year_days (S k) 1970)%N ->
  exists t, read_stamp (timestamp secs) = Some t /\ (year t = 1970 + N.of_nat k \/ year t = 1970 + N.of_nat k + 1)%N.
Proof. exact (fun K H B => ex_intro _ (fields secs) (conj (stamp_reads secs H) (fields_year secs k K B))). Qed.
Print Assumptions C37_year.
Example C37_year_case : (year_days 53 1970 <= 1700000000 / 86400 < year_days 54 1970)%N.
Proof. vm_compute. split; congruence. Qed.

(** Findings: a month 13, a 30th of February, and a valid but wrong date. *)
Theorem C37_month_refuted : exists secs t, read_stamp (timestamp secs) = Some t /\ month t = 13%N.
Proof. exists 31104000%N. eexists. split; vm_compute; reflexivity. Qed.
Print Assumptions C37_month_refuted.
Theorem C37_february_refuted : exists secs t, read_stamp (timestamp secs) = Some t /\ month t = 2%N /\ day t = 30%N.
Proof. exists 5097600%N. eexists. split; vm_compute; auto. Qed.
Print Assumptions C37_february_refuted.
Theorem C37_wrong_date_refuted : exists secs t, read_stamp (timestamp secs) = Some t /\ valid_date t /\ day_number t <> (secs / 86400)%N.
Proof. exists 1700000000%N. eexists. split; [vm_compute; reflexivity|]. split; [vm_compute; repeat split; discriminate|vm_compute; discriminate]. Qed.
Print Assumptions C37_wrong_date_refuted.
