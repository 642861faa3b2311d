(** C74: document properties as parts of their own. *)
From Coq Require Import String Ascii List Bool Arith NArith.
From Verif Require Import Str Num XmlSpec OpcSpec XmlPath DocPropsModel PartsModel PartsSpec PartsProofs.
Import ListNotations.
Open Scope nat_scope.
Open Scope string_scope.

Theorem C74_core : forall (t0 : N) (calls : list core_call), forallb (core_call_ok text_ok) calls = true -> (N.of_nat (touches calls) < u32_max)%N ->
  exists c t, core_from (core_xml (fold_left core_do calls (core_new t0))) = Some c /\ last_of touch_in (Some t0) calls = Some t
    /\ k_title c = kept (last_of title_in None calls) /\ k_subject c = kept (last_of subject_in None calls) /\ k_creator c = kept (last_of creator_in (Some "pptx-rs") calls)
    /\ k_keywords c = kept (last_of keywords_in None calls) /\ k_description c = kept (last_of description_in None calls) /\ k_by c = Some "pptx-rs"
    /\ k_revision c = Some (1 + N.of_nat (touches calls))%N /\ k_created c = Some (timestamp t0) /\ k_modified c = Some (timestamp t).
Proof. exact core_history. Qed.
Print Assumptions C74_core.
Example C74_core_example : forallb (core_call_ok text_ok) some_core = true /\ touches some_core = 2 /\ last_of title_in None some_core = Some "Plan" /\ kept (last_of subject_in None some_core) = None.
Proof. exact some_core_ok. Qed.
Theorem C74_core_fields : forall c : core, core_fields_ok c = true ->
  core_from (core_xml c) = Some (Core (kept (k_title c)) (kept (k_subject c)) (kept (k_creator c)) (kept (k_keywords c)) (kept (k_description c)) (kept (k_by c)) (k_revision c) (kept (k_created c)) (kept (k_modified c))).
Proof. exact core_back. Qed.
Print Assumptions C74_core_fields.
Example C74_core_fields_example : core_fields_ok (Core (Some "A & B") (Some " ") None None (Some "<x>") None (Some 7%N) (Some "2024-01-01T00:00:00Z") None) = true.
Proof. reflexivity. Qed.
Theorem C74_app : forall calls : list app_call, forallb app_call_ok calls = true -> exists x, xml_read (app_xml (fold_left app_do calls app_new)) = Some x
  /\ texts_at ["Application"] x = one (last_of application_in (Some "Microsoft Office PowerPoint") calls) /\ texts_at ["Company"] x = one (last_of company_in None calls)
  /\ texts_at ["Slides"] x = one (last_of slides_in (Some "0") calls) /\ texts_at ["PresentationFormat"] x = one (last_of format_in (Some "On-screen Show (4:3)") calls)
  /\ texts_at ["AppVersion"] x = ["16.0000"]
  /\ (forall n, In n ["Paragraphs"; "Words"; "Notes"; "HiddenSlides"; "MMClips"] -> texts_at [n] x = ["0"])
  /\ (forall n, In n ["ScaleCrop"; "LinksUpToDate"; "SharedDoc"; "HyperlinksChanged"] -> texts_at [n] x = ["false"]).
Proof. exact app_history. Qed.
Print Assumptions C74_app.
Example C74_app_example : forallb app_call_ok (tl some_app) = true /\ last_of company_in None some_app = Some "Acme Inc" /\ last_of format_in (Some "x") some_app = Some "x".
Proof. exact some_app_ok. Qed.
(** Dates are written as they are. *)
Theorem C74_dates_refuted : exists c, k_created c = Some "2024 & later" /\ core_from (core_xml c) = None.
Proof. exact core_date_raw. Qed.
Print Assumptions C74_dates_refuted.
(** The number of revisions starts again after the last one. *)
Theorem C74_revision_refuted : forall (t : N) (c : core), k_revision c = Some u32_max -> k_revision (touch t c) = Some 0%N.
Proof. exact revision_wraps. Qed.
Print Assumptions C74_revision_refuted.
(** Application properties are written as they are. *)
Theorem C74_app_escaped_refuted : exists s, text_ok s = true /\ xml_read (app_xml (app_set_company s app_new)) = None.
Proof. exact app_raw. Qed.
Print Assumptions C74_app_escaped_refuted.
(** What is set after reading is never written. *)
Theorem C74_app_after_reading_refuted : forall (x : string) (calls : list app_call), app_xml (fold_left app_do calls (app_from x)) = x.
Proof. exact app_stuck. Qed.
Print Assumptions C74_app_after_reading_refuted.
