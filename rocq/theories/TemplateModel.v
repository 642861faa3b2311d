(** Model of src/templates.rs: presentations of common kinds. *)
From Coq Require Import String Ascii List Bool.
From Verif Require Import Str SlideModel DeckModel SettingsModel MdParseModel WebModel.
Import ListNotations.
Open Scope string_scope.

(** templates.rs:32-39 [ProposalContent] *)
Record proposal := Proposal { pr_summary : list string; pr_problem : list string; pr_solution : list string; pr_timeline : list (string * string); pr_budget : list (string * string); pr_next : list string }.
(** templates.rs:56-61 [TrainingContent] *)
Record training := Training { tr_objectives : list string; tr_modules : list (string * list string); tr_exercises : list string; tr_summary : list string }.
(** templates.rs:76-83 [StatusContent] *)
Record status := Status { st_summary : list string; st_completed : list string; st_progress : list string; st_blocked : list string; st_week : list string; st_metrics : list (string * string) }.
(** templates.rs:100-106 [TechnicalContent] *)
Record technical := Technical { te_overview : list string; te_architecture : list string; te_components : list (string * list string); te_api : list (string * string); te_practices : list string }.

(** [SlideContent::new(t)] and [add_bullet] in a loop *)
Definition listed (t : string) (l : list string) : slide := fold_left (fun s b => add_bullet b s) l (slide_new t).
(** [format!("{}: {}", a, b)] *)
Definition colon (p : string * string) : string := fst p ++ ": " ++ snd p.
Definition is_nil {A} (l : list A) : bool := match l with [] => true | _ => false end.

(** templates.rs:132-206 [business_proposal] *)
Definition proposal_slides (title author : string) (c : proposal) : list slide :=
  [with_layout CenteredTitle (add_bullet author (slide_new title));
   add_bullet "Next Steps" (add_bullet "Timeline & Budget" (add_bullet "Proposed Solution" (add_bullet "Problem Statement" (add_bullet "Executive Summary" (slide_new "Agenda")))));
   listed "Executive Summary" (pr_summary c); listed "Problem Statement" (pr_problem c); listed "Proposed Solution" (pr_solution c);
   listed "Timeline" (map colon (pr_timeline c)); listed "Budget" (map colon (pr_budget c)); listed "Next Steps" (pr_next c);
   with_layout CenteredTitle (add_bullet "Discussion and Q&A" (slide_new "Questions?"))].
Definition business_proposal (X : statics) (title author : string) (c : proposal) : list entry := create_pptx_with_settings X title (proposal_slides title author c) no_settings.
(** templates.rs:217-268 [training_material] *)
Definition training_slides (title author : string) (c : training) : list slide :=
  ([with_layout CenteredTitle (add_bullet author (slide_new title)); listed "Learning Objectives" (tr_objectives c)]
   ++ map (fun m => listed (fst m) (snd m)) (tr_modules c)
   ++ [listed "Exercises" (tr_exercises c); listed "Summary" (tr_summary c); with_layout CenteredTitle (slide_new "Questions?")])%list.
Definition training_material (X : statics) (title author : string) (c : training) : list entry := create_pptx_with_settings X title (training_slides title author c) no_settings.
(** templates.rs:280-341 [status_report] *)
Definition status_slides (title date : string) (c : status) : list slide :=
  ([with_layout CenteredTitle (add_bullet date (slide_new title)); listed "Executive Summary" (st_summary c); listed "Completed ✓" (st_completed c); listed "In Progress" (st_progress c)]
   ++ (if negb (is_nil (st_blocked c)) then [listed "Blocked / Risks" (st_blocked c)] else [])
   ++ [listed "Next Week" (st_week c)]
   ++ (if negb (is_nil (st_metrics c)) then [listed "Key Metrics" (map colon (st_metrics c))] else []))%list.
Definition status_report (X : statics) (title date : string) (c : status) : list entry := create_pptx_with_settings X title (status_slides title date c) no_settings.
(** templates.rs:352-406 [technical_doc] *)
Definition technical_slides (title version : string) (c : technical) : list slide :=
  ([with_layout CenteredTitle (add_bullet ("Version " ++ version) (slide_new title)); listed "Overview" (te_overview c); listed "Architecture" (te_architecture c)]
   ++ map (fun m => listed (fst m) (snd m)) (te_components c)
   ++ (if negb (is_nil (te_api c)) then [listed "API Reference" (map (fun p => fst p ++ " - " ++ snd p)%string (te_api c))] else [])
   ++ [listed "Best Practices" (te_practices c)])%list.
Definition technical_doc (X : statics) (title version : string) (c : technical) : list entry := create_pptx_with_settings X title (technical_slides title version c) no_settings.
(** templates.rs:409-419 [simple] *)
Definition simple (X : statics) (title : string) (slides : list (string * list string)) : list entry :=
  create_pptx_with_settings X title (map (fun s => listed (fst s) (snd s)) slides) no_settings.
