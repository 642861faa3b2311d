(** The pages of presentations of common kinds. *)
From Coq Require Import String List Bool.
From Verif Require Import Str XmlSpec WebSpec TemplateModel.
Import ListNotations.
Open Scope string_scope.

Definition said (sep : string) (l : list (string * string)) : list string := map (fun p => fst p ++ sep ++ snd p) l.
(** A page that is only there when it has lines *)
Definition if_any (t : string) (l : list string) : list page := match l with [] => [] | _ => [(t, l)] end.
(** The title page and the last page show only their titles. *)
Definition proposal_pages (title : string) (c : proposal) : list page :=
  [(title, []); ("Agenda", ["Executive Summary"; "Problem Statement"; "Proposed Solution"; "Timeline & Budget"; "Next Steps"]); ("Executive Summary", pr_summary c); ("Problem Statement", pr_problem c);
   ("Proposed Solution", pr_solution c); ("Timeline", said ": " (pr_timeline c)); ("Budget", said ": " (pr_budget c)); ("Next Steps", pr_next c); ("Questions?", [])].
Definition training_pages (title : string) (c : training) : list page :=
  ((title, []) :: ("Learning Objectives", tr_objectives c) :: tr_modules c ++ [("Exercises", tr_exercises c); ("Summary", tr_summary c); ("Questions?", [])])%list.
Definition status_pages (title : string) (c : status) : list page :=
  ([(title, []); ("Executive Summary", st_summary c); ("Completed ✓", st_completed c); ("In Progress", st_progress c)] ++ if_any "Blocked / Risks" (st_blocked c)
   ++ [("Next Week", st_week c)] ++ if_any "Key Metrics" (said ": " (st_metrics c)))%list.
Definition technical_pages (title : string) (c : technical) : list page :=
  ([(title, []); ("Overview", te_overview c); ("Architecture", te_architecture c)] ++ te_components c ++ if_any "API Reference" (said " - " (te_api c)) ++ [("Best Practices", te_practices c)])%list.
Definition page_ok (p : page) : bool := text_ok (fst p) && forallb text_ok (snd p).
Definition pages_ok (ps : list page) : bool := forallb page_ok ps.
