(** C70: presentations of common kinds. *)
From Coq Require Import String Ascii List Bool Arith NArith.
From Verif Require Import Str Num XmlSpec SlideModel DeckModel ReaderModel McpSpec WebModel WebSpec TemplateModel TemplateSpec TemplateThms.
Import ListNotations.
Open Scope string_scope.

Theorem C70_proposal : forall (X : statics) (title author : string) (c : proposal), pages_ok (proposal_pages title c) = true -> text_ok author = true ->
  reads_as (business_proposal X title author c) (fun l => Forall2 page_read l (proposal_pages title c)).
Proof. exact proposal_back. Qed.
Print Assumptions C70_proposal.
Example C70_proposal_example : pages_ok (proposal_pages "Budget" some_proposal) = true.
Proof. exact proposal_ok. Qed.
Theorem C70_training : forall (X : statics) (title author : string) (c : training), pages_ok (training_pages title c) = true -> text_ok author = true -> (N.of_nat (length (training_pages title c)) < u32_max)%N ->
  reads_as (training_material X title author c) (fun l => Forall2 page_read l (training_pages title c)).
Proof. exact training_back. Qed.
Print Assumptions C70_training.
Example C70_training_example : pages_ok (training_pages "Course" some_training) = true.
Proof. exact training_ok. Qed.
Theorem C70_status : forall (X : statics) (title date : string) (c : status), pages_ok (status_pages title c) = true -> text_ok date = true ->
  reads_as (status_report X title date c) (fun l => Forall2 page_read l (status_pages title c)).
Proof. exact status_back. Qed.
Print Assumptions C70_status.
Example C70_status_example : pages_ok (status_pages "Report" some_status) = true /\ map fst (status_pages "Report" some_status) = ["Report"; "Executive Summary"; "Completed ✓"; "In Progress"; "Next Week"; "Key Metrics"].
Proof. exact status_ok. Qed.
Theorem C70_technical : forall (X : statics) (title version : string) (c : technical), pages_ok (technical_pages title c) = true -> text_ok version = true -> (N.of_nat (length (technical_pages title c)) < u32_max)%N ->
  reads_as (technical_doc X title version c) (fun l => Forall2 page_read l (technical_pages title c)).
Proof. exact technical_back. Qed.
Print Assumptions C70_technical.
Example C70_technical_example : pages_ok (technical_pages "Manual" some_technical) = true.
Proof. exact technical_ok. Qed.
Theorem C70_simple : forall (X : statics) (title : string) (slides : list page), pages_ok slides = true -> (N.of_nat (length slides) < u32_max)%N -> reads_as (simple X title slides) (fun l => Forall2 page_read l slides).
Proof. exact simple_back. Qed.
Print Assumptions C70_simple.
