(** Repair, said in terms of the texts in the package. *)
From Coq Require Import String Ascii List Bool NArith Permutation.
From stdpp Require Import base gmap strings.
From Verif Require Import Str Num PackageModel RepairModel ValidSpec.
Import ListNotations.
Open Scope string_scope.

(** Any order of a hash map's keys or a set's elements. *)
Definition fair (o : orders) : Prop := (forall l, Permutation (o_paths o l) l) /\ (forall l, Permutation (o_slides o l) l).
(** The text between quotes after each occurrence of a key that ends in a
    quotation mark, read from left to right; [pfx] does not begin right after a
    closing quote. *)
Inductive quoted (key pfx : string) : string -> list string -> Prop :=
  | none_quoted s : absent key s -> quoted key pfx s []
  | one_quoted pre v rest l : absent key pre -> unquoted v -> (pfx = "" \/ starts_with pfx rest = false) -> quoted key pfx rest l ->
      quoted key pfx (pre ++ key ++ v ++ """" ++ rest) (v :: l).
(** The parts that repair may write, besides blank XML parts. *)
Definition repairable_part (n : string) : Prop :=
  n = "[Content_Types].xml" \/ n = "_rels/.rels" \/ n = "ppt/presentation.xml" \/ n = "ppt/_rels/presentation.xml.rels"
  \/ (starts_with "ppt/slides/_rels/" n = true /\ ends_with ".xml.rels" n = true).
(** The name of a slide part that can be written as a target on one line. *)
Definition plain_slide (s f : string) : Prop :=
  s = "ppt/slides/slide" ++ f /\ unquoted f /\ absent "ppt/" f /\ sforall (fun c => negb (Ascii.eqb c LF)) f = true /\ sforall (fun c => negb (Ascii.eqb "<" c)) f = true.
(** The number of a quoted text after a prefix, as Rust parses a [u32]. *)
Definition numbered (pfx : string) (l : list string) (i : N) : Prop := exists w, In (pfx ++ w) l /\ parse_uint u32_max w = Some i.
(** The lines that list a slide. *)
Definition slide_relationship (id target : string) : string :=
  "  <Relationship Id=""" ++ id ++ """ Type=""http://schemas.openxmlformats.org/officeDocument/2006/relationships/slide"" Target=""" ++ target ++ """/>".
Definition slide_entry (n : N) (id : string) : string := "<p:sldId id=""" ++ dec n ++ """ r:id=""" ++ id ++ """/>".
(** The lines and entries of several slides, numbered from [k] and [m] on. *)
Fixpoint new_rels (k : N) (fs : list string) : string :=
  match fs with [] => "" | f :: fs => slide_relationship ("rId" ++ dec k) ("slides/slide" ++ f) ++ nl ++ new_rels (k + 1) fs end.
Fixpoint new_entries (k m : N) (fs : list string) : string :=
  match fs with [] => "" | _ :: fs => slide_entry m ("rId" ++ dec k) ++ nl ++ new_entries (k + 1) (m + 1) fs end.
