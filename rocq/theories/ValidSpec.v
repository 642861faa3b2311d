(** What package validation should guarantee, said in terms of the texts in the
    package and of paths. *)
From Coq Require Import String Ascii List Bool.
From Verif Require Import Str ResolveSpec.
Import ListNotations.
Open Scope string_scope.

(** A string that does not occur in a text. *)
Definition absent (p s : string) : Prop := forall a b, s <> a ++ p ++ b.
(** A text without quotation marks; without ">". *)
Definition unquoted (s : string) : Prop := sforall (fun c => negb (Ascii.eqb c """")) s = true.
Definition unclosed (s : string) : Prop := sforall (fun c => negb (Ascii.eqb c ">")) s = true.

(** The relationships written in a relationship part whose tags give Id before
    Target before TargetMode, all in double quotes: id, target, and whether the
    rest of the tag says that the target is external. *)
Inductive written : string -> list (string * string * bool) -> Prop :=
  | no_more s : absent "Id=""" s -> written s []
  | one_more pre id mid target tail rest l external :
      absent "Id=""" pre -> unquoted id -> absent "Target=""" mid -> unquoted target -> unclosed tail ->
      (external = true <-> exists a b, tail = a ++ "TargetMode=""External""" ++ b) ->
      written rest l ->
      written (pre ++ "Id=""" ++ id ++ """" ++ mid ++ "Target=""" ++ target ++ """" ++ tail ++ ">" ++ rest) ((id, target, external) :: l).

(** The values an attribute has in the tags of a name, for texts in which these
    tags are closed by a "/>" before the next of them and have the attribute. *)
Inductive values (tag attr : string) : string -> list string -> Prop :=
  | no_tag s : absent tag s -> values tag attr s []
  | one_tag pre mid v tail rest l :
      absent tag pre -> absent attr mid -> unquoted v -> absent "/>" (mid ++ attr ++ v ++ """" ++ tail) ->
      values tag attr rest l ->
      values tag attr (pre ++ tag ++ mid ++ attr ++ v ++ """" ++ tail ++ "/>" ++ rest) (v :: l).

(** The content of a part of an archive: of entries with the same name, the last. *)
Definition newest (files : list (string * string)) (n c : string) : Prop :=
  exists a b, files = (a ++ (n, c) :: b)%list /\ ~ In n (map fst b).
(** A part of an archive. *)
Definition present (is_dir : string -> bool) (files : list (string * string)) (n : string) : Prop :=
  is_dir n = false /\ exists c, In (n, c) files.

(** The part that a target means, seen from a directory: a relative target is
    walked, an absolute one is a path from the root. *)
Definition refers (d : list string) (target : string) (e : list string) : Prop :=
  (starts_with "/" target = false /\ exists segs, segments target segs /\ walks d segs e)
  \/ (target = "/" ++ path e /\ Forall name e /\ e <> []).
(** The relationship part of the part [f] in directory [d] (of the package
    itself: no directory and no name). *)
Definition rels_part (d : list string) (f n : string) : Prop :=
  (d = [] /\ f = "" /\ n = "_rels/.rels")
  \/ (d <> [] /\ Forall name d /\ Forall (fun x => x <> "_rels") d /\ sforall (fun c => negb (Ascii.eqb c "/")) f = true /\ n = path d ++ "/_rels/" ++ f ++ ".rels").
(** An entry for the name itself or for its extension in the content types. *)
Definition typed_by (ct n : string) : Prop :=
  (exists a b, ct = a ++ "/" ++ n ++ b)
  \/ exists base ext a b, (n = base ++ "." ++ ext \/ n = ext) /\ ext <> "" /\ sforall (fun c => negb (Ascii.eqb c ".")) ext = true /\ ct = a ++ "Extension=""" ++ ext ++ """" ++ b.
(** A part that can be read (is UTF-8), and what it says. *)
Definition holds (is_dir utf8 : string -> bool) (files : list (string * string)) (n c : string) : Prop :=
  present is_dir files n /\ newest files n c /\ utf8 c = true.
(** A relationship part that has a relationship with a given id. *)
Definition has_rel (is_dir utf8 : string -> bool) (files : list (string * string)) (n id : string) (good : string -> bool -> Prop) : Prop :=
  exists c, holds is_dir utf8 files n c /\ forall l, written c l -> exists t external, In (id, t, external) l /\ good t external.
(** How often a string occurs in a text, occurrences not overlapping. *)
Inductive occurs (p : string) : string -> nat -> Prop :=
  | never s : absent p s -> occurs p s 0
  | again a r k : absent p a -> occurs p r k -> occurs p (a ++ p ++ r) (S k).
(** The names of slide parts. *)
Definition slide_name (n : string) : Prop := starts_with "ppt/slides/slide" n = true /\ ends_with ".xml" n = true /\ absent "/_rels/" n.
