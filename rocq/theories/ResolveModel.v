(** Model of src/core/package_validation/rels.rs. *)
From Coq Require Import String Ascii List Bool.
From Verif Require Import Str.
Import ListNotations.
Open Scope string_scope.

(** [str::rsplit_once] of a character. *)
Definition rsplit_once (c : ascii) (s : string) : option (string * string) :=
  match split_once (s1 c) (srev s) with Some (a, b) => Some (srev b, srev a) | None => None end.
(** [str::strip_suffix] with a default. *)
Definition strip_suffix_or_self (p s : string) : string :=
  match strip_prefix (srev p) (srev s) with Some r => srev r | None => s end.
(** rels.rs:4-14 [rels_source_dir]; [replacen(.., 1)] replaces the first occurrence. *)
Definition rels_source_dir (rels_path : string) : string :=
  if String.eqb rels_path "_rels/.rels" then ""
  else
    let part_path := match split_once "/_rels/" rels_path with Some (a, b) => a ++ "/" ++ b | None => rels_path end in
    let part_path := strip_suffix_or_self ".rels" part_path in
    match rsplit_once "/" part_path with Some (d, _) => d | None => "" end.
(** rels.rs:27-36: the loop over the segments; [parts] grows at its end. *)
Definition pop {A} (l : list A) : list A := removelast l.
Definition step (parts : list string) (segment : string) : list string :=
  if String.eqb segment ".." then pop parts
  else if String.eqb segment "." || String.eqb segment "" then parts
  else (parts ++ [segment])%list.
(** rels.rs:17-39 [resolve_rel_target] *)
Definition resolve_rel_target (base_dir target : string) : string :=
  if starts_with "/" target then trim_start_by (Ascii.eqb "/") target
  else
    let parts := if String.eqb base_dir "" then [] else split_char "/" base_dir in
    sjoin "/" (fold_left step (split_char "/" target) parts).
