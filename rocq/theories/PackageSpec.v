(** Specification of a part store by its history. *)
From Coq Require Import String List.
From Verif Require Import PackageModel.
Import ListNotations.

(** What the history says about a name: the newest operation on it decides.
    The head of the list is the newest operation. *)
Fixpoint newest (name : string) (h : list op) : option string :=
  match h with
  | [] => None
  | Add path content :: h => if String.eqb path name then Some content else newest name h
  | Remove path :: h => if String.eqb path name then None else newest name h
  end.

(** Entries of an archive: the last entry with the name. *)
Fixpoint newest_entry (name : string) (h : list (string * string)) : option string :=
  match h with
  | [] => None
  | (n, c) :: h => if String.eqb n name then Some c else newest_entry name h
  end.
