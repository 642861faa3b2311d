(** Paths inside a package, said without the code: a path is a list of names,
    a reference is walked from left to right. *)
From Coq Require Import String Ascii List Bool.
From Verif Require Import Str.
Import ListNotations.
Open Scope string_scope.

(** A name of a directory or file. *)
Definition name (s : string) : Prop := s <> "" /\ s <> "." /\ s <> ".." /\ sforall (fun c => negb (Ascii.eqb c "/")) s = true.
(** The path made of some names. *)
Definition path (l : list string) : string := sjoin "/" l.
(** One step from a directory: "..", "." or nothing, a name. *)
Inductive walks : list string -> list string -> list string -> Prop :=
  | done d : walks d [] d
  | up d n r e : walks d r e -> walks (d ++ [n]) (".." :: r) e
  | up_root r e : walks [] r e -> walks [] (".." :: r) e
  | stay d s r e : s = "." \/ s = "" -> walks d r e -> walks d (s :: r) e
  | down d n r e : name n -> walks (d ++ [n]) r e -> walks d (n :: r) e.
(** The segments of a string between slashes. *)
Inductive segments : string -> list string -> Prop :=
  | one s : sforall (fun c => negb (Ascii.eqb c "/")) s = true -> segments s [s]
  | more s t l : sforall (fun c => negb (Ascii.eqb c "/")) s = true -> segments t l -> segments (s ++ "/" ++ t) (s :: l).
