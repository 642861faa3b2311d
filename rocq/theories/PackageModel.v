(** Model of src/opc/package.rs.  A [Package] is a finite map from part names
    to bytes (HashMap<String, Vec<u8>>, package.rs:9-12).  The ZIP byte format
    and I/O errors are not modelled: an archive is the list of its entries. *)
From Coq Require Import String Ascii List.
From stdpp Require Import base gmap strings.
Import ListNotations.
Open Scope string_scope.

Notation package := (gmap string string).

(** package.rs:16-20 [new]. *)
Definition new : package := ∅.
(** package.rs:71-73 [get_part]; 105-110 [get_part_string] is this followed
    by from_utf8_lossy. *)
Definition get_part (p : package) (path : string) : option string := p !! path.
(** package.rs:76-78 [add_part]. *)
Definition add_part (path content : string) (p : package) : package := <[path := content]> p.
(** package.rs:81-83 [remove_part]: the removed bytes and the new package. *)
Definition remove_part (path : string) (p : package) : option string * package := (p !! path, delete path p).
(** package.rs:86-88 [has_part]. *)
Definition has_part (p : package) (path : string) : bool :=
  match p !! path with Some _ => true | None => false end.
(** package.rs:91-93 [part_paths]: the keys, in an order the hash map
    chooses.  [keys_order p l] says that [l] is a possible result. *)
Definition keys_order (p : package) (l : list string) : Prop := Permutation l (map fst (map_to_list p)).
(** package.rs:96-98 [part_count]. *)
Definition part_count (p : package) : nat := size p.

(** A ZIP entry: name and uncompressed bytes, in archive order. *)
Definition entry : Type := string * string.

Section Archive.
(** [zip::ZipFile::is_dir], a function of the entry name. *)
Variable is_dir : string -> bool.

(** package.rs:30-46 [open_reader]. *)
Definition open_entries (l : list entry) : package :=
  fold_left (fun parts e => if is_dir (fst e) then parts else <[fst e := snd e]> parts) l ∅.

(** package.rs:56-68 [save_writer]: the entries are written in hash map
    order.  [save_order p l] says that [l] is a possible archive. *)
Definition save_order (p : package) (l : list entry) : Prop := Permutation l (map_to_list p).
End Archive.

(** Public operations as data, for histories. *)
Inductive op := Add (path content : string) | Remove (path : string).
Definition step (p : package) (o : op) : package :=
  match o with
  | Add path content => add_part path content p
  | Remove path => snd (remove_part path p)
  end.
Definition run (l : list op) (p : package) : package := fold_left step l p.
