(** C01, C02: the part store. *)
From Coq Require Import String Ascii List.
From stdpp Require Import base gmap strings.
From Verif Require Import PackageModel PackageSpec PackageProofs.
Import ListNotations.
Open Scope string_scope.

Theorem C01_last_write_wins (h : list op) (name : string) :
  get_part (run h new) name = newest name (rev h).
Proof. exact (run_get h name). Qed.
Print Assumptions C01_last_write_wins.

(** The other observers agree with [get_part], in every state. *)
Theorem C01_observers (p : package) (path : string) (keys : list string) :
  keys_order p keys ->
  (has_part p path = true <-> get_part p path <> None) /\
  fst (remove_part path p) = get_part p path /\
  List.NoDup keys /\ (forall x, In x keys <-> get_part p x <> None) /\ length keys = part_count p.
Proof. exact (observers p path keys). Qed.
Print Assumptions C01_observers.

Example C01_case :
  let p := run [Add "a" "1"; Add "b" "2"; Remove "a"; Add "b" "3"; Add "c" ""] new in
  get_part p "a" = None /\ get_part p "b" = Some "3" /\ get_part p "c" = Some "" /\ part_count p = 2.
Proof. vm_compute. repeat split. Qed.
Example C01_observers_case : exists keys, keys_order (run [Add "a" "1"; Add "b" "2"] new) keys.
Proof. eexists. unfold keys_order. reflexivity. Qed.

(** Opening any archive: directory entries are dropped, the last entry with a
    name wins. *)
Theorem C02_open (is_dir : string -> bool) (entries : list entry) (name : string) :
  get_part (open_entries is_dir entries) name = if is_dir name then None else newest_entry name (rev entries).
Proof. exact (open_get is_dir entries name). Qed.
Print Assumptions C02_open.

(** Saving in any order and opening again gives the same package, if no part
    has a directory name ... *)
Theorem C02_save_open (is_dir : string -> bool) (p : package) (entries : list entry) :
  save_order p entries ->
  (forall name, get_part p name <> None -> is_dir name = false) ->
  open_entries is_dir entries = p.
Proof. exact (open_save_eq is_dir p entries). Qed.
Print Assumptions C02_save_open.

(** ... and in general exactly the parts with directory names are lost. *)
Theorem C02_save_open_exact (is_dir : string -> bool) (p : package) (entries : list entry) (name : string) :
  save_order p entries ->
  get_part (open_entries is_dir entries) name = if is_dir name then None else get_part p name.
Proof. exact (fun H => open_save is_dir p entries H name). Qed.
Print Assumptions C02_save_open_exact.

Example C02_case :
  let p := run [Add "ppt/a.xml" "1"; Add "b" "2"] new in
  exists entries, save_order p entries /\ (forall name, get_part p name <> None -> (fun _ => false) name = false) /\ length entries = 2.
Proof. eexists. split; [unfold save_order; reflexivity|]. split; [reflexivity|]. vm_compute. reflexivity. Qed.
