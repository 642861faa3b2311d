(** C21, C46: presentation sections. *)
From Coq Require Import String List NArith Permutation Sorted.
From Verif Require Import Str XmlSpec XmlProofs SectionModel SectionSpec SectionProofs.
Import ListNotations.
Open Scope string_scope.
Open Scope N_scope.

(** [reachable]: any sequence of add, remove, rename and clear. *)
Theorem C21_sections_partition (m : manager) : reachable m ->
  StronglySorted (fun a b => first_slide a <= first_slide b) m /\
  (forall j k s t i, nth_error m j = Some s -> nth_error m k = Some t -> member i s -> member i t -> j = k) /\
  (forall i s, section_for_slide m i = Some s <-> In s m /\ member i s).
Proof. exact (sections_partition m). Qed.
Print Assumptions C21_sections_partition.

Theorem C21_add_refused_iff_overlap (m : manager) (n : string) (f c : N) :
  reachable m -> f + c <= 18446744073709551615 ->
  (fst (add_section n f c m) = true <-> forall s i, In s m -> member i s -> ~ f <= i < f + c) /\
  (fst (add_section n f c m) = true -> Permutation (snd (add_section n f c m)) (Section_ n f c :: m)) /\
  (fst (add_section n f c m) = false -> snd (add_section n f c m) = m).
Proof. exact (add_reachable m n f c). Qed.
Print Assumptions C21_add_refused_iff_overlap.

(** Removing takes away exactly the sections of that name, in whatever number,
    keeps the others in their order, and says whether there were any. *)
Theorem C21_remove (n : string) (m : manager) : let '(b, m') := remove_section n m in
  (exists gone, Permutation m (m' ++ gone)%list /\ Forall (fun s => name s = n) gone) /\ Forall (fun s => name s <> n) m'
  /\ (forall i j s t, nth_error m' i = Some s -> nth_error m' j = Some t -> (i < j)%nat -> exists k l, (k < l)%nat /\ nth_error m k = Some s /\ nth_error m l = Some t)
  /\ (b = true <-> exists s, In s m /\ name s = n).
Proof. exact (remove_by_name n m). Qed.
Print Assumptions C21_remove.
(** Looking up and renaming act on the first section of the name. *)
Theorem C21_find (n : string) (m : manager) : match get_section m n with
  | Some s => exists a b, m = (a ++ s :: b)%list /\ name s = n /\ Forall (fun t => name t <> n) a
  | None => Forall (fun t => name t <> n) m
  end.
Proof. exact (find_first n m). Qed.
Print Assumptions C21_find.
Theorem C21_rename (old new : string) (m : manager) : let '(b, m') := rename_section old new m in
  if b then exists a s c, m = (a ++ s :: c)%list /\ name s = old /\ Forall (fun t => name t <> old) a
    /\ m' = (a ++ Section_ new (first_slide s) (slide_count s) :: c)%list
  else m' = m /\ Forall (fun t => name t <> old) m.
Proof. exact (rename_first old new m). Qed.
Print Assumptions C21_rename.
Example C21_names_case : let m := [Section_ "a" 0 1; Section_ "b" 1 1; Section_ "a" 2 1]%string in
  remove_section "a" m = (true, [Section_ "b" 1 1]%string) /\ get_section m "a" = Some (Section_ "a" 0 1)
  /\ rename_section "a" "c" m = (true, [Section_ "c" 0 1; Section_ "b" 1 1; Section_ "a" 2 1]%string) /\ rename_section "z" "c" m = (false, m).
Proof. repeat split; reflexivity. Qed.

(** Outside [fits] two sections can share a slide. *)
Theorem C21_overflow_refuted :
  exists m i s t, m = run [Add "a" 5 18446744073709551615; Add "b" 7 2] /\
    In s m /\ In t m /\ s <> t /\ member i s /\ member i t.
Proof.
  eexists _, 7, (Section_ "a" 5 18446744073709551615), (Section_ "b" 7 2). split; [reflexivity|].
  vm_compute. repeat split; auto; discriminate.
Qed.
Print Assumptions C21_overflow_refuted.

Example C21_case :
  let m := run [Add "a" 4 2; Add "b" 0 3; Add "c" 2 2; Rename "a" "z"; Add "e" 1 0] in
  reachable m /\ map name m = ["b"; "e"; "z"]%string /\ section_for_slide m 5 = Some (Section_ "z" 4 2).
Proof.
  cbv zeta. split; [|split; vm_compute; reflexivity]. eexists. split; [|reflexivity].
  repeat constructor; vm_compute; discriminate.
Qed.

(** The section list lists every section in order: its name, an id of GUID form
    and the ids 256 + i of exactly its slides that exist. *)
Theorem C46_section_xml_reads_back (total : N) (m : manager) :
  m <> [] -> (forall s, In s m -> attr_ok (name s) = true) ->
  exists l, read_sections (sections_xml total m) = Some l /\ map (fun x => fst (fst x)) l = map name m /\
    Forall (fun x => guid_form (snd (fst x))) l /\
    forall k s e, nth_error m k = Some s -> nth_error l k = Some e ->
      exists ids, snd e = map (fun i => dec (256 + i)) ids /\ StronglySorted N.lt ids /\
        forall i, In i ids <-> member i s /\ (i < total)%N.
Proof. exact (sections_xml_ok total m). Qed.
Print Assumptions C46_section_xml_reads_back.

Example C46_case :
  let m := run [Add "a <&> b" 2 5; Add "intro" 0 2] in
  m <> [] /\ (forall s, In s m -> attr_ok (name s) = true) /\ map name m = ["intro"; "a <&> b"]%string.
Proof.
  cbv zeta. split; [vm_compute; discriminate|]. split; [|vm_compute; reflexivity].
  apply Forall_forall. vm_compute. repeat constructor.
Qed.
