(** Model of src/generator/slide_content/sections.rs.  [usize] values are [N]
    with release-build arithmetic (Num.v). *)
From Coq Require Import String Ascii List Bool NArith.
From Verif Require Import Str Num EscapeModel.
Import ListNotations.
Open Scope string_scope.

(** sections.rs:8-12. *)
Record section := Section_ { name : string; first_slide : N; slide_count : N }.
(** sections.rs:34-36 [contains_slide]. *)
Definition contains_slide (s : section) (i : N) : bool :=
  ((first_slide s <=? i) && (i <? wadd usize_max (first_slide s) (slide_count s)))%N.
(** sections.rs:151-156. *)
Definition sections_overlap (a b : section) : bool :=
  if ((slide_count a =? 0) || (slide_count b =? 0))%N then false
  else ((first_slide a <? wadd usize_max (first_slide b) (slide_count b)) &&
        (first_slide b <? wadd usize_max (first_slide a) (slide_count a)))%N.

(** [sort_by_key(|s| s.first_slide)]: a stable sort. *)
Fixpoint insert_section (x : section) (l : list section) : list section :=
  match l with
  | [] => [x]
  | y :: l' => if (first_slide x <=? first_slide y)%N then x :: l else y :: insert_section x l'
  end.
Definition sort_sections (l : list section) : list section := fold_right insert_section [] l.

(** sections.rs:41-49; the manager is its vector. *)
Definition manager : Type := list section.
Definition manager_new : manager := [].
(** sections.rs:51-69 [add_section]. *)
Definition add_section (n : string) (first count : N) (m : manager) : bool * manager :=
  let s := Section_ n first count in
  if existsb (fun e => sections_overlap e s) m then (false, m)
  else (true, sort_sections (m ++ [s])).
(** sections.rs:72-76. *)
Definition remove_section (n : string) (m : manager) : bool * manager :=
  let m' := filter (fun s => negb (String.eqb (name s) n)) m in
  (Nat.ltb (length m') (length m), m').
(** sections.rs:79-81. *)
Definition get_section (m : manager) (n : string) : option section := find (fun s => String.eqb (name s) n) m.
(** sections.rs:84-86. *)
Definition section_for_slide (m : manager) (i : N) : option section := find (fun s => contains_slide s i) m.
(** sections.rs:109-116 [rename_section]: the first section with the name. *)
Fixpoint rename_section (old new : string) (m : manager) : bool * manager :=
  match m with
  | [] => (false, [])
  | s :: m =>
      if String.eqb (name s) old then (true, Section_ new (first_slide s) (slide_count s) :: m)
      else let '(b, m) := rename_section old new m in (b, s :: m)
  end.

(** Histories ([clear] is sections.rs:104-106). *)
Inductive op := Add (n : string) (first count : N) | Remove (n : string) | Rename (old new : string) | Clear.
Definition step (m : manager) (o : op) : manager :=
  match o with
  | Add n f c => snd (add_section n f c m)
  | Remove n => snd (remove_section n m)
  | Rename a b => snd (rename_section a b m)
  | Clear => []
  end.
Definition run (l : list op) : manager := fold_left step l manager_new.

(** sections.rs:159-177 [generate_section_id]. *)
Definition fnv1a (s : string) : N :=
  sfold (fun h c => wmul u64_max (N.lxor h (N_of_ascii c)) 1099511628211) s 14695981039346656037%N.
Definition section_id (n : string) : string :=
  let h := fnv1a n in
  let d := wmul u64_max h 11400714819323198485 in
  hexw 8 (N.shiftr h 32 mod 4294967296) ++ "-" ++ hexw 4 (h mod 65536) ++ "-" ++ hexw 4 (N.shiftr h 16 mod 65536)
  ++ "-" ++ hexw 4 (d mod 65536) ++ "-" ++ hexw 12 (N.shiftr d 16).

(** sections.rs:119-147 [to_xml].  The slide indexes of a section are computed
    without wrapping here. *)
Definition section_slides (total : N) (s : section) : list N :=
  filter (fun i => (i <? total)%N) (map (fun i => (first_slide s + N.of_nat i)%N) (seq 0 (N.to_nat (slide_count s)))).
Definition section_xml (total : N) (s : section) : string :=
  "<p14:section name=""" ++ chained_escape (name s) ++ """ id=""{" ++ section_id (name s) ++ "}"">"
  ++ "<p14:sldIdLst>" ++ sconcat (map (fun i => "<p14:sldId id=""" ++ dec (256 + i) ++ """/>") (section_slides total s))
  ++ "</p14:sldIdLst>" ++ "</p14:section>".
Definition sections_xml (total : N) (m : manager) : string :=
  match m with
  | [] => ""
  | _ => "<p:extLst><p:ext uri=""{521415D9-36F7-43E2-AB2F-B90AF26B5E84}""><p14:sectionLst xmlns:p14=""http://schemas.microsoft.com/office/powerpoint/2010/main"">"
         ++ sconcat (map (section_xml total) m) ++ "</p14:sectionLst></p:ext></p:extLst>"
  end.
