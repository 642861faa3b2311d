(** Specification of an editor session: an ordered list of slides. *)
From Coq Require Import String Ascii List Bool Arith.
From stdpp Require Import base gmap strings.
From Verif Require Import Str OpcSpec PackageModel EditorModel.
Import ListNotations.
Open Scope string_scope.

(** A slide: its XML bytes and the bytes of its relationship part, if any. *)
Definition slide : Type := string * option string.

Definition nth_slide (p : package) (n : nat) : slide :=
  (match p !! ("ppt/slides/slide" ++ decn n ++ ".xml") with Some x => x | None => "" end,
   p !! ("ppt/slides/_rels/slide" ++ decn n ++ ".xml.rels")).
(** The slides an editor shows. *)
Definition slides_of (e : editor) : list slide := map (nth_slide (pkg e)) (seq 1 (slide_count e)).

(** The slide parts of the package are numbered 1..count, and the editor's
    scratch names are free. *)
Definition numbered (e : editor) : Prop :=
  (forall n, 1 <= n <= slide_count e -> pkg e !! ("ppt/slides/slide" ++ decn n ++ ".xml") <> None) /\
  (forall n, slide_count e < n ->
     pkg e !! ("ppt/slides/slide" ++ decn n ++ ".xml") = None /\
     pkg e !! ("ppt/slides/_rels/slide" ++ decn n ++ ".xml.rels") = None) /\
  pkg e !! "ppt/slides/_temp_slide.xml" = None /\ pkg e !! "ppt/slides/_rels/_temp_slide.xml.rels" = None.

Section Session.
Variable content : Type.
Variable slide_xml : nat -> content -> string.
(** Relationship part of a fresh slide. *)
Variable fresh_rels : string.

Definition insert_at {A} (i : nat) (x : A) (l : list A) : list A := (firstn i l ++ x :: skipn i l)%list.
Definition delete_at {A} (i : nat) (l : list A) : list A := (firstn i l ++ skipn (S i) l)%list.
(** A copy always has a relationship part. *)
Definition copy_of (s : slide) : slide := (fst s, Some (match snd s with Some r => r | None => "" end)).

Definition list_step (o : edit content) (l : list slide) : outcome * list slide :=
  match o with
  | AddSlide _ c => (Ok (length l), l ++ [(slide_xml (length l + 1) c, Some fresh_rels)])%list
  | UpdateSlide _ i c =>
      match nth_error l i with
      | Some s => (Ok i, insert_at i (slide_xml (i + 1) c, snd s) (delete_at i l))
      | None => (NotFound, l)
      end
  | RemoveSlide _ i =>
      match nth_error l i with
      | Some _ => (Ok i, delete_at i l)
      | None => (NotFound, l)
      end
  | DuplicateSlide _ i =>
      match nth_error l i with
      | Some s => (Ok (i + 1), insert_at (i + 1) (copy_of s) l)
      | None => (NotFound, l)
      end
  | InsertSlide _ i c =>
      if Nat.leb i (length l) then (Ok i, insert_at i (slide_xml (i + 1) c, Some fresh_rels) l) else (NotFound, l)
  | ReorderSlide _ from to =>
      match nth_error l from, nth_error l to with
      | Some s, Some _ => (Ok to, insert_at to s (delete_at from l))
      | _, _ => (NotFound, l)
      end
  end.
Fixpoint list_session (os : list (edit content)) (l : list slide) : list outcome * list slide :=
  match os with
  | [] => ([], l)
  | o :: os => let '(r, l) := list_step o l in let '(rs, l) := list_session os l in (r :: rs, l)
  end.
End Session.

(** The index of an operation does not denote a position of a deck of n slides. *)
Definition out_of_range {content} (o : edit content) (n : nat) : Prop :=
  match o with
  | AddSlide _ _ => False
  | UpdateSlide _ i _ | RemoveSlide _ i | DuplicateSlide _ i => n <= i
  | InsertSlide _ i _ => n < i
  | ReorderSlide _ a b => n <= a \/ n <= b
  end.
(** Operations that rebuild the index parts. *)
Definition structural {content} (o : edit content) : Prop :=
  match o with
  | AddSlide _ _ | UpdateSlide _ _ _ => False
  | ReorderSlide _ a b => a <> b
  | _ => True
  end.

(** Names the editor may touch. *)
Definition editor_name (name : string) : Prop :=
  (exists n, name = "ppt/slides/slide" ++ decn n ++ ".xml") \/
  (exists n, name = "ppt/slides/_rels/slide" ++ decn n ++ ".xml.rels") \/
  name = "ppt/presentation.xml" \/ name = "ppt/_rels/presentation.xml.rels" \/ name = "[Content_Types].xml" \/
  name = "ppt/slides/_temp_slide.xml" \/ name = "ppt/slides/_rels/_temp_slide.xml.rels".

(** The package indexes agree with the slides 1..count. *)
Definition indexes_consistent (e : editor) : Prop :=
  exists pres rels types l ids defaults overrides,
    pkg e !! "ppt/presentation.xml" = Some pres /\
    pkg e !! "ppt/_rels/presentation.xml.rels" = Some rels /\
    pkg e !! "[Content_Types].xml" = Some types /\
    rels_of rels = Some l /\ id_list pres "p:sldIdLst" "p:sldId" = Some ids /\ types_of types = Some (defaults, overrides) /\
    List.NoDup (map rel_id l) /\ length ids = slide_count e /\ List.NoDup (map fst ids) /\
    (forall i id r, nth_error ids i = Some (id, r) ->
       lookup_rel r l = Some (Rel r (doc_rel "slide") ("slides/slide" ++ decn (i + 1) ++ ".xml") "")) /\
    map fst (List.filter (fun o => String.eqb (snd o) "application/vnd.openxmlformats-officedocument.presentationml.slide+xml") overrides)
      = map (fun n => "/ppt/slides/slide" ++ decn n ++ ".xml") (seq 1 (slide_count e)).
