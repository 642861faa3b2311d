(** A generated deck as a list of parts, said without the code. *)
From Coq Require Import String Ascii List Bool Arith.
From Verif Require Import Str XmlSpec XmlPath OpcSpec SlideSpec ResolveSpec.
Import ListNotations.
Open Scope nat_scope.
Open Scope string_scope.

(** The parts whose names begin with [p], in order. *)
Definition family (p : string) (d : list (string * string)) : list (string * string) := filter (fun e => starts_with p (fst e)) d.
(** Numbered parts: [pre]1[post], [pre]2[post], ... with these contents. *)
Definition numbered (pre post : string) (contents : list string) : list (string * string) :=
  combine (map (fun k => pre ++ decn k ++ post) (seq 1 (length contents))) contents.
(** The first occurrences in a list, in order. *)
Fixpoint uniques {A} (eqb : A -> A -> bool) (l : list A) : list A :=
  match l with [] => [] | x :: r => x :: filter (fun y => negb (eqb x y)) (uniques eqb r) end.
(** The relationship part of the part [dir]/[f] of the deck holds the
    relationship [r]. *)
Definition has_rel (d : list (string * string)) (dir : list string) (f : string) (r : rel) : Prop :=
  exists xml l, In (path (dir ++ ["_rels"; (f ++ ".rels")%string])%list, xml) d /\ rels_of xml = Some l /\ In r l.
(** A relative reference made in the directory [dir] leads to the part [n]. *)
Definition leads (dir : list string) (target n : string) : Prop := exists segs e, segments target segs /\ walks dir segs e /\ n = path e.
(** The part [dir]/[f] has a relationship of this id and kind to the part [n],
    and [n] is in the deck with content [c]. *)
Definition linked (d : list (string * string)) (dir : list string) (f id kind n c : string) : Prop :=
  exists r, has_rel d dir f r /\ rel_id r = id /\ rel_type r = doc_rel kind /\ rel_mode r = "" /\ leads dir (rel_target r) n /\ In (n, c) d.
(** The content type of a part, by its name or its extension. *)
Definition extension_of (n : string) : string := match split_once "." (srev n) with Some (a, _) => srev a | None => "" end.
Definition typed (types : list (string * string) * list (string * string)) (n : string) : Prop :=
  (exists t, In ("/" ++ n, t) (snd types)) \/ (exists t, In (extension_of n, t) (fst types)).
(** The paragraphs of the placeholders of a kind on a page. *)
Definition page_texts (kind : string) (x : node) : list (list string) :=
  map shape_paragraphs (filter (fun s => existsb (fun p => String.eqb (attr "type" p) kind) (at_path ["p:nvSpPr"; "p:nvPr"; "p:ph"] s)) (slide_shapes x)).
(** Every relationship of this relationship text, made in the directory [dir],
    that stays inside the package leads to a part of the deck. *)
Definition closed_at (d : list (string * string)) (dir : list string) (xml : string) : Prop :=
  exists l, rels_of xml = Some l /\ forall r, In r l -> rel_mode r = "" -> exists n c, leads dir (rel_target r) n /\ In (n, c) d.
(** The part [n] of the deck is this XML document. *)
Definition shows (d : list (string * string)) (n : string) (x : node) : Prop := exists xml, In (n, xml) d /\ xml_read xml = Some x.
(** All relationships of the part [dir]/[f], and those of a kind. *)
Definition relations (d : list (string * string)) (dir : list string) (f : string) (l : list rel) : Prop :=
  exists xml, In (path (dir ++ ["_rels"; (f ++ ".rels")%string])%list, xml) d /\ rels_of xml = Some l.
Definition rels_kind (kind : string) (l : list rel) : list rel := filter (fun r => String.eqb (rel_type r) (doc_rel kind)) l.
