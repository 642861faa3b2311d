(** What compression must respect, said without the code. *)
From stdpp Require Import gmap strings.
From Coq Require Import String Ascii List Bool Arith.
From Verif Require Import Str XmlSpec OpcSpec ResolveSpec.
Import ListNotations.
Open Scope nat_scope.
Open Scope string_scope.

(** XML's white space, and a string without it. *)
Definition blank (c : ascii) : bool := Ascii.eqb c " " || Ascii.eqb c LF || Ascii.eqb c TAB || Ascii.eqb c CR.
Definition dense (s : string) : string := sfilter (fun c => negb (blank c)) s.
(** A document cut into texts and tags.  What stands between "<" and ">" has
    its double quotes in pairs and no "<" or ">" outside of them. *)
Definition plain3 (c : ascii) : bool := negb (Ascii.eqb c "<") && negb (Ascii.eqb c ">") && negb (Ascii.eqb c DQ).
Inductive tagbody : string -> Prop :=
  | tb_end : tagbody ""
  | tb_char c s : plain3 c = true -> tagbody s -> tagbody (String c s)
  | tb_value v s : sforall (fun c => negb (Ascii.eqb c DQ)) v = true -> tagbody s -> tagbody (dq ++ v ++ dq ++ s).
Definition doc (l : list (string * string)) : string := sconcat (map (fun p => fst p ++ "<" ++ snd p ++ ">") l).
Definition piece_ok (p : string * string) : Prop := sforall plain3 (fst p) = true /\ tagbody (snd p).

(** ** Parts (name and content), their number and the sum of their sizes *)
Definition total (l : list (string * string)) : nat := list_sum (map (fun e => String.length (snd e)) l).
Definition count (f : string -> bool) (l : list (string * string)) : nat := length (List.filter (fun e => f (fst e)) l).
Definition sum_of (f : string -> bool) (l : list (string * string)) : nat := total (List.filter (fun e => f (fst e)) l).
Definition an_image (p : string) : bool := starts_with "ppt/media/" p && (ends_with ".png" p || ends_with ".jpg" p || ends_with ".jpeg" p).
Definition an_xml (p : string) : bool := negb (starts_with "ppt/media/" p) && (ends_with ".xml" p || ends_with ".rels" p).
Definition an_other (p : string) : bool := negb (an_image p) && negb (an_xml p).
Definition a_slide (p : string) : bool := starts_with "ppt/slides/slide" p && ends_with ".xml" p.
Definition a_medium (p : string) : bool := starts_with "ppt/media/" p && negb (an_image p).

(** ** Relationships: the relationship part of [dir]/[f] has a relationship of
    this id to this part of the package. *)
Definition relates (p : gmap string string) (dir : list string) (f id : string) (target : string) : Prop :=
  exists xml l r segs e, p !! path (dir ++ ["_rels"; (f ++ ".rels")%string])%list = Some xml /\ rels_of xml = Some l /\ In r l /\ rel_id r = id /\ rel_mode r <> "External"
    /\ segments (rel_target r) segs /\ walks dir segs e /\ target = path e.

(** ** What compression removes: the media whose file name occurs in no slide's
    text, the document properties, the notes slides, each if asked to. *)
Definition unnamed (lossy : string -> string) (p : gmap string string) (m : string) : Prop :=
  exists dir f, m = "ppt/media/" ++ dir ++ f /\ sforall (fun c => negb (Ascii.eqb c "/")) f = true /\ (dir = "" \/ exists d, dir = d ++ "/")
    /\ forall s x, p !! s = Some x -> a_slide s = true -> contains f (lossy x) = false.
Definition removed (lossy : string -> string) (media properties notes : bool) (p : gmap string string) (m : string) : Prop :=
  (media = true /\ unnamed lossy p m)
  \/ (properties = true /\ In m ["docProps/core.xml"; "docProps/app.xml"; "docProps/custom.xml"; "docProps/thumbnail.jpeg"])
  \/ (notes = true /\ starts_with "ppt/notesSlides/" m = true).
