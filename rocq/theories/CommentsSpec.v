(** What comment authors and comments should be. *)
From Coq Require Import String List NArith.
From Verif Require Import Str XmlSpec OpcSpec CommentsModel.
Import ListNotations.
Open Scope string_scope.

(** The first call for each name, in order. *)
Fixpoint firsts (seen : list string) (l : list (string * string)) : list (string * string) :=
  match l with
  | [] => []
  | (n, i) :: l => if existsb (String.eqb n) seen then firsts seen l else (n, i) :: firsts (n :: seen) l
  end.

(** Text of an element: the concatenated text children. *)
Definition text_of (x : node) : string :=
  sconcat (map (fun k => match k with Txt t => t | _ => "" end) (children x)).
(** Reading the two parts. *)
Definition read_authors (s : string) : option (list (string * string * string * string)) :=
  match xml_read s with
  | Some (Elem "p:cmAuthorLst" _ kids) =>
      Some (map (fun x => (attr "id" x, attr "name" x, attr "initials" x, attr "clrIdx" x)) (named "p:cmAuthor" kids))
  | _ => None
  end.
(** author, date, index, text, positions (x, y). *)
Definition read_comments (s : string) : option (list (string * string * string * list string * list (string * string))) :=
  match xml_read s with
  | Some (Elem "p:cmLst" _ kids) =>
      Some (map (fun x => (attr "authorId" x, attr "dt" x, attr "idx" x, map text_of (named "p:text" (children x)),
                           map (fun y => (attr "x" y, attr "y" y)) (named "p:pos" (children x)))) (named "p:cm" kids))
  | _ => None
  end.
(** A call of [add_comment]. *)
Definition call : Type := N * string * N * N.
Definition add_calls (l : list call) (c : list comment) : list comment :=
  fold_left (fun c '(a, t, x, y) => add_comment a t x y c) l c.
