(** Model of src/generator/slide_content/comments.rs. *)
From Coq Require Import String Ascii List Bool NArith.
From Verif Require Import Str Num EscapeModel.
Import ListNotations.
Open Scope string_scope.

(** comments.rs:10-25. *)
Record author := Author { au_id : N; au_name : string; au_initials : string; au_color : N }.
Definition author_new (id : N) (name initials : string) : author := Author id name initials id.
(** comments.rs:33-42; [xml_escape] (comments.rs:221-227) is the chained replacement. *)
Definition author_xml (a : author) : string :=
  "<p:cmAuthor id=""" ++ dec (au_id a) ++ """ name=""" ++ chained_escape (au_name a) ++ """ initials="""
  ++ chained_escape (au_initials a) ++ """ lastIdx=""1"" clrIdx=""" ++ dec (au_color a) ++ """/>".

(** comments.rs:46-67. *)
Record comment := Comment { co_author : N; co_text : string; co_date : string; co_x : N; co_y : N; co_index : N }.
(** comments.rs:57-67. *)
Definition comment_new (author : N) (text : string) : comment := Comment author text "2025-01-01T00:00:00.000" 0 0 1.
(** comments.rs:70-80 [position], [index]. *)
Definition position (x y : N) (c : comment) : comment := Comment (co_author c) (co_text c) (co_date c) x y (co_index c).
Definition index (i : N) (c : comment) : comment := Comment (co_author c) (co_text c) (co_date c) (co_x c) (co_y c) i.
(** comments.rs:89-99. *)
Definition comment_xml (c : comment) : string :=
  "<p:cm authorId=""" ++ dec (co_author c) ++ """ dt=""" ++ chained_escape (co_date c) ++ """ idx=""" ++ dec (co_index c)
  ++ """><p:pos x=""" ++ dec (co_x c) ++ """ y=""" ++ dec (co_y c) ++ """/><p:text>" ++ chained_escape (co_text c)
  ++ "</p:text></p:cm>".

(** comments.rs:104-113.  The hash map is an association list, newest first;
    [next_id] is a u32. *)
Record author_list := Authors { authors : list author; name_to_id : list (string * N); next_id : N }.
Definition authors_new : author_list := Authors [] [] 0.
Definition assoc (n : string) (l : list (string * N)) : option N :=
  option_map snd (find (fun p => String.eqb (fst p) n) l).
(** comments.rs:115-125. *)
Definition get_or_add (n i : string) (s : author_list) : N * author_list :=
  match assoc n (name_to_id s) with
  | Some id => (id, s)
  | None =>
      let id := next_id s in
      (id, Authors (authors s ++ [author_new id n i]) ((n, id) :: name_to_id s) (wadd u32_max id 1))
  end.
(** comments.rs:128-130. *)
Definition get_by_id (id : N) (s : author_list) : option author := find (fun a => (au_id a =? id)%N) (authors s).
(** A history of [get_or_add] calls: the ids returned and the final list. *)
Fixpoint get_all (l : list (string * string)) (s : author_list) : list N * author_list :=
  match l with
  | [] => ([], s)
  | (n, i) :: l => let '(id, s) := get_or_add n i s in let '(ids, s) := get_all l s in (id :: ids, s)
  end.

Definition xmlns : string :=
  " xmlns:a=""http://schemas.openxmlformats.org/drawingml/2006/main"" xmlns:r=""http://schemas.openxmlformats.org/officeDocument/2006/relationships"" xmlns:p=""http://schemas.openxmlformats.org/presentationml/2006/main"">".
(** comments.rs:148-161. *)
Definition authors_xml (s : author_list) : string :=
  "<?xml version=""1.0"" encoding=""UTF-8"" standalone=""yes""?>" ++ "<p:cmAuthorLst" ++ xmlns
  ++ sconcat (map author_xml (authors s)) ++ "</p:cmAuthorLst>".

(** comments.rs:164-187: [add] and [add_comment] ([comments.len() as u32]). *)
Definition add (c : comment) (l : list comment) : list comment := l ++ [c].
Definition add_comment (author : N) (text : string) (x y : N) (l : list comment) : list comment :=
  l ++ [index (wadd u32_max (N.of_nat (length l) mod 4294967296) 1) (position x y (comment_new author text))].
(** comments.rs:205-218. *)
Definition comments_xml (l : list comment) : string :=
  "<?xml version=""1.0"" encoding=""UTF-8"" standalone=""yes""?>" ++ "<p:cmLst" ++ xmlns
  ++ sconcat (map comment_xml l) ++ "</p:cmLst>".
