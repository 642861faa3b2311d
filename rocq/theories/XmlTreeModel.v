(** Model of src/oxml/xmlchemy.rs: the element tree and its searches.
    The xml-rs event reader itself is not part of the crate.  Its events for a
    document are modelled as those of the tree the reader of XmlSpec returns
    ([events]): attributes without namespace declarations, character data as
    [Characters], or as the ignored [Whitespace] event when it is blank (the
    reader's default configuration). *)
From Coq Require Import String Ascii List Bool NArith.
From Verif Require Import Str XmlSpec.
Import ListNotations.
Open Scope string_scope.

(** xmlchemy.rs:12-25; the attribute hash map is an association list, newest
    first; [namespace] is not modelled. *)
Inductive xel := XE (tag local_name : string) (attrs : list (string * string)) (kids : list xel) (text : string).
Definition tag (e : xel) : string := let '(XE t _ _ _ _) := e in t.
Definition local_name (e : xel) : string := let '(XE _ l _ _ _) := e in l.
Definition attributes (e : xel) : list (string * string) := let '(XE _ _ a _ _) := e in a.
Definition kids (e : xel) : list xel := let '(XE _ _ _ k _) := e in k.
Definition text (e : xel) : string := let '(XE _ _ _ _ t) := e in t.

(** [tag.split(':').next_back()]: what follows the last colon. *)
Fixpoint after_colon (s acc : string) : string :=
  match s with
  | "" => acc
  | String c s' => if Ascii.eqb c ":" then after_colon s' s' else after_colon s' acc
  end.
Definition local (t : string) : string := after_colon t t.
(** xmlchemy.rs:29-39. *)
Definition xel_new (t : string) : xel := XE t (local t) [] [] "".
(** xmlchemy.rs:55-67. *)
Definition attr_of (n : string) (e : xel) : option string :=
  option_map snd (find (fun p => String.eqb (fst p) n) (attributes e)).
Definition set_attr (k v : string) (e : xel) : xel :=
  let '(XE t l a ks x) := e in XE t l ((k, v) :: a) ks x.
Definition add_child (c : xel) (e : xel) : xel := let '(XE t l a ks x) := e in XE t l a (ks ++ [c])%list x.
Definition push_text (s : string) (e : xel) : xel := let '(XE t l a ks x) := e in XE t l a ks (x ++ s).
(** xmlchemy.rs:70-80. *)
Definition find_child (n : string) (e : xel) : option xel := find (fun c => String.eqb (local_name c) n) (kids e).
Definition find_all (n : string) (e : xel) : list xel := filter (fun c => String.eqb (local_name c) n) (kids e).
(** xmlchemy.rs:83-93 [find_descendant]. *)
Fixpoint find_descendant (n : string) (e : xel) : option xel :=
  let '(XE _ _ _ ks _) := e in
  (fix go (l : list xel) : option xel :=
     match l with
     | [] => None
     | c :: l =>
         if String.eqb (local_name c) n then Some c
         else match find_descendant n c with Some f => Some f | None => go l end
     end) ks.
(** xmlchemy.rs:96-109: the results vector is threaded through. *)
Fixpoint collect_descendants (n : string) (e : xel) (acc : list xel) : list xel :=
  let '(XE _ _ _ ks _) := e in
  (fix go (l : list xel) (acc : list xel) : list xel :=
     match l with
     | [] => acc
     | c :: l => go l (collect_descendants n c (if String.eqb (local_name c) n then (acc ++ [c])%list else acc))
     end) ks acc.
Definition find_all_descendants (n : string) (e : xel) : list xel := collect_descendants n e [].
(** xmlchemy.rs:112-118. *)
Fixpoint text_content (e : xel) : string :=
  let '(XE _ _ _ ks t) := e in
  (fix go (l : list xel) (acc : string) : string :=
     match l with [] => acc | c :: l => go l (acc ++ text_content c) end) ks t.

(** ** The parser: xmlchemy.rs:137-198. *)
Inductive event := Start (name : string) (attrs : list (string * string)) | End_ | Characters (s : string) | Other.

(** The stack has the innermost open element first. *)
Record pst := Pst { pstack : list xel; proot : option xel }.
Definition on_event (s : pst) (e : event) : pst :=
  match e with
  | Start n a => Pst (fold_left (fun x p => set_attr (fst p) (snd p) x) a (xel_new n) :: pstack s) (proot s)
  | End_ =>
      match pstack s with
      | [] => s
      | x :: [] => Pst [] (Some x)
      | x :: p :: st => Pst (add_child x p :: st) (proot s)
      end
  | Characters t => match pstack s with [] => s | x :: st => Pst (push_text t x :: st) (proot s) end
  | Other => s
  end.
Definition build (l : list event) : option xel := proot (fold_left on_event l (Pst [] None)).

(** The events of a document (see the header). *)
Definition is_xmlns (k : string) : bool := String.eqb k "xmlns" || starts_with "xmlns:" k.
Fixpoint events (x : node) : list event :=
  match x with
  | Elem n a ks =>
      (Start n (filter (fun p => negb (is_xmlns (fst p))) a)
      :: (fix go (l : list node) : list event := match l with [] => [] | k :: l => (events k ++ go l)%list end) ks ++ [End_])%list
  | Txt t => [if blank t then Other else Characters t]
  end.
Definition parse_str (s : string) : option xel :=
  match xml_read s with Some x => build (events x) | None => None end.
