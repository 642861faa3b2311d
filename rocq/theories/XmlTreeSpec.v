(** Document-order searches over the element tree. *)
From Coq Require Import String Ascii List Bool.
From Verif Require Import Str XmlSpec XmlTreeModel.
Import ListNotations.
Open Scope string_scope.

(** All proper descendants, in document order (each element before its own
    descendants). *)
Fixpoint descendants (e : xel) : list xel :=
  let '(XE _ _ _ ks _) := e in
  (fix go (l : list xel) : list xel := match l with [] => [] | c :: l => (c :: descendants c ++ go l)%list end) ks.
Definition has_name (n : string) (e : xel) : bool := String.eqb (local_name e) n.

(** The tree a document should give: elements with their local name,
    attributes other than namespace declarations, element children in order
    and their non-blank character data. *)
Fixpoint tree (x : node) : option xel :=
  match x with
  | Elem n a ks =>
      Some (XE n (local n) (rev (filter (fun p => negb (is_xmlns (fst p))) a))
        ((fix go (l : list node) : list xel :=
            match l with [] => [] | k :: l => match tree k with Some e => e :: go l | None => go l end end) ks)
        (sconcat (map (fun k => match k with Txt t => if blank t then "" else t | _ => "" end) ks)))
  | Txt _ => None
  end.

(** All non-blank character data of a document, in document order. *)
Fixpoint all_text (x : node) : string :=
  match x with
  | Elem _ _ ks => (fix go (l : list node) : string := match l with [] => "" | k :: l => all_text k ++ go l end) ks
  | Txt t => if blank t then "" else t
  end.
(** No element has both element children and non-blank character data. *)
Fixpoint unmixed (x : node) : bool :=
  match x with
  | Elem _ _ ks =>
      (forallb (fun k => match k with Elem _ _ _ => true | Txt t => blank t end) ks
       || forallb (fun k => match k with Elem _ _ _ => false | Txt _ => true end) ks)
      && (fix go (l : list node) : bool := match l with [] => true | k :: l => unmixed k && go l end) ks
  | Txt _ => true
  end.

(** What a name is without its prefix: all of it, or what follows its last colon. *)
Definition no_colon (s : string) : bool := sforall (fun c => negb (Ascii.eqb c ":")) s.
Definition unprefixed (t l : string) : Prop := no_colon l = true /\ (t = l \/ exists p, t = p ++ ":" ++ l).
