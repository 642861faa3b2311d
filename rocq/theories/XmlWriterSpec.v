(** What a sequence of writer calls means as a tree. *)
From Coq Require Import String Ascii List Bool.
From Verif Require Import XmlSpec XmlWriterModel.
Import ListNotations.
Open Scope string_scope.

Fixpoint node_of (c : call) : node :=
  match c with
  | CElem n a body => Elem n a (merge_text (map node_of body))
  | CEmpty n a => Elem n a []
  | CText s => Txt s
  end.

Definition attrs_ok (a : list (string * string)) : Prop :=
  NoDup (map fst a) /\
  Forall (fun p => is_name (fst p) = true /\ attr_ok (snd p) = true) a.

(** Names are XML names, attribute names of one element are distinct, texts
    and values consist of characters XML can carry. *)
Fixpoint call_ok (c : call) : Prop :=
  match c with
  | CElem n a body =>
      is_name n = true /\ attrs_ok a /\
      (fix all (l : list call) : Prop := match l with [] => True | c :: l => call_ok c /\ all l end) body
  | CEmpty n a => is_name n = true /\ attrs_ok a
  | CText s => text_ok s = true
  end.
