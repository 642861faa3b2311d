(** Which slides a presentation file lists, said without the code. *)
From Coq Require Import String Ascii List Bool NArith Sorted Permutation.
From Verif Require Import Str XmlSpec OpcSpec.
Import ListNotations.
Open Scope string_scope.

(** The part after the prefix of a qualified name. *)
Definition unprefixed (n w : string) : Prop := n = w \/ exists p, n = p ++ ":" ++ w.
(** A relationship type of a slide: not a slide layout or slide master. *)
Definition for_slide (t : string) : bool := contains "/slide" t && negb (contains "Layout" t) && negb (contains "Master" t).
(** The slide relationships of a relationship part: number and target.  The ids
    are "rId1", "rId2", ... *)
Inductive slide_rels : list node -> list (N * string) -> Prop :=
| none : slide_rels [] []
| text t l r : slide_rels l r -> slide_rels (Txt t :: l) r
| other n a ks l r : ~ unprefixed n "Relationship" -> slide_rels l r -> slide_rels (Elem n a ks :: l) r
| unrelated n a ks l r : unprefixed n "Relationship" -> for_slide (attr "Type" (Elem n a ks)) = false -> slide_rels l r -> slide_rels (Elem n a ks :: l) r
| related n a ks l r k t : unprefixed n "Relationship" -> for_slide (attr "Type" (Elem n a ks)) = true ->
    attr_opt "Id" (Elem n a ks) = Some ("rId" ++ dec k) -> attr_opt "Target" (Elem n a ks) = Some t -> slide_rels l r -> slide_rels (Elem n a ks :: l) ((k, t) :: r).
(** A target is a part name below ppt/, or from the root when it begins with a
    slash. *)
Definition placed_at (t p : string) : Prop := t = "/" ++ p \/ (starts_with "/" t = false /\ p = "ppt/" ++ t).
