(** Lemmas for reading lists of elements out of templates. *)
From Coq Require Import String Ascii List Bool Arith.
From Verif Require Import Str XmlSpec XmlProofs XmlTpl OpcSpec GenProofs.
Import ListNotations.
Open Scope string_scope.

(** The element an element template stands for. *)
Definition tname (t : tpl) : option string := match t with TE n _ _ | TS n _ => Some n | _ => None end.
Definition tnode (t : tpl) : node :=
  match t with
  | TE n a b => Elem n (attrs_val a) (merge_text (tsnodes b))
  | TS n a => Elem n (attrs_val a) []
  | _ => Txt ""
  end.
Definition tbody (t : tpl) : list tpl := match t with TE _ _ b => b | _ => [] end.

Lemma tnodes_elem t n : tname t = Some n -> tnodes t = [tnode t].
Proof. destruct t; try discriminate; reflexivity. Qed.
Lemma named_elem t n m : tname t = Some n -> named m (tnodes t) = if String.eqb n m then [tnode t] else [].
Proof. intros H. rewrite (tnodes_elem t n H). destruct t; try discriminate; injection H as ->; reflexivity. Qed.
Lemma tsnodes_cons t l : tsnodes (t :: l) = (tnodes t ++ tsnodes l)%list.
Proof. reflexivity. Qed.
Lemma named_cons m t l n : tname t = Some n ->
  named m (tsnodes (t :: l)) = if String.eqb n m then tnode t :: named m (tsnodes l) else named m (tsnodes l).
Proof. intros H. rewrite tsnodes_cons, named_app, (named_elem t n m H). now destruct (String.eqb n m). Qed.
Lemma named_text m p l : named m (tsnodes (TT p :: l)) = named m (tsnodes l).
Proof. rewrite tsnodes_cons, named_app. reflexivity. Qed.

(** A list of elements with one name. *)
Lemma named_all {A} m (f : A -> tpl) l : (forall x, tname (f x) = Some m) -> named m (tsnodes (map f l)) = map (fun x => tnode (f x)) l.
Proof.
  intros H. induction l as [|x l IH]; [reflexivity|]. cbn [map]. rewrite (named_cons m (f x) _ m (H x)), String.eqb_refl. now rewrite IH.
Qed.
Lemma named_none {A} m (f : A -> tpl) l : (forall x, exists n, tname (f x) = Some n /\ String.eqb n m = false) -> named m (tsnodes (map f l)) = [].
Proof.
  intros H. induction l as [|x l IH]; [reflexivity|]. cbn [map]. destruct (H x) as (n & Hn & E).
  now rewrite (named_cons m (f x) _ n Hn), E.
Qed.
Lemma children_tnode t : children (tnode t) = merge_text (tsnodes (tbody t)).
Proof. destruct t; reflexivity. Qed.
(** The elements named [m] below [t]. *)
Lemma named_children m t : named m (children (tnode t)) = named m (tsnodes (tbody t)).
Proof. rewrite children_tnode. apply named_merge. Qed.
Lemma tpl_read_node n a b : tok (TE n a b) -> xml_read (tstr (TE n a b)) = Some (tnode (TE n a b)).
Proof. apply tpl_read0. Qed.
Lemma named_nil m : named m (tsnodes []) = [].
Proof. reflexivity. Qed.
Lemma flat_map_one {A B} (f : A -> list B) x : flat_map f [x] = f x.
Proof. apply app_nil_r. Qed.
(** Walk down into a template, one [named] / [children] at a time. *)
Ltac nread := repeat first
  [ rewrite named_nil | rewrite flat_map_one | rewrite named_merge | rewrite named_text
  | rewrite named_children; cbn [tbody]
  | erewrite named_cons by reflexivity; cbn [String.eqb Ascii.eqb Bool.eqb] ].
