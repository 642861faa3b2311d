(** The element tree the reader builds from a template. *)
From Coq Require Import String Ascii List Bool Arith NArith ZArith Lia.
From Verif Require Import Str XmlSpec XmlProofs XmlTpl TplRead XmlTreeModel XmlTreeSpec XmlTreeProofs.
Import ListNotations.
Open Scope nat_scope.
Open Scope string_scope.

Definition xattrs (a : list (string * list piece)) : list (string * string) := rev (filter (fun p => negb (is_xmlns (fst p))) (attrs_val a)).
Fixpoint xt (t : tpl) : list xel :=
  match t with
  | TE n a b => [XE n (local n) (xattrs a) (flat_map xt b) (own_text (merge_text (tsnodes b)))]
  | TS n a => [XE n (local n) (xattrs a) [] ""]
  | TT _ => []
  | TC _ ns => kid_trees ns
  end.
Definition xts (l : list tpl) : list xel := flat_map xt l.

Lemma kid_trees_merge l : kid_trees (merge_text l) = kid_trees l.
Proof.
  induction l as [|[n a k|t] l IH]; [reflexivity| |].
  - cbn [merge_text]. unfold kid_trees in *. cbn [flat_map]. now rewrite IH.
  - change (kid_trees (Txt t :: l)) with (kid_trees l). rewrite <- IH. cbn [merge_text].
    destruct (merge_text l) as [|[m b k|u] r]; [| |reflexivity]; destruct (String.eqb t ""); reflexivity.
Qed.
Lemma kid_trees_app a b : kid_trees (a ++ b) = (kid_trees a ++ kid_trees b)%list.
Proof. unfold kid_trees. now rewrite flat_map_app. Qed.
Section tpl_ind.
  Variable P : tpl -> Prop.
  Hypothesis HE : forall n a b, Forall P b -> P (TE n a b).
  Hypothesis HS : forall n a, P (TS n a).
  Hypothesis HT : forall p, P (TT p).
  Hypothesis HC : forall s ns, P (TC s ns).
  Fixpoint tpl_ind' (t : tpl) : P t :=
    match t with
    | TE n a b => HE n a b ((fix go (l : list tpl) : Forall P l := match l with [] => Forall_nil _ | c :: l => Forall_cons _ (tpl_ind' c) (go l) end) b)
    | TS n a => HS n a
    | TT p => HT p
    | TC s ns => HC s ns
    end.
End tpl_ind.
Lemma xt_nodes t : kid_trees (tnodes t) = xt t.
Proof.
  induction t as [n a b IH|n a|p|s ns] using tpl_ind'; [|reflexivity..]. cbn [tnodes]. unfold kid_trees. cbn [flat_map].
  rewrite tree_elem, kid_trees_merge. cbn [app xt]. repeat f_equal.
  induction IH as [|c l Hc _ IHl]; [reflexivity|]. cbn [map concat flat_map]. rewrite kid_trees_app, Hc. now rewrite IHl.
Qed.
Lemma xts_nodes l : kid_trees (merge_text (tsnodes l)) = xts l.
Proof.
  rewrite kid_trees_merge. induction l as [|t l IH]; [reflexivity|]. rewrite tsnodes_cons, kid_trees_app, xt_nodes, IH. reflexivity.
Qed.
Lemma tree_tnode n a b : tree (tnode (TE n a b)) = Some (XE n (local n) (xattrs a) (xts b) (own_text (merge_text (tsnodes b)))).
Proof. cbn [tnode]. now rewrite tree_elem, xts_nodes. Qed.
Lemma xts_app a b : xts (a ++ b) = (xts a ++ xts b)%list.
Proof. unfold xts. now rewrite flat_map_app. Qed.
(** The text of an element that contains nothing else. *)

Lemma leaf_text p : own_text (merge_text (tsnodes [TT p])) = if blank (vals p) then "" else vals p.
Proof.
  unfold tsnodes. cbn [map concat tnodes app merge_text]. destruct (String.eqb_spec (vals p) "") as [->|H]; [reflexivity|].
  cbn [own_text map sconcat fold_right]. unfold own_text. cbn [map]. unfold sconcat. cbn [fold_right]. rewrite sapp_nil_r. reflexivity.
Qed.
