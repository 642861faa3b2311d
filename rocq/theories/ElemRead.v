(** Proof devices: the elements of a template, in document order. *)
From Coq Require Import String Ascii List Bool Arith NArith Lia.
From Verif Require Import Str XmlSpec XmlProofs XmlTpl OpcSpec GenProofs TplRead XmlPath PathRead SlideSpec.
Import ListNotations.
Open Scope string_scope.

Section GET.
  Context {A : Type} (f : string * list (string * string) -> list A).
  Fixpoint tget (t : tpl) : list A :=
    match t with
    | TE n a b => (f (n, attrs_val a) ++ flat_map tget b)%list
    | TS n a => f (n, attrs_val a)
    | TT _ => []
    | TC _ ns => flat_map f (flat_map elems ns)
    end.
  Definition tgets (l : list tpl) : list A := flat_map tget l.
  Lemma elems_merge l : flat_map elems (merge_text l) = flat_map elems l.
  Proof.
    induction l as [|[n a k|s] l IH]; [reflexivity| |].
    - cbn [merge_text flat_map]. now rewrite IH.
    - cbn [merge_text flat_map elems app]. rewrite <- IH. destruct (merge_text l) as [|[n a k|u] m]; [destruct (String.eqb s ""); reflexivity| |reflexivity].
      destruct (String.eqb s ""); reflexivity.
  Qed.
  Lemma flat_map_app' {X Y} (g : X -> list Y) a b : flat_map g (a ++ b) = (flat_map g a ++ flat_map g b)%list.
  Proof. induction a; cbn [flat_map app]; [reflexivity|]. now rewrite IHa, app_assoc. Qed.
  Lemma tget_elems : forall t, tget t = flat_map f (flat_map elems (tnodes t)).
  Proof.
    fix IH 1. intros [n a b|n a|p|s ns]; cbn [tget tnodes flat_map elems app]; rewrite ?app_nil_r; try reflexivity.
    f_equal. rewrite elems_merge. induction b as [|t b IHb]; [reflexivity|].
    cbn [map concat flat_map]. rewrite !flat_map_app', <- IHb, <- IH. reflexivity.
  Qed.
  Lemma tget_node t n a b : t = TE n a b -> flat_map f (elems (tnode t)) = tget t.
  Proof. intros ->. rewrite tget_elems. cbn [tnodes flat_map]. now rewrite app_nil_r. Qed.
  Lemma tgets_cons t l : tgets (t :: l) = (tget t ++ tgets l)%list.
  Proof. reflexivity. Qed.
  Lemma tgets_app a b : tgets (a ++ b) = (tgets a ++ tgets b)%list.
  Proof. apply flat_map_app'. Qed.
  Lemma tget_TE n a b : tget (TE n a b) = (f (n, attrs_val a) ++ tgets b)%list.
  Proof. reflexivity. Qed.
  Lemma tget_TS n a : tget (TS n a) = f (n, attrs_val a).
  Proof. reflexivity. Qed.
  Lemma tget_TT p : tget (TT p) = [].
  Proof. reflexivity. Qed.
  Lemma tgets_nil : tgets [] = [].
  Proof. reflexivity. Qed.
  Lemma tgets_none l : (forall t, In t l -> tget t = []) -> tgets l = [].
  Proof. induction l as [|t l IH]; intros H; [reflexivity|]. rewrite tgets_cons, H, IH; cbn [app]; auto with datatypes. Qed.
End GET.
