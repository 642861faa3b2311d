(** Proof devices: reading paths out of templates. *)
From Coq Require Import String Ascii List Bool Arith NArith Lia.
From Verif Require Import Str StrRefl XmlSpec XmlProofs XmlTpl OpcSpec GenProofs TplRead XmlPath.
Import ListNotations.
Open Scope string_scope.

Definition nlT : tpl := TT [Lit nl].
Lemma nlT_tok : tok nlT.
Proof. vm_compute. reflexivity. Qed.
Lemma sconcat_cons x l : sconcat (x :: l) = x ++ sconcat l.
Proof. reflexivity. Qed.
Ltac tflat := repeat (cbn [tstr map app]; rewrite ?map_app, ?sconcat_app, ?sconcat_cons).
Lemma tsnodes_named_app m a b : named m (tsnodes (a ++ b)) = (named m (tsnodes a) ++ named m (tsnodes b))%list.
Proof. now rewrite tsnodes_app, named_app. Qed.
Lemma text_leaf n a p : text_in (tnode (TE n a [TT p])) = vals p.
Proof.
  unfold text_in. cbn [tnode children tsnodes map concat tnodes app merge_text].
  destruct (String.eqb_spec (vals p) "") as [E|E]; cbn [map sconcat fold_right]; [now rewrite E|apply sapp_nil_r].
Qed.
Lemma flat_map_self {A} (l : list A) : flat_map (fun x => [x]) l = l.
Proof. induction l as [|x l IH]; [reflexivity|]. cbn [flat_map app]. now rewrite IH. Qed.
(** Steps of [at_path]. *)
Lemma path_end x : at_path [] x = [x].
Proof. reflexivity. Qed.
Lemma path_one n x : at_path [n] x = named n (children x).
Proof. cbn [at_path]. apply flat_map_self. Qed.
Lemma path_step n p x : at_path (n :: p) x = flat_map (at_path p) (named n (children x)).
Proof. reflexivity. Qed.

(** One [at_path] step in a template whose children are listed explicitly. *)
Definition elemT (t : tpl) : bool := match t with TC _ _ => false | _ => true end.
Definition called (m : string) (t : tpl) : bool := match tname t with Some n => String.eqb n m | None => false end.
Lemma named_list m l : forallb elemT l = true -> named m (tsnodes l) = map tnode (filter (called m) l).
Proof.
  induction l as [|t l IH]; [reflexivity|]. cbn [forallb]. rewrite andb_true_iff. intros [A B]. specialize (IH B).
  cbn [filter]. unfold called at 1. destruct t as [n a b|n a|p|s ns]; try discriminate; cbn [tname].
  - rewrite (named_cons m _ l n) by reflexivity. rewrite IH. now destruct (String.eqb n m).
  - rewrite (named_cons m _ l n) by reflexivity. rewrite IH. now destruct (String.eqb n m).
  - now rewrite named_text.
Qed.
Lemma path_list n p t : forallb elemT (tbody t) = true ->
  at_path (n :: p) (tnode t) = flat_map (at_path p) (map tnode (filter (called n) (tbody t))).
Proof. intros H. now rewrite path_step, named_children, named_list. Qed.
(** Descend one step; stops at the children that are not listed explicitly. *)
Ltac pstep := rewrite path_list by reflexivity;
  cbn [tbody filter called tname String.eqb Ascii.eqb Bool.eqb map flat_map app]; rewrite ?app_nil_r.
Ltac pread := repeat pstep; cbn [at_path map app flat_map].
