(** A reflective decision procedure for equations between concatenations of
    literals and opaque strings (proof device only). *)
From Coq Require Import String Ascii List Bool Arith.
From Verif Require Import Str.
Import ListNotations.
Open Scope string_scope.

Inductive cat := CL (s : string) | CV (n : nat) | CA (a b : cat).

Fixpoint cden (env : list string) (c : cat) : string :=
  match c with
  | CL s => s
  | CV n => nth n env ""
  | CA a b => cden env a ++ cden env b
  end.

(** Normal form: characters and variables. *)
Inductive tok1 := K (c : ascii) | X (n : nat).
Fixpoint push_lit (s : string) (k : list tok1) : list tok1 :=
  match s with "" => k | String c s => K c :: push_lit s k end.
Fixpoint nf (c : cat) (k : list tok1) : list tok1 :=
  match c with
  | CL s => push_lit s k
  | CV n => X n :: k
  | CA a b => nf a (nf b k)
  end.
Fixpoint tden (env : list string) (l : list tok1) : string :=
  match l with
  | [] => ""
  | K c :: l => String c (tden env l)
  | X n :: l => nth n env "" ++ tden env l
  end.
Fixpoint tok_eqb (a b : list tok1) : bool :=
  match a, b with
  | [], [] => true
  | K c :: a, K d :: b => Ascii.eqb c d && tok_eqb a b
  | X n :: a, X m :: b => Nat.eqb n m && tok_eqb a b
  | _, _ => false
  end.

Lemma push_lit_den env s k : tden env (push_lit s k) = s ++ tden env k.
Proof. induction s; simpl; congruence. Qed.
Lemma nf_den env c k : tden env (nf c k) = cden env c ++ tden env k.
Proof.
  revert k; induction c as [s|n|a IHa b IHb]; intros k; simpl.
  - apply push_lit_den.
  - reflexivity.
  - now rewrite IHa, IHb, sapp_assoc.
Qed.
Lemma tok_eqb_eq a b : tok_eqb a b = true -> a = b.
Proof.
  revert b; induction a as [|[c|n] a IH]; intros [|[d|m] b]; simpl; try discriminate; auto;
    rewrite andb_true_iff; intros [H1 H2]; apply IH in H2; subst.
  - apply Ascii.eqb_eq in H1. congruence.
  - apply Nat.eqb_eq in H1. congruence.
Qed.
Lemma cat_eq env a b : tok_eqb (nf a []) (nf b []) = true -> cden env a = cden env b.
Proof.
  intros H. apply tok_eqb_eq in H.
  pose proof (nf_den env a []) as A. pose proof (nf_den env b []) as B.
  simpl in A, B. rewrite sapp_nil_r in A, B. congruence.
Qed.

(** Closed constants to be treated as literals; files extend this. *)
Ltac lit_const t :=
  lazymatch t with
  | nl => constr:(true)
  | dq => constr:(true)
  | _ => constr:(false)
  end.
Ltac in_list x l :=
  lazymatch l with
  | [] => constr:(false)
  | x :: _ => constr:(true)
  | _ :: ?l => in_list x l
  end.
Ltac collect t env :=
  lazymatch t with
  | append ?a ?b => let env := collect a env in collect b env
  | EmptyString => env
  | String _ _ => env
  | ?x =>
      lazymatch lit_const x with
      | true => env
      | false => lazymatch in_list x env with true => env | false => constr:(x :: env) end
      end
  end.
Ltac index x l :=
  lazymatch l with
  | x :: _ => constr:(0)
  | _ :: ?l => let n := index x l in constr:(S n)
  end.
Ltac reify t env :=
  lazymatch t with
  | append ?a ?b => let a := reify a env in let b := reify b env in constr:(CA a b)
  | EmptyString => constr:(CL EmptyString)
  | String ?c ?s => constr:(CL (String c s))
  | ?x =>
      lazymatch lit_const x with
      | true => constr:(CL x)
      | false => let n := index x env in constr:(CV n)
      end
  end.
(** Closes [a = b] when both sides are the same concatenation. *)
Ltac str_refl :=
  lazymatch goal with
  | |- ?a = ?b =>
      let env := collect a (@nil string) in
      let env := collect b env in
      let ra := reify a env in
      let rb := reify b env in
      change (cden env ra = cden env rb);
      apply cat_eq; vm_compute; reflexivity
  end.
