(** Which texts the writer takes for listings. *)
From Coq Require Import String Ascii List Bool.
From Verif Require Import Str ValidProofs ShapeModel SlideBackSpec.
Open Scope string_scope.

Lemma is_code_iff u : is_code u = true <-> listing u.
Proof.
  unfold is_code, listing. rewrite andb_true_iff. split.
  - intros [A B]. apply starts_with_iff in A as [t ->]. apply contains_iff in B as (a & b & E). destruct a as [|c a]; [discriminate|].
    injection E as -> E. exists a, b. now rewrite E, <- sapp_assoc.
  - intros (a & b & ->). split; [apply starts_with_app|]. apply contains_iff. exists ("[" ++ a), b. now rewrite !sapp_assoc.
Qed.
Lemma is_code_not u : is_code u = false <-> ~ listing u.
Proof. rewrite <- is_code_iff. destruct (is_code u); intuition congruence. Qed.
