(** The names of figures. *)
From Coq Require Import String List.
From Verif Require Import ShapeModel GeomSpec.
Import ListNotations.
Open Scope string_scope.

Lemma figure_preset t g : figure t = Some g -> preset t = g.
Proof. destruct t; intros H; cbn in H |- *; congruence. Qed.
Lemma figure_known t g : figure t = Some g -> In g preset_figures.
Proof.
  intros H. assert (E : existsb (String.eqb g) preset_figures = true).
  { destruct t; cbn in H; try discriminate; injection H as <-; vm_compute; reflexivity. }
  apply existsb_exists in E. destruct E as (y & I & E). apply String.eqb_eq in E. now subst.
Qed.
Lemma figure_none t : figure t = None -> ~ In (preset t) preset_figures.
Proof.
  intros H I. assert (E : existsb (String.eqb (preset t)) preset_figures = false).
  { destruct t; cbn in H; try discriminate; vm_compute; reflexivity. }
  assert (C : existsb (String.eqb (preset t)) preset_figures = true) by (apply existsb_exists; exists (preset t); split; [exact I|apply String.eqb_refl]). congruence.
Qed.
