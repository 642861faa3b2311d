(** Lemmas and samples about the exports. *)
From Coq Require Import String Ascii List Bool Arith NArith ZArith.
From Verif Require Import Str EscapeModel EscapeSpec EscapeProofs TableModel ShapeModel SlideModel DeckModel ExportModel MdSpec MdWant MdProofs HtmlSpec HtmlWant HtmlProofs.
Import ListNotations.
Open Scope nat_scope.
Open Scope string_scope.

Definition talk (title : string) (content : list string) (t : option table) (images : list image) (code : list code_block) (notes : option string) : slide :=
  Slide title content [] Bullet None None true false false false false None None TitleAndContent NoTransition t [] images notes [] [] code false.
Definition deck (title : string) (l : list slide) : presentation := Presentation title l no_settings.
Definition grid (l : list (list string)) : table := Table (map (fun r => TableModel.Row (map cell_new r) None) l) [] 0 0.
Definition shot (f : string) : image := Image "a" 0 0 10 10 None None [] (Some "bytes") f.
Definition talk1 : slide := talk "A *star* and more" ["one [link]"; "two <b>"; ""] (Some (grid [["h_1"; "h2"]; ["x"; "# y"]])) [shot "PNG"; shot "JPEG"] [Code "let x = 1 < 2;
x" "rust" 0 0 1 1] (Some "say `this`").
Definition bare : md_options := MdOptions false "---" true true true false.

Lemma md_export o p : export_to_markdown o p = (if mo_front o then md_front (p_title p) (length (p_slides p)) else "") ++ md_body o (p_title p) (p_slides p).
Proof. reflexivity. Qed.
Lemma replace_none c r s : sforall (fun x => negb (Ascii.eqb x c)) s = true -> replace_char c r s = s.
Proof.
  unfold replace_char. induction s as [|x s IH]; cbn [sforall smap]; [reflexivity|]. rewrite andb_true_iff, negb_true_iff. intros [H1 H2]. rewrite (IH H2). rewrite ?(Ascii.eqb_sym c x), H1. reflexivity.
Qed.
Lemma sexists_none c s : sforall (fun x => negb (Ascii.eqb x c)) s = true -> sexists (fun x => Ascii.eqb x c) s = false.
Proof. intros H. unfold sexists. now rewrite H. Qed.
Lemma yaml_plain s : sforall (fun c => negb (Ascii.eqb c "010" || Ascii.eqb c "034" || Ascii.eqb c "\")) s = true -> escape_yaml s = s.
Proof.
  intros H. assert (A : forall d, (d = "010" \/ d = "034" \/ d = "\")%char -> sforall (fun x => negb (Ascii.eqb x d)) s = true).
  { intros d E. revert H. apply sforall_weaken. intros c. rewrite !negb_true_iff, !orb_false_iff. intros [[X Y] Z]. destruct E as [->|[->| ->]]; assumption. }
  unfold escape_yaml. rewrite (sexists_none Str.LF s (A Str.LF (or_introl eq_refl))), (sexists_none DQ s (A DQ (or_intror (or_introl eq_refl)))), (sexists_none "\" s (A _ (or_intror (or_intror eq_refl)))).
  cbn [orb]. rewrite (replace_none DQ _ s (A DQ (or_intror (or_introl eq_refl)))). apply replace_none, A. tauto.
Qed.
