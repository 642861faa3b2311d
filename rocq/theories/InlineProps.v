(** C28: inline formatting keeps the text. *)
From Coq Require Import String Ascii List Bool Arith NArith.
From Verif Require Import Str XmlSpec XmlPath OpcSpec LookSpec TableSpec InlineModel InlineSpec InlineProofs.
Import ListNotations.
Open Scope string_scope.

(** The tokens spell the text, for every text. *)
Theorem C28_tokens_spell_text (s : string) : sconcat (map spell (tokens false s)) = s.
Proof. exact (tokens_spell s false). Qed.
Print Assumptions C28_tokens_spell_text.
(** Every ordinary character is shown, in order, bold after an odd number of
    doubled markers, italic after an odd number of single ones, as code after an
    odd number of back-ticks; markers are not shown. *)
Theorem C28_looks (s : string) : (exists c, In (Chr c) (tokens false s)) ->
  flat_map (fun g => map (fun c => (c, if sg_code g then InCode else Text (sg_bold g) (sg_italic g))) (chars (sg_text g))) (parse_inline s)
  = looks [] (tokens false s).
Proof. intros H. exact (eq_trans (view_eq _) (parse_view s (looks_nil _ [] H))). Qed.
Print Assumptions C28_looks.
Theorem C28_text_kept (s : string) : (exists c, In (Chr c) (tokens false s)) -> sconcat (map sg_text (parse_inline s)) = chars_of (tokens false s).
Proof. exact (parse_text s). Qed.
Print Assumptions C28_text_kept.
Example C28_case : (exists c, In (Chr c) (tokens false "a **b `*c*` _d_")) /\ parse_inline "a **b `*c*` _d_" =
  [Segment "a " false false false; Segment "b " true false false; Segment "*c*" false false true; Segment " " true false false; Segment "d" true true false].
Proof. split; [exists "a"%char; vm_compute; now left|vm_compute; reflexivity]. Qed.
(** Without markers the text is one plain run. *)
Theorem C28_plain (s : string) : sforall (fun c => negb (marker c)) s = true -> parse_inline s = [Segment s false false false].
Proof. exact (plain_one s). Qed.
Print Assumptions C28_plain.
(** A code span keeps its text verbatim. *)
Theorem C28_code_verbatim (a u b : string) : a <> "" -> b <> "" ->
  sforall (fun c => negb (marker c)) a = true -> sforall (fun c => negb (marker c)) b = true -> sforall (fun c => negb (Ascii.eqb c "`")) u = true ->
  parse_inline (a ++ "`" ++ u ++ "`" ++ b) = [Segment a false false false; Segment u false false true; Segment b false false false].
Proof. exact (code_span a u b). Qed.
Print Assumptions C28_code_verbatim.
Example C28_code_case : parse_inline "use `a*b*c__d` here" = [Segment "use " false false false; Segment "a*b*c__d" false false true; Segment " here" false false false].
Proof. exact (C28_code_verbatim "use " "a*b*c__d" " here" ltac:(discriminate) ltac:(discriminate) eq_refl eq_refl eq_refl). Qed.
(** The runs written for a text are well-formed and read back as the segments. *)
Theorem C28_runs (s : string) (size : N) (b i : bool) (color : option string) : text_ok s = true -> opt_ok color_ok color = true ->
  exists x, xml_read ("<a:p>" ++ rich_runs s size b i color ++ "</a:p>") = Some x /\ map run_view (at_path ["a:r"] x) = map (seg_run size b i color) (parse_inline s).
Proof. exact (runs_read s size b i color). Qed.
Print Assumptions C28_runs.
Example C28_runs_case : text_ok "**R&D** `x<y`" = true /\ opt_ok color_ok (Some "#ff0000") = true /\
  map (seg_run 1800 false true (Some "#ff00a0")) (parse_inline "**R&D** `x<y`") =
  [(["R&D"], [("1800", Some "1", Some "1", ["FF00A0"], [])]); ([" "], [("1800", Some "0", Some "1", ["FF00A0"], [])]); (["x<y"], [("1800", None, None, ["C7254E"], ["Consolas"])])].
Proof. repeat split; vm_compute; reflexivity. Qed.
(** Markers are consumed even where they are not markup: snake_case loses its
    underscore and products lose their asterisks. *)
Theorem C28_underscore_refuted : exists s, sconcat (map sg_text (parse_inline s)) = "snakecase".
Proof. exists "snake_case". reflexivity. Qed.
Print Assumptions C28_underscore_refuted.
