(** C04, C05: escaping. *)
From Coq Require Import String Ascii List Bool.
From Verif Require Import Str EscapeModel EscapeSpec EscapeProofs.
Import ListNotations.
Open Scope string_scope.

(** C04: the escaped form contains no markup-significant character, and
    expanding its entity references is possible and gives the text back.
    [Decodes] admits an ampersand only as the start of one of the five
    predefined references. *)
Theorem C04_escape_safe (s : string) (c : ascii) :
  c = "<"%char \/ c = ">"%char \/ c = """"%char \/ c = "'"%char -> ~ occurs c (escape_xml s).
Proof. exact (escape_clean s c). Qed.
Print Assumptions C04_escape_safe.

Theorem C04_escape_lossless (s t : string) : Decodes (escape_xml s) t <-> t = s.
Proof.
  exact (conj (fun H => Decodes_functional _ _ _ H (escape_Decodes s))
              (fun E => eq_ind_r (Decodes (escape_xml s)) (escape_Decodes s) E)).
Qed.
Print Assumptions C04_escape_lossless.

Theorem C04_escape_injective (s t : string) : escape_xml s = escape_xml t -> s = t.
Proof. exact (escape_inj s t). Qed.
Print Assumptions C04_escape_injective.

Theorem C04_escape_plain (s : string) :
  ~ occurs "&" s -> ~ occurs "<" s -> ~ occurs ">" s -> ~ occurs """" s -> ~ occurs "'" s ->
  escape_xml s = s.
Proof. exact (escape_plain s). Qed.
Print Assumptions C04_escape_plain.

Example C04_case : escape_xml "a<b & ""c"" > 'd'" = "a&lt;b &amp; &quot;c&quot; &gt; &apos;d&apos;".
Proof. reflexivity. Qed.
Example C04_case_plain :
  let s := "Revenue 2024" in
  ~ occurs "&" s /\ ~ occurs "<" s /\ ~ occurs ">" s /\ ~ occurs """" s /\ ~ occurs "'" s.
Proof. simpl. intuition congruence. Qed.
Example C04_case_decode : Decodes "x &amp;lt;" "x &lt;".
Proof. exact (escape_Decodes "x &lt;"). Qed.

(** C05: every escaper of the crate computes the same function. *)
Theorem C05_escapers_agree (buf s : string) :
  append_escape_xml buf s = buf ++ escape_xml s /\
  props_xml_escape s = escape_xml s /\
  chained_escape s = escape_xml s.
Proof. exact (conj (append_escape_eq buf s) (conj (props_xml_escape_eq s) (chained_escape_eq s))). Qed.
Print Assumptions C05_escapers_agree.

(** Consequently they are compatible with concatenation. *)
Theorem C05_escape_concat (s t : string) : escape_xml (s ++ t) = escape_xml s ++ escape_xml t.
Proof. exact (escape_xml_app s t). Qed.
Print Assumptions C05_escape_concat.

(** The theme writer's attribute escaper is a different function. *)
Theorem C05_theme_escaper_differs_refuted : exists s, escape_xml_attr s <> escape_xml s.
Proof. exists "a>b". discriminate. Qed.
Print Assumptions C05_theme_escaper_differs_refuted.

Example C05_case : chained_escape "&lt;'" = "&amp;lt;&apos;" /\ append_escape_xml "<a>" "x&y" = "<a>x&amp;y".
Proof. split; reflexivity. Qed.
