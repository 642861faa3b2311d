(** Model of the escaping helpers. *)
From Coq Require Import String Ascii List Bool.
From Verif Require Import Str.
Import ListNotations.
Open Scope string_scope.

(** src/core/xml_utils.rs:19-26 (the [match c] of [escape_xml]); the same
    [match] is at src/core/xml_utils.rs:41-48 and
    src/generator/props_xml.rs:48-55. *)
Definition esc_char (c : ascii) : string :=
  if Ascii.eqb c "&" then "&amp;"
  else if Ascii.eqb c "<" then "&lt;"
  else if Ascii.eqb c ">" then "&gt;"
  else if Ascii.eqb c DQ then "&quot;"
  else if Ascii.eqb c SQ then "&apos;"
  else s1 c.

(** src/core/xml_utils.rs:12, the fast-path test. *)
Definition is_special (c : ascii) : bool :=
  Ascii.eqb c "&" || Ascii.eqb c "<" || Ascii.eqb c ">" || Ascii.eqb c DQ || Ascii.eqb c SQ.

(** src/core/xml_utils.rs:8-29 [escape_xml]. *)
Definition escape_xml (s : string) : string :=
  if negb (sexists is_special s) then s else smap esc_char s.

(** src/core/xml_utils.rs:32-50 [append_escape_xml]: the buffer is returned. *)
Definition append_escape_xml (buf s : string) : string :=
  if negb (sexists is_special s) then buf ++ s
  else sfold (fun b c => b ++ esc_char c) s buf.

(** src/generator/props_xml.rs:45-58 [xml_escape]: no fast path. *)
Definition props_xml_escape (s : string) : string :=
  sfold (fun b c => b ++ esc_char c) s "".

(** src/generator/slide_content/sections.rs:179-185 [xml_escape]; identical
    text at comments.rs:220-226, embedded_fonts.rs:251-257,
    print_settings.rs:234-240, digital_signature.rs:186-192 and
    src/parts/coreprops.rs:112-118. *)
Definition chained_escape (s : string) : string :=
  replace_char SQ "&apos;"
    (replace_char DQ "&quot;"
       (replace_char ">" "&gt;"
          (replace_char "<" "&lt;"
             (replace_char "&" "&amp;" s)))).

(** src/export/html.rs:196-202 [escape_html]. *)
Definition escape_html (s : string) : string :=
  replace_char SQ "&#39;"
    (replace_char DQ "&quot;"
       (replace_char ">" "&gt;"
          (replace_char "<" "&lt;"
             (replace_char "&" "&amp;" s)))).

(** src/generator/presentation_theme.rs:311-315 [escape_xml_attr]. *)
Definition escape_xml_attr (s : string) : string :=
  replace_char "<" "&lt;"
    (replace_char DQ "&quot;"
       (replace_char "&" "&amp;" s)).

(** src/export/md.rs:211-221 [escape_markdown]. *)
Definition escape_markdown (s : string) : string :=
  replace_char ">" "\>"
   (replace_char "<" "\<"
    (replace_char "#" "\#"
     (replace_char "`" "\`"
      (replace_char "]" "\]"
       (replace_char "[" "\["
        (replace_char "_" "\_"
         (replace_char "*" "\*"
          (replace_char "\" "\\" s)))))))).

(** src/export/md.rs:224-231 [escape_yaml]. *)
Definition escape_yaml (s : string) : string :=
  if sexists (fun c => Ascii.eqb c LF) s || sexists (fun c => Ascii.eqb c DQ) s
     || sexists (fun c => Ascii.eqb c "\") s
  then "|" ++ nl ++ "  " ++ replace_char LF (nl ++ "  ") s
  else replace_char "\" "\\" (replace_char DQ ("\" ++ dq) s).
