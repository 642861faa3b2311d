(** Model of src/generator/slide_content/embedded_fonts.rs. *)
From Coq Require Import String Ascii List Bool Arith NArith.
From Verif Require Import Str EscapeModel GenModel.
Import ListNotations.
Open Scope string_scope.

(** embedded_fonts.rs:8-14 [FontStyle]. *)
Inductive font_style := Regular | Bold | Italic | BoldItalic.

(** embedded_fonts.rs:17-24 [FontStyle::xml_element]. *)
Definition xml_element (s : font_style) : string :=
  match s with Regular => "regular" | Bold => "bold" | Italic => "italic" | BoldItalic => "boldItalic" end.

(** embedded_fonts.rs:77-85 [EmbeddedFont].  The charset enum (36-73) is
    represented by its code. *)
Record font := Font {
  f_typeface : string; f_style : font_style; f_charset : N; f_panose : option string;
  f_pitch : N; f_data : string; f_rid : string }.

(** embedded_fonts.rs:128-134 [part_name]. *)
Definition part_name (f : font) : string :=
  "ppt/fonts/" ++ replace_char " " "" (f_typeface f) ++ "-" ++ xml_element (f_style f) ++ ".fntdata".
(** embedded_fonts.rs:137-143 [rel_target]. *)
Definition rel_target_of (f : font) : string :=
  "fonts/" ++ replace_char " " "" (f_typeface f) ++ "-" ++ xml_element (f_style f) ++ ".fntdata".

(** embedded_fonts.rs:178-184 [assign_relationship_ids]. *)
Definition assign_one (start : nat) (p : nat * font) : font :=
  let '(i, f) := p in
  if String.eqb (f_rid f) "" then
    Font (f_typeface f) (f_style f) (f_charset f) (f_panose f) (f_pitch f) (f_data f) ("rId" ++ decn (start + i))
  else f.
Definition assign_relationship_ids (start : nat) (fonts : list font) : list font :=
  map (assign_one start) (enumerate fonts).

(** embedded_fonts.rs:192-194 [find_by_typeface]. *)
Definition find_by_typeface (typeface : string) (fonts : list font) : list font :=
  filter (fun f => String.eqb (f_typeface f) typeface) fonts.

(** embedded_fonts.rs:204-210, the grouping loop. *)
Definition seen_typefaces (fonts : list font) : list string :=
  fold_left (fun seen f => if existsb (String.eqb (f_typeface f)) seen then seen else (seen ++ [f_typeface f])%list)
            fonts [].

(** embedded_fonts.rs:220-230: descriptor of the first variant. *)
Definition font_descriptor (typeface : string) (variants : list font) : string :=
  match variants with
  | first :: _ =>
      "<p:font typeface=""" ++ chained_escape typeface ++ """ charset=""" ++ dec (f_charset first) ++
      """ pitchFamily=""" ++ dec (f_pitch first) ++ """" ++
      (match f_panose first with Some p => " panose=""" ++ p ++ """" | None => "" end) ++ "/>"
  | [] => ""
  end.
(** embedded_fonts.rs:233-240. *)
Definition font_ref (f : font) : string :=
  "<p:" ++ xml_element (f_style f) ++ " r:id=""" ++ f_rid f ++ """/>".
(** embedded_fonts.rs:212-243, one typeface. *)
Definition font_group (fonts : list font) (typeface : string) : string :=
  let variants := find_by_typeface typeface fonts in
  "<p:embeddedFont>" ++ font_descriptor typeface variants ++ sconcat (map font_ref variants) ++ "</p:embeddedFont>".
(** embedded_fonts.rs:197-248 [to_xml]. *)
Definition fonts_to_xml (fonts : list font) : string :=
  match fonts with
  | [] => ""
  | _ => "<p:embeddedFontLst>" ++ sconcat (map (font_group fonts) (seen_typefaces fonts)) ++ "</p:embeddedFontLst>"
  end.

(** builder.rs:453-459 [prepare_settings]. *)
Definition prepare_fonts (slide_count : nat) (has_notes has_handout : bool) (fonts : list font) : list font :=
  assign_relationship_ids (table_styles_rel_id slide_count has_notes has_handout + 1) fonts.

(** builder.rs:542-559 [write_presentation_relationships], text written, after
    [prepare_settings].  A font list that is absent is modelled as empty: the
    two code paths then write the same text. *)
Definition presentation_rels (slide_count : nat) (has_notes has_handout : bool) (fonts : list font) : string :=
  create_presentation_rels_xml_full_with_fonts slide_count has_notes has_handout
    (map (fun f => (f_rid f, rel_target_of f)) (prepare_fonts slide_count has_notes has_handout fonts)).

(** builder.rs:735-745: the presentation.xml written, after [prepare_settings]. *)
Definition presentation_xml (slide_count : nat) (has_notes has_handout : bool) (fonts : list font) : string :=
  create_presentation_xml_with_fonts slide_count has_notes has_handout
    (fonts_to_xml (prepare_fonts slide_count has_notes has_handout fonts)).
