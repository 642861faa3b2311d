(** Model of parse_inline_formatting and generate_rich_text_runs,
    src/generator/slide/formatting.rs. *)
From Coq Require Import String Ascii List Bool NArith.
From Verif Require Import Str EscapeModel TableModel.
Import ListNotations.
Open Scope string_scope.

(** formatting.rs:10-15 [TextSegment] *)
Record segment := Segment { sg_text : string; sg_bold : bool; sg_italic : bool; sg_code : bool }.
(** formatting.rs:27-101: the pushes guarded by [!current_text.is_empty()] *)
Definition flush (cur : string) (b i : bool) (rest : list segment) : list segment :=
  if String.eqb cur "" then rest else Segment cur b i false :: rest.
(** formatting.rs:26-91: the loop, with the final push (82-89).  [chars.peek]
    looks at the next character, [chars.next] consumes it.  The markers are ASCII
    characters, so bytes can stand for characters. *)
Fixpoint scan (s cur : string) (b i code : bool) : list segment :=
  match s with
  | "" => if String.eqb cur "" then [] else [Segment cur b i code]
  | String c s' =>
      if Ascii.eqb c "`" then
        if code then Segment cur false false true :: scan s' "" b i false
        else flush cur b i (scan s' "" b i true)
      else if (Ascii.eqb c "*" || Ascii.eqb c "_") && negb code then
        match s' with
        | String d s'' =>
            if Ascii.eqb d c then flush cur b i (scan s'' "" (negb b) i code)
            else flush cur b i (scan s' "" b (negb i) code)
        | "" => flush cur b i (scan s' "" b (negb i) code)
        end
      else scan s' (cur ++ s1 c) b i code
  end.
(** formatting.rs:18-101 [parse_inline_formatting] *)
Definition parse_inline (text : string) : list segment :=
  match scan text "" false false false with [] => [Segment text false false false] | l => l end.
(** formatting.rs:104-147 [generate_rich_text_runs] *)
Definition run_xml (size : N) (b i : bool) (color : option string) (g : segment) : string :=
  if sg_code g then
    "<a:r><a:rPr lang=""en-US"" sz=""" ++ dec size ++ """ dirty=""0""><a:latin typeface=""Consolas""/><a:solidFill><a:srgbClr val=""C7254E""/></a:solidFill></a:rPr><a:t>"
    ++ escape_xml (sg_text g) ++ "</a:t></a:r>"
  else
    "<a:r><a:rPr lang=""en-US"" sz=""" ++ dec size ++ """ b=""" ++ (if (b || sg_bold g)%bool then "1" else "0")
    ++ """ i=""" ++ (if (i || sg_italic g)%bool then "1" else "0") ++ """ dirty=""0"""
    ++ match color with
       | Some c => "><a:solidFill><a:srgbClr val=""" ++ clean c ++ """/></a:solidFill></a:rPr>"
       | None => "/>"
       end
    ++ "<a:t>" ++ escape_xml (sg_text g) ++ "</a:t></a:r>".
Definition rich_runs (text : string) (size : N) (b i : bool) (color : option string) : string :=
  sconcat (map (run_xml size b i color) (parse_inline text)).
