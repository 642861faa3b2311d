(** Inline formatting, said without the code: a text is a sequence of tokens -
    back-ticks, doubled and single * or _, ordinary characters - and how a
    character looks depends on the numbers of tokens before it. *)
From Coq Require Import String Ascii List Bool Arith NArith.
From Verif Require Import Str XmlSpec OpcSpec XmlPath LookSpec InlineModel.
Import ListNotations.
Open Scope nat_scope.
Open Scope string_scope.

Inductive token := Tick | Double (c : ascii) | Single (c : ascii) | Chr (c : ascii).
Definition spell (t : token) : string :=
  match t with Tick => "`" | Double c => s1 c ++ s1 c | Single c => s1 c | Chr c => s1 c end.
Definition star (c : ascii) : bool := Ascii.eqb c "*" || Ascii.eqb c "_".
(** Tokens from the left; after an odd number of back-ticks * and _ are ordinary. *)
Fixpoint tokens (code : bool) (s : string) : list token :=
  match s with
  | "" => []
  | String c r =>
      if Ascii.eqb c "`" then Tick :: tokens (negb code) r
      else if star c && negb code then
        match r with
        | String d r' => if Ascii.eqb c d then Double c :: tokens code r' else Single c :: tokens code r
        | "" => [Single c]
        end
      else Chr c :: tokens code r
  end.
Definition ticks (l : list token) : nat := length (filter (fun t => match t with Tick => true | _ => false end) l).
Definition doubles (l : list token) : nat := length (filter (fun t => match t with Double _ => true | _ => false end) l).
Definition singles (l : list token) : nat := length (filter (fun t => match t with Single _ => true | _ => false end) l).
(** How a character looks. *)
Inductive look := InCode | Text (bold italic : bool).
Definition look_after (before : list token) : look :=
  if Nat.odd (ticks before) then InCode else Text (Nat.odd (doubles before)) (Nat.odd (singles before)).
(** The characters with their look. *)
Fixpoint looks (before l : list token) : list (ascii * look) :=
  match l with
  | [] => []
  | Chr c :: r => (c, look_after before) :: looks (before ++ [Chr c]) r
  | t :: r => looks (before ++ [t]) r
  end.
Definition chars_of (l : list token) : string := sconcat (map (fun t => match t with Chr c => s1 c | _ => "" end) l).

(** What a reader finds in a run: its text, and its size, bold, italic, colour
    and typeface. *)
Definition run_view (r : node) : list string * list (string * option string * option string * list string * list string) :=
  (map text_in (at_path ["a:t"] r), map (fun p => (attr "sz" p, attr_opt "b" p, attr_opt "i" p, fills p, faces p)) (at_path ["a:rPr"] r)).
(** What is to be found for a segment: code in red Consolas, other text bold or
    italic if the segment or the paragraph is, in the colour of the paragraph. *)
Definition seg_run (size : N) (b i : bool) (color : option string) (g : segment) : list string * list (string * option string * option string * list string * list string) :=
  if sg_code g then ([sg_text g], [(dec size, None, None, ["C7254E"], ["Consolas"])])
  else ([sg_text g], [(dec size, Some (if (b || sg_bold g)%bool then "1" else "0"), Some (if (i || sg_italic g)%bool then "1" else "0"),
    opt_list (option_map color_value color), [])]).
