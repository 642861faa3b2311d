(** How text and areas look: what a reader of the XML finds about bold, size,
    colours and so on. *)
From Coq Require Import String Ascii List Bool NArith.
From Verif Require Import Str Num XmlSpec OpcSpec XmlPath.
Import ListNotations.
Open Scope string_scope.

(** The value of a colour written in hexadecimal: leading hash marks dropped,
    digits in upper case. *)
Definition upper_digit (c : ascii) : string :=
  match hex_val c with Some v => s1 (nth (N.to_nat v) ["0"; "1"; "2"; "3"; "4"; "5"; "6"; "7"; "8"; "9"; "A"; "B"; "C"; "D"; "E"; "F"]%char c) | None => s1 c end.
Fixpoint color_value (s : string) : string :=
  match s with
  | String c r => if Ascii.eqb c "#" then color_value r else smap upper_digit s
  | EmptyString => ""
  end.

(** Colours of the solid fills and typefaces directly below an element. *)
Definition fills (x : node) : list string := map (attr "val") (at_path ["a:solidFill"; "a:srgbClr"] x).
Definition faces (x : node) : list string := map (attr "typeface") (at_path ["a:latin"] x).
(** Run properties: bold, italic, underline, size in hundredths of a point,
    colour, typeface. *)
Definition run_look (p : node) : option string * option string * option string * option string * list string * list string :=
  (attr_opt "b" p, attr_opt "i" p, attr_opt "u" p, attr_opt "sz" p, fills p, faces p).

Definition on (v : string) (b : bool) : option string := if b then Some v else None.
Definition opt_list {A} (o : option A) : list A := match o with Some a => [a] | None => [] end.
