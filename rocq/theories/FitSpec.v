(** What it means that text fits a shape, in real numbers. *)
From Coq Require Import String Ascii List Bool ZArith NArith Reals.
From Verif Require Import Str ShapeModel FitModel DimSpec.
Import ListNotations.
Open Scope R_scope.

(** Room in points: 12700 EMU each, less a fifth of an inch, but 10 at least. *)
Definition room (emu : Z) : R := Rmax 10 (IZR emu / 12700 - 144 / 10).
(** The width of a line in points, half the size for each character, and the height of
    a number of lines, 115 percent of the size each; sizes are in hundredths of a point. *)
Definition line_width (size : Z) (line : string) : R := IZR size / 100 * (IZR (Z.of_N (chars line)) / 2).
Definition height_of (size : Z) (n : R) : R := IZR size / 100 * (n * (115 / 100)).
(** Lines with something in them. *)
Definition written (blank : string -> bool) (line : string) : Prop := line <> ""%string /\ blank line = false.
Definition number_of_lines (text : string) : R := INR (length (lines text)).
(** Text that a computer can hold. *)
Definition holdable (text : string) : Prop := (Z.of_nat (String.length text) <= 1125899906842624)%Z.
(** How light a colour is, in thousandths: from 0 to 255000. *)
Definition lightness (r g b : N) : N := (299 * r + 587 * g + 114 * b)%N.
