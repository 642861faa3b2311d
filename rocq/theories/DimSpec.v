(** What measures should be, in real numbers. *)
From Coq Require Import ZArith Reals.
From Flocq Require Import Core IEEE754.BinarySingleNaN.
From Verif Require Import FloatModel DimModel.
Open Scope R_scope.

(** What a floating-point number stands for. *)
Definition finite (x : f64) : Prop := is_finite x = true.
Definition value (x : f64) : R := B2R x.
(** How many EMU a unit has: 914400 to the inch, 2.54 cm and 72 points to the inch. *)
Inductive measure : (f64 -> dimension) -> R -> Prop :=
| In_inches : measure Inches 914400
| In_cm : measure Cm (914400 / (254 / 100))
| In_points : measure Pt (914400 / 72).
(** The whole number below a real one, or, within a four-millionth of the next, that
    one's neighbour. *)
Definition whole_part (e : Z) (q : R) : Prop := IZR e - 1 / 4194304 <= q < IZR e + 1 + 1 / 4194304.
Definition u32_range (z : Z) : Prop := (0 <= z <= 4294967295)%Z.
