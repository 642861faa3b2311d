(** What changes of a colour should be, in real numbers. *)
From Coq Require Import ZArith NArith Reals List.
From Flocq Require Import Core IEEE754.BinarySingleNaN.
From Verif Require Import FloatModel ColorModel.
Import ListNotations.
Open Scope R_scope.

(** A byte as a real number. *)
Definition real (c : N) : R := IZR (Z.of_N c).
(** A number cut off below 0 and above 1. *)
Definition unit_of (x : R) : R := Rmax 0 (Rmin 1 x).
(** A byte that is the whole part of a number, or its neighbour within [t] of the next. *)
Definition whole_byte (t : R) (e : N) (q : R) : Prop := real e - t <= q < real e + 1 + t.
(** Red, green and blue of two colours, and what relates each of them. *)
Definition channels (c : cv) : list N := [cr c; cg c; cb c].
Definition each (P : N -> N -> Prop) (c d : cv) : Prop := Forall2 P (channels c) (channels d).
(** Every channel is a byte. *)
Definition bytes (c : cv) : Prop := Forall (fun x => (x <= 255)%N) [cr c; cg c; cb c; ca c].
Definition gray (c : cv) : Prop := cr c = cg c /\ cg c = cb c.
