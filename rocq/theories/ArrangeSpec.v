(** Shapes arranged on a slide. *)
From Coq Require Import List Arith NArith.
Import ListNotations.
Open Scope N_scope.

(** A slide is 10 by 7.5 inches; an inch is 914400 units. *)
Definition inch : N := 914400.
Definition slide_w : N := 10 * inch.
Definition slide_h : N := inch * 15 / 2.
(** A shape: its corner and its size *)
Record box := Box { left : N; top : N; wide : N; high : N }.
Definition right (b : box) : N := left b + wide b.
Definition bottom (b : box) : N := top b + high b.
Definition on_slide (b : box) : Prop := right b <= slide_w /\ bottom b <= slide_h.
Definition apart (a b : box) : Prop := right a <= left b \/ right b <= left a \/ bottom a <= top b \/ bottom b <= top a.
(** No two of them overlap. *)
Definition no_overlap (l : list box) : Prop := forall i j a b, nth_error l i = Some a -> nth_error l j = Some b -> i <> j -> apart a b.
Definition boxes (w h : N) (l : list (N * N)) : list box := map (fun p => Box (fst p) (snd p) w h) l.
(** Something from [a] to [b] has as much before it as after it in [total]; an odd
    unit goes after it. *)
Definition in_the_middle (a b total : N) : Prop := a <= b /\ b <= total /\ (a = total - b \/ a + 1 = total - b).
(** [l] is a row of [count] shapes with [gap] between neighbours, the first at [a]. *)
Definition spread (a w gap : N) (count : nat) (l : list N) : Prop :=
  length l = count /\ (forall x, nth_error l 0 = Some x -> x = a) /\ forall i x y, nth_error l i = Some x -> nth_error l (S i) = Some y -> y = x + w + gap.
(** Where the last of them ends. *)
Definition span (w gap : N) (count : nat) : N := match count with O => 0 | S n => w * N.of_nat count + gap * N.of_nat n end.
