(** What a hex colour string denotes. *)
From Coq Require Import String Ascii List NArith.
From Verif Require Import Str Num ColorModel.
Open Scope string_scope.

Definition byte (n : N) : Prop := (n <= 255)%N.
Definition rgb_ok (c : rgb) : Prop := byte (r c) /\ byte (g c) /\ byte (b c).
Definition cv_ok (c : cv) : Prop := byte (cr c) /\ byte (cg c) /\ byte (cb c) /\ byte (ca c).

(** One hexadecimal digit, either case. *)
Definition digit (c : ascii) (v : N) : Prop :=
  (exists k, (k <= 9 /\ v = k /\ N_of_ascii c = 48 + k)%N) \/
  (exists k, (k <= 5 /\ v = 10 + k /\ (N_of_ascii c = 65 + k \/ N_of_ascii c = 97 + k))%N).
(** The two characters [x y] are read as the byte [v]: two digits, or (a quirk
    of the integer parser) a plus sign and one digit. *)
Definition pair (x y : ascii) (v : N) : Prop :=
  (exists a b, digit x a /\ digit y b /\ v = a * 16 + b)%N \/ (x = "+"%char /\ digit y v).
Definition denotes (s : string) (c : rgb) : Prop :=
  exists n x1 y1 x2 y2 x3 y3,
    s = (string_of_list_ascii (List.repeat "#"%char n) ++
         String x1 (String y1 (String x2 (String y2 (String x3 (String y3 ""))))))%string /\
    x1 <> "#"%char /\ pair x1 y1 (r c) /\ pair x2 y2 (g c) /\ pair x3 y3 (b c).

(** How a colour value is read: behind leading hash signs three pairs, or four
    with the opacity last; a pair that denotes no byte counts as [d], and any
    other number of characters gives opaque black. *)
Definition reads (d : N) (x y : ascii) (v : N) : Prop := pair x y v \/ (v = d /\ forall w, ~ pair x y w).
Definition value_of (t : list ascii) (c : cv) : Prop :=
  match t with
  | (x1 :: y1 :: x2 :: y2 :: x3 :: y3 :: nil)%list => reads 0 x1 y1 (cr c) /\ reads 0 x2 y2 (cg c) /\ reads 0 x3 y3 (cb c) /\ ca c = 255%N
  | (x1 :: y1 :: x2 :: y2 :: x3 :: y3 :: x4 :: y4 :: nil)%list =>
      reads 0 x1 y1 (cr c) /\ reads 0 x2 y2 (cg c) /\ reads 0 x3 y3 (cb c) /\ reads 255 x4 y4 (ca c)
  | _ => c = Cv 0 0 0 255
  end.
