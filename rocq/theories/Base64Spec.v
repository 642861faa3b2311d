(** RFC 4648 base64, by bits. *)
From Coq Require Import String Ascii List Bool NArith.
From Verif Require Import Str.
Import ListNotations.
Open Scope string_scope.

(** Most significant bit first. *)
Definition bits_of_byte (c : ascii) : list bool :=
  let '(Ascii b0 b1 b2 b3 b4 b5 b6 b7) := c in [b7; b6; b5; b4; b3; b2; b1; b0].
Fixpoint bits (s : string) : list bool := match s with "" => [] | String c s => bits_of_byte c ++ bits s end%list.
Definition num (l : list bool) : N := fold_left (fun n (b : bool) => 2 * n + (if b then 1 else 0))%N l 0%N.
(** Table 1 of RFC 4648. *)
Definition b64_char (n : N) : ascii :=
  ascii_of_N (if n <? 26 then 65 + n else if n <? 52 then 71 + n else if n <? 62 then n - 4 else if n =? 62 then 43 else 47)%N.
(** Groups of six bits, the last one filled up with zero bits. *)
Fixpoint sextets (l : list bool) : string :=
  match l with
  | a :: b :: c :: d :: e :: f :: l => String (b64_char (num [a; b; c; d; e; f])) (sextets l)
  | [] => ""
  | [a; b] => String (b64_char (num [a; b; false; false; false; false])) ""
  | [a; b; c; d] => String (b64_char (num [a; b; c; d; false; false])) ""
  | _ => "?"
  end.
(** Padded with '=' to a multiple of four characters. *)
Definition rfc4648 (s : string) : string :=
  let t := sextets (bits s) in
  t ++ match Nat.modulo (String.length t) 4 with 2 => "==" | 3 => "=" | _ => "" end.
