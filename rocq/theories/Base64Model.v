(** Model of the base64 encoder (src/export/html.rs) and decoder
    (src/generator/images.rs).  Byte vectors are strings of bytes. *)
From Coq Require Import String Ascii List Bool NArith ZArith.
From Verif Require Import Str.
Import ListNotations.
Open Scope string_scope.

(** Shifts on u8: bits shifted out are lost. *)
Definition shl8 (x : N) (k : N) : N := N.land (N.shiftl x k) 255.

(** html.rs:239. *)
Definition alphabet : string := "ABCDEFGHIJKLMNOPQRSTUVWXYZabcdefghijklmnopqrstuvwxyz0123456789+/".
Definition enc_char (n : N) : ascii := match String.get (N.to_nat n) alphabet with Some c => c | None => "000"%char end.
(** html.rs:254-257: the four sextets of a three-byte buffer. *)
Definition e0 (b0 : N) : N := N.land (N.shiftr b0 2) 63.
Definition e1 (b0 b1 : N) : N := N.lor (shl8 (N.land b0 3) 4) (N.land (N.shiftr b1 4) 15).
Definition e2 (b1 b2 : N) : N := N.lor (shl8 (N.land b1 15) 2) (N.land (N.shiftr b2 6) 3).
Definition e3 (b2 : N) : N := N.land b2 63.
(** html.rs:238-278 [base64_encode], three bytes at a time. *)
Fixpoint base64_encode (s : string) : string :=
  match s with
  | "" => ""
  | String a "" =>
      let b0 := N_of_ascii a in
      String (enc_char (e0 b0)) (String (enc_char (e1 b0 0)) "==")
  | String a (String b "") =>
      let b0 := N_of_ascii a in let b1 := N_of_ascii b in
      String (enc_char (e0 b0)) (String (enc_char (e1 b0 b1)) (String (enc_char (e2 b1 0)) "="))
  | String a (String b (String c s)) =>
      let b0 := N_of_ascii a in let b1 := N_of_ascii b in let b2 := N_of_ascii c in
      String (enc_char (e0 b0)) (String (enc_char (e1 b0 b1)) (String (enc_char (e2 b1 b2)) (String (enc_char (e3 b2)) (base64_encode s))))
  end.

(** images.rs:324-333. *)
Definition decode_table : list Z :=
 [-1; -1; -1; -1; -1; -1; -1; -1; -1; -1; -1; -1; -1; -1; -1; -1;
  -1; -1; -1; -1; -1; -1; -1; -1; -1; -1; -1; -1; -1; -1; -1; -1;
  -1; -1; -1; -1; -1; -1; -1; -1; -1; -1; -1; 62; -1; -1; -1; 63;
  52; 53; 54; 55; 56; 57; 58; 59; 60; 61; -1; -1; -1; -1; -1; -1;
  -1;  0;  1;  2;  3;  4;  5;  6;  7;  8;  9; 10; 11; 12; 13; 14;
  15; 16; 17; 18; 19; 20; 21; 22; 23; 24; 25; -1; -1; -1; -1; -1;
  -1; 26; 27; 28; 29; 30; 31; 32; 33; 34; 35; 36; 37; 38; 39; 40;
  41; 42; 43; 44; 45; 46; 47; 48; 49; 50; 51; -1; -1; -1; -1; -1]%Z.
(** images.rs:344-356: one character of a group ([None] for an invalid
    character), with whether it is padding. *)
Definition dec_char (c : ascii) : option (N * bool) :=
  if Ascii.eqb c "=" then Some (0%N, true)
  else match nth_error decode_table (nat_of_ascii c) with
       | Some v => if (0 <=? v)%Z then Some (Z.to_N v, false) else None
       | None => None
       end.
(** images.rs:340-366: a group of four characters; a missing one is padding. *)
Definition dec_opt (c : option ascii) : option (N * bool) :=
  match c with Some c => dec_char c | None => Some (0%N, true) end.
Definition pad1 (b : bool) : nat := if b then 1 else 0.
Definition dec_group (a b c d : option ascii) : option string :=
  match dec_opt a, dec_opt b, dec_opt c, dec_opt d with
  | Some (v0, p0), Some (v1, p1), Some (v2, p2), Some (v3, p3) =>
      let pad := pad1 p0 + pad1 p1 + pad1 p2 + pad1 p3 in
      Some (String (ascii_of_N (N.lor (shl8 v0 2) (N.shiftr v1 4)))
              ((if Nat.ltb pad 2 then String (ascii_of_N (N.lor (shl8 v1 4) (N.shiftr v2 2))) "" else "") ++
               (if Nat.ltb pad 1 then String (ascii_of_N (N.lor (shl8 v2 6) v3)) "" else "")))
  | _, _, _, _ => None
  end.
Fixpoint dec_groups (s : string) : option string :=
  match s with
  | "" => Some ""
  | String a "" => dec_group (Some a) None None None
  | String a (String b "") => dec_group (Some a) (Some b) None None
  | String a (String b (String c "")) => dec_group (Some a) (Some b) (Some c) None
  | String a (String b (String c (String d s))) =>
      match dec_group (Some a) (Some b) (Some c) (Some d), dec_groups s with
      | Some x, Some y => Some (x ++ y)
      | _, _ => None
      end
  end.
(** images.rs:335: [trim] (ASCII white space) then removal of line breaks and blanks. *)
Definition is_gap (c : ascii) : bool := Ascii.eqb c LF || Ascii.eqb c CR || Ascii.eqb c " ".
(** images.rs:322-370. *)
Definition base64_decode (s : string) : option string := dec_groups (sfilter (fun c => negb (is_gap c)) (trim s)).
