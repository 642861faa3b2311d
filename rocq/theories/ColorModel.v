(** Model of src/elements/color.rs and src/helpers/colors.rs (hex forms).
    Strings are UTF-8 bytes; slicing inside a character panics. *)
From Coq Require Import String Ascii List Bool NArith.
From Verif Require Import Str Num.
Open Scope string_scope.

Inductive outcome (A : Type) := Ret (a : A) | Panic.
Arguments Ret {A} a.
Arguments Panic {A}.

(** Byte [i] does not continue a character ([is_char_boundary]; the end of the string is a boundary). *)
Definition boundary (i : nat) (s : string) : bool :=
  match String.get i s with
  | Some c => let n := N_of_ascii c in negb ((128 <=? n)%N && (n <=? 191)%N)
  | None => Nat.eqb i (String.length s)
  end.
(** [&s[i..j]] *)
Definition slice (i j : nat) (s : string) : outcome string :=
  if boundary i s && boundary j s then Ret (String.substring i (j - i) s) else Panic.
Definition bind {A B} (x : outcome A) (f : A -> outcome B) : outcome B :=
  match x with Ret a => f a | Panic => Panic end.

Definition is_hash (c : ascii) : bool := Ascii.eqb c "#".
(** elements/color.rs:8-13. *)
Record rgb := Rgb { r : N; g : N; b : N }.
(** elements/color.rs:22-31 [RgbColor::from_hex]. *)
Definition from_hex (s : string) : outcome (option rgb) :=
  let h := trim_start_by is_hash s in
  if negb (Nat.eqb (String.length h) 6) then Ret None
  else bind (slice 0 2 h) (fun x =>
       match from_hex_str u8_max x with
       | None => Ret None
       | Some r => bind (slice 2 4 h) (fun y =>
           match from_hex_str u8_max y with
           | None => Ret None
           | Some g => bind (slice 4 6 h) (fun z =>
               match from_hex_str u8_max z with
               | None => Ret None
               | Some b => Ret (Some (Rgb r g b))
               end)
           end)
       end).
(** elements/color.rs:34-36. *)
Definition to_hex (c : rgb) : string := hexw 2 (r c) ++ hexw 2 (g c) ++ hexw 2 (b c).
(** elements/color.rs:56-60. *)
Definition rgb_xml (c : rgb) : string := "<a:srgbClr val=""" ++ to_hex c ++ """/>".

(** helpers/colors.rs:13-18. *)
Record cv := Cv { cr : N; cg : N; cb : N; ca : N }.
(** helpers/colors.rs:32-50 [ColorValue::from_hex]. *)
Definition byte_or (d : N) (s : string) : N := match from_hex_str u8_max s with Some v => v | None => d end.
Definition cv_from_hex (s : string) : outcome cv :=
  let h := trim_start_by is_hash s in
  if Nat.eqb (String.length h) 6 then
    bind (slice 0 2 h) (fun x => bind (slice 2 4 h) (fun y => bind (slice 4 6 h) (fun z =>
      Ret (Cv (byte_or 0 x) (byte_or 0 y) (byte_or 0 z) 255))))
  else if Nat.eqb (String.length h) 8 then
    bind (slice 0 2 h) (fun x => bind (slice 2 4 h) (fun y => bind (slice 4 6 h) (fun z => bind (slice 6 8 h) (fun w =>
      Ret (Cv (byte_or 0 x) (byte_or 0 y) (byte_or 0 z) (byte_or 255 w))))))
  else Ret (Cv 0 0 0 255).
(** helpers/colors.rs:53-60. *)
Definition cv_to_hex (c : cv) : string := hexw 2 (cr c) ++ hexw 2 (cg c) ++ hexw 2 (cb c).
Definition cv_to_hex_alpha (c : cv) : string := hexw 2 (cr c) ++ hexw 2 (cg c) ++ hexw 2 (cb c) ++ hexw 2 (ca c).
(** helpers/colors.rs:113-115. *)
Definition invert (c : cv) : cv :=
  Cv (wsub u8_max 255 (cr c)) (wsub u8_max 255 (cg c)) (wsub u8_max 255 (cb c)) (ca c).
(** helpers/colors.rs:118-120. *)
Definition cv_rgb (c : cv) : rgb := Rgb (cr c) (cg c) (cb c).
