(** Model of src/helpers/colors.rs: colours made lighter, darker, transparent, mixed
    and gray, in [f32]. *)
From Coq Require Import ZArith NArith.
From Flocq Require Import Core IEEE754.BinarySingleNaN.
From Verif Require Import FloatModel ColorModel.
Open Scope Z_scope.

(** Arithmetic of [f32]. *)
Definition num32 (z : Z) : f32 := of_int 24 128 z.
Definition times32 (x y : f32) : f32 := fmul 24 128 x y.
Definition over32 (x y : f32) : f32 := fdiv 24 128 x y.
Definition plus32 (x y : f32) : f32 := fadd 24 128 x y.
Definition minus32 (x y : f32) : f32 := fsub 24 128 x y.
Definition unit32 (x : f32) : f32 := clamp_unit 24 128 x.
Definition as_u8 (x : f32) : N := Z.to_N (cast 24 128 0 u8_hi x).
(** [c as f32] *)
Definition byte32 (c : N) : f32 := num32 (Z.of_N c).

(** colors.rs:61-67 [lighter]: a channel, the colour. *)
Definition lighter_byte (amount : f32) (c : N) : N := as_u8 (plus32 (byte32 c) (times32 (minus32 (num32 255) (byte32 c)) amount)).
Definition lighter (amount : f32) (c : cv) : cv :=
  let a := unit32 amount in Cv (lighter_byte a (cr c)) (lighter_byte a (cg c)) (lighter_byte a (cb c)) (ca c).
(** colors.rs:70-76 [darker] *)
Definition darker_byte (amount : f32) (c : N) : N := as_u8 (times32 (byte32 c) (minus32 (num32 1) amount)).
Definition darker (amount : f32) (c : cv) : cv :=
  let a := unit32 amount in Cv (darker_byte a (cr c)) (darker_byte a (cg c)) (darker_byte a (cb c)) (ca c).
(** colors.rs:79-82 [opacity] *)
Definition opacity (alpha : f32) (c : cv) : cv := Cv (cr c) (cg c) (cb c) (as_u8 (times32 (unit32 alpha) (num32 255))).
(** colors.rs:85-89 [transparent] *)
Definition transparent (percent : N) (c : cv) : cv :=
  let p := N.min percent 100 in
  Cv (cr c) (cg c) (cb c) (as_u8 (times32 (over32 (byte32 (100 - p)) (num32 100)) (num32 255))).
(** colors.rs:92-99 [mix] *)
Definition mix_byte (ratio : f32) (c d : N) : N :=
  as_u8 (plus32 (times32 (byte32 c) (minus32 (num32 1) ratio)) (times32 (byte32 d) ratio)).
Definition mix (c d : cv) (ratio : f32) : cv :=
  let x := unit32 ratio in Cv (mix_byte x (cr c) (cr d)) (mix_byte x (cg c) (cg d)) (mix_byte x (cb c) (cb d)) (mix_byte x (ca c) (ca d)).
(** colors.rs:102-105 [grayscale].  The literals 0.299, 0.587 and 0.114 are the
    [f32] nearest to them, which a correctly rounded quotient is. *)
Definition w_red : f32 := over32 (num32 299) (num32 1000).
Definition w_green : f32 := over32 (num32 587) (num32 1000).
Definition w_blue : f32 := over32 (num32 114) (num32 1000).
Definition gray_byte (r g b : N) : N :=
  as_u8 (plus32 (plus32 (times32 w_red (byte32 r)) (times32 w_green (byte32 g))) (times32 w_blue (byte32 b))).
Definition grayscale (c : cv) : cv := let y := gray_byte (cr c) (cg c) (cb c) in Cv y y y (ca c).
