(** Floating-point arithmetic of Rust, by Flocq: IEEE 754 with rounding to the
    nearest, and the conversions of [as]. *)
From Coq Require Import ZArith NArith.
From Flocq Require Import Core IEEE754.BinarySingleNaN.

Section FLOAT.
  Context (prec emax : Z) {Hp : Prec_gt_0 prec} {He : Prec_lt_emax prec emax}.
  Notation float := (binary_float prec emax).
  (** [z as f64], and literals such as [914400.0]. *)
  Definition of_int (z : Z) : float := binary_normalize prec emax Hp He mode_NE z 0 false.
  Definition fmul (x y : float) : float := Bmult mode_NE x y.
  Definition fdiv (x y : float) : float := Bdiv mode_NE x y.
  Definition fadd (x y : float) : float := Bplus mode_NE x y.
  Definition fsub (x y : float) : float := Bminus mode_NE x y.
  (** [x as T] for an integer type from [lo] to [hi]: towards zero, saturating, and
      0 for what is not a number. *)
  Definition cast (lo hi : Z) (x : float) : Z :=
    match x with
    | B754_nan => 0
    | B754_infinity true => lo
    | B754_infinity false => hi
    | _ => Z.max lo (Z.min hi (Btrunc x))
    end.
  (** [x.clamp(0.0, 1.0)]: what is not a number stays so. *)
  Definition clamp_unit (x : float) : float :=
    match Bcompare x (of_int 0) with
    | Some Lt => of_int 0
    | _ => match Bcompare x (of_int 1) with
           | Some Gt => of_int 1
           | _ => x
           end
    end.
End FLOAT.

#[global] Instance prec53 : Prec_gt_0 53 := eq_refl.
#[global] Instance prec53_1024 : Prec_lt_emax 53 1024 := eq_refl.
#[global] Instance prec24 : Prec_gt_0 24 := eq_refl.
#[global] Instance prec24_128 : Prec_lt_emax 24 128 := eq_refl.
(** [f64] and [f32] *)
Definition f64 : Type := binary_float 53 1024.
Definition f32 : Type := binary_float 24 128.
Definition i64_lo : Z := -9223372036854775808.
Definition i64_hi : Z := 9223372036854775807.
Definition i32_lo : Z := -2147483648.
Definition i32_hi : Z := 2147483647.
Definition u32_hi : Z := 4294967295.
Definition u8_hi : Z := 255.
