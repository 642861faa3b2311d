(** Model of src/core/dimension.rs, src/elements/position.rs and of the unit
    conversions in src/generator/shapes.rs, src/prelude.rs and
    src/generator/images.rs.  Integers of Rust are integers within their range. *)
From Coq Require Import ZArith.
From Flocq Require Import Core IEEE754.BinarySingleNaN.
From Verif Require Import FloatModel.
Open Scope Z_scope.

(** Arithmetic of [f64]. *)
Definition num (z : Z) : f64 := of_int 53 1024 z.
Definition times (x y : f64) : f64 := fmul 53 1024 x y.
Definition over (x y : f64) : f64 := fdiv 53 1024 x y.
Definition as_u32 (x : f64) : Z := cast 53 1024 0 u32_hi x.
Definition as_i64 (x : f64) : Z := cast 53 1024 i64_lo i64_hi x.
Definition as_i32 (x : f64) : Z := cast 53 1024 i32_lo i32_hi x.

(** dimension.rs:20-30 *)
Definition slide_width_emu : Z := 9144000.
Definition slide_height_emu : Z := 6858000.
Definition emu_per_inch : f64 := num 914400.
Definition emu_per_cm : f64 := num 360000.
Definition emu_per_pt : f64 := num 12700.
(** dimension.rs:36-48 *)
Inductive dimension := Emu (v : Z) | Inches (v : f64) | Cm (v : f64) | Pt (v : f64) | Ratio (v : f64).
(** core/validation.rs:58-60 *)
Definition clamp_ratio (x : f64) : f64 := clamp_unit 53 1024 x.
(** dimension.rs:54-64 [to_emu] *)
Definition to_emu (d : dimension) (reference : Z) : Z :=
  match d with
  | Emu v => v
  | Inches v => as_u32 (times v emu_per_inch)
  | Cm v => as_u32 (times v emu_per_cm)
  | Pt v => as_u32 (times v emu_per_pt)
  | Ratio r => as_u32 (times (clamp_ratio r) (num reference))
  end.
(** dimension.rs:67-74 *)
Definition to_emu_x (d : dimension) : Z := to_emu d slide_width_emu.
Definition to_emu_y (d : dimension) : Z := to_emu d slide_height_emu.
(** dimension.rs:109-111 [percent] *)
Definition percent (v : f64) : dimension := Ratio (over v (num 100)).
(** dimension.rs:114-163 [FlexPosition], [FlexSize]: a pair of dimensions, resolved
    on a slide of a given size. *)
Definition flex_to_emu_with (p : dimension * dimension) (width height : Z) : Z * Z := (to_emu (fst p) width, to_emu (snd p) height).
Definition flex_to_emu (p : dimension * dimension) : Z * Z := (to_emu_x (fst p), to_emu_y (snd p)).

(** shapes.rs:726-738, prelude.rs:152-164 *)
Definition emu_to_inches (emu : Z) : f64 := over (num emu) (num 914400).
Definition inches_to_emu (v : f64) : Z := as_u32 (times v (num 914400)).
Definition cm_to_emu (v : f64) : Z := as_u32 (times v (num 360000)).
Definition pt_to_emu (v : f64) : Z := as_u32 (times v (num 12700)).

(** position.rs:30-43, 70-83: a coordinate of [Position::from_inches],
    [Position::from_cm], [Size::from_inches], [Size::from_cm]. *)
Definition coordinate_inches (v : f64) : Z := as_i64 (times v (num 914400)).
Definition coordinate_cm (v : f64) : Z := as_i64 (times v (num 360000)).
(** position.rs:124-127 [with_rotation] *)
Definition rotation (degrees : f64) : Z := as_i32 (times degrees (num 60000)).

(** images.rs:246-264 and 521-534: [aspect_ratio], [scale_to_width] and
    [scale_to_height] of an image of this width and height. *)
Definition aspect_ratio (w h : Z) : f64 := over (num w) (num h).
Definition scale_to_width (w h width : Z) : Z * Z := (width, as_u32 (over (num width) (aspect_ratio w h))).
Definition scale_to_height (w h height : Z) : Z * Z := (as_u32 (times (num height) (aspect_ratio w h)), height).
