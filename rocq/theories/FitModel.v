(** Model of src/generator/shapes_xml.rs: the font size chosen for the text of a shape
    and the colour that contrasts with its fill, in [f64]. *)
From Coq Require Import String Ascii List Bool ZArith NArith.
From Flocq Require Import Core IEEE754.BinarySingleNaN.
From Verif Require Import Str Num ColorModel ShapeModel FloatModel DimModel.
Import ListNotations.
Open Scope Z_scope.
Open Scope string_scope.

Definition plus (x y : f64) : f64 := fadd 53 1024 x y.
Definition minus (x y : f64) : f64 := fsub 53 1024 x y.
(** [x > y], [x < y], [x.max(y)], [x.min(y)]. *)
Definition greater (x y : f64) : bool := match Bcompare x y with Some Gt => true | _ => false end.
Definition less (x y : f64) : bool := match Bcompare x y with Some Lt => true | _ => false end.
Definition fmax (x y : f64) : f64 := match Bcompare x y with Some Lt => y | Some _ => x | None => if is_nan x then y else x end.
Definition fmin (x y : f64) : f64 := match Bcompare x y with Some Gt => y | Some _ => x | None => if is_nan x then y else x end.
(** A decimal literal is the number nearest to it, which a correctly rounded quotient is. *)
Definition literal (p q : Z) : f64 := over (num p) (num q).

(** [s.chars().count()] of text in UTF-8: the bytes that do not continue a character. *)
Fixpoint chars (s : string) : N :=
  match s with
  | "" => 0
  | String c s => (if (N.leb 128 (N_of_ascii c) && N.ltb (N_of_ascii c) 192)%bool then chars s else N.succ (chars s))%N
  end.

Section FIT.
  (** Whether a line has no words ([split_whitespace] gives none), by Unicode's white space. *)
  Variable blank : string -> bool.
  (** shapes_xml.rs:272-311 [estimate_wrapped_lines] *)
  Definition weight (n : f64) : f64 := if greater n (num 50) then literal 3 2 else if greater n (num 30) then literal 12 10 else num 1.
  Definition wrap_step (acc : f64 * f64) (line : string) : f64 * f64 :=
    let (total, most) := acc in
    if String.eqb line "" || blank line then (plus total (num 1), most)
    else let n := num (Z.of_N (chars line)) in (plus total (weight n), fmax most n).
  Definition wrapped_lines (ls : list string) : f64 * f64 := fold_left wrap_step ls (num 0, num 0).
  (** shapes_xml.rs:210-225: the room in points, less the padding. *)
  Definition usable (emu : Z) : f64 := fmax (minus (times (over (num emu) (num 914400)) (num 72)) (literal 144 10)) (num 10).
  (** shapes_xml.rs:138-142, 181-187 [FontMetrics::default] *)
  Definition char_width_ratio : f64 := literal 5 10.
  Definition line_height_ratio : f64 := literal 115 100.
  (** shapes_xml.rs:198-269 [calculate_font_size], with the default font as always. *)
  Definition font_size (text : string) (width height : Z) : Z :=
    let (total, most) := wrapped_lines (lines text) in
    let from_width := if greater most (num 0) then over (usable width) (times most char_width_ratio) else num 72 in
    let from_height := if greater total (num 0) then over (usable height) (times total line_height_ratio) else num 72 in
    Z.max 600 (Z.min 7200 (as_u32 (times (fmin from_width from_height) (num 100)))).
End FIT.

(** shapes_xml.rs:314-327 [is_dark_color]: slices panic inside a character. *)
Definition luminance (r g b : N) : f64 :=
  plus (plus (times (literal 299 1000) (num (Z.of_N r))) (times (literal 587 1000) (num (Z.of_N g)))) (times (literal 114 1000) (num (Z.of_N b))).
Definition is_dark_color (hex_color : string) : outcome bool :=
  let hex := trim_start_by is_hash hex_color in
  if Nat.ltb (String.length hex) 6 then Ret false
  else bind (slice 0 2 hex) (fun x => bind (slice 2 4 hex) (fun y => bind (slice 4 6 hex) (fun z =>
    Ret (less (luminance (byte_or 255 x) (byte_or 255 y) (byte_or 255 z)) (num 128))))).
(** shapes_xml.rs:330-335 [get_text_color] *)
Definition get_text_color (fill_color : option string) : outcome string :=
  match fill_color with
  | Some c => bind (is_dark_color c) (fun d => Ret (if d then "FFFFFF" else "000000"))
  | None => Ret "000000"
  end.
