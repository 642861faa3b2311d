(** C80: the text of a shape gets a size that fits and a colour that can be read. *)
From Coq Require Import String Ascii List Bool ZArith NArith Reals Lra Lia.
From Flocq Require Import Core IEEE754.BinarySingleNaN.
From Verif Require Import Str Num ColorModel ShapeModel FloatModel DimModel DimSpec FitModel FitSpec FitProofs.
Import ListNotations.
Open Scope R_scope.

(** The size is between 6 and 72 points. *)
Theorem C80_range : forall blank text w h, (600 <= font_size blank text w h <= 7200)%Z.
Proof. exact size_range. Qed.
Print Assumptions C80_range.

(** At a size above the least one, every line is as wide as the room in the shape and
    all lines are as high, at most: half the size for a character, 115 percent of it for
    a line. *)
Theorem C80_fits : forall blank text w h, holdable text -> u32_range w -> u32_range h -> (600 < font_size blank text w h)%Z ->
  (forall line, In line (lines text) -> written blank line -> line_width (font_size blank text w h) line <= room w + 1 / 1000000) /\
  height_of (font_size blank text w h) (number_of_lines text) <= room h + 1 / 1000000.
Proof. exact size_fits. Qed.
Print Assumptions C80_fits.

(** No smaller size is taken than fits: any size up to 72 points at which every line is
    narrow enough, and the lines are low enough even if each took half as much again
    (nothing more, if none has more than 30 characters), is reached. *)
Theorem C80_large : forall blank text w h size k, holdable text -> u32_range w -> u32_range h -> (k = 1 \/ k = 3 / 2) -> (k = 1 -> Forall (fun line => (Z.of_N (chars line) <= 30)%Z) (lines text)) -> (0 <= size <= 7200)%Z ->
  (forall line, In line (lines text) -> written blank line -> line_width size line <= room w - 1 / 1000000) -> height_of size (number_of_lines text * k) <= room h - 1 / 1000000 -> (size <= font_size blank text w h)%Z.
Proof. exact size_large. Qed.
Print Assumptions C80_large.

(** A larger shape never gets smaller text. *)
Theorem C80_grows : forall blank text w h w' h', holdable text -> u32_range w' -> u32_range h' -> (0 <= w <= w')%Z -> (0 <= h <= h')%Z -> (font_size blank text w h <= font_size blank text w' h')%Z.
Proof. exact size_grows. Qed.
Print Assumptions C80_grows.

Definition spaces (line : string) : bool := sforall (fun c => Ascii.eqb c " ") line.
Example C80_case : holdable "Revenue" /\ lines "Revenue" = ["Revenue"%string] /\ written spaces "Revenue" /\ font_size spaces "Revenue" 1828800 914400 = 3702%Z
  /\ font_size spaces "Revenue" 3657600 914400 = 5008%Z /\ font_size spaces "Revenue" 9144000 9144000 = 7200%Z.
Proof. split; [now vm_compute|]. split; [now vm_compute|]. split; [now split|now vm_compute]. Qed.

(** At the least size the text may not fit, and in a shape without any room at all the
    text gets more than that. *)
Theorem C80_fits_refuted : font_size spaces "Internationalization of everything there is" 914400 914400 = 600%Z /\ line_width 600 "Internationalization of everything there is" > room 914400
  /\ font_size spaces "A" 0 0 = 869%Z.
Proof.
  split; [now vm_compute|]. split; [|now vm_compute]. unfold line_width, room. change (Z.of_N (chars "Internationalization of everything there is")) with 43%Z. unfold Rmax. destruct (Rle_dec 10 (914400 / 12700 - 144 / 10)); lra.
Qed.
Print Assumptions C80_fits_refuted.

(** On a fill given in six hexadecimal digits, whatever follows them, the text is white
    if the fill is darker than the middle and black if it is lighter. *)
Theorem C80_contrast : forall r g b rest, (r <= 255)%N -> (g <= 255)%N -> (b <= 255)%N -> boundary 0 rest = true ->
  ((lightness r g b < 128000)%N -> get_text_color (Some (hexw 2 r ++ hexw 2 g ++ hexw 2 b ++ rest)%string) = Ret "FFFFFF"%string) /\
  ((128000 < lightness r g b)%N -> get_text_color (Some (hexw 2 r ++ hexw 2 g ++ hexw 2 b ++ rest)%string) = Ret "000000"%string).
Proof. exact contrast. Qed.
Print Assumptions C80_contrast.
Example C80_contrast_case : get_text_color (Some "1565C0"%string) = Ret "FFFFFF"%string /\ get_text_color (Some "FFC107"%string) = Ret "000000"%string /\ get_text_color None = Ret "000000"%string.
Proof. now vm_compute. Qed.
(** Colours exactly in the middle are not treated alike: the middle gray is taken for
    darker, another one not. *)
Theorem C80_middle_refuted : lightness 128 128 128 = 128000%N /\ is_dark_color "808080" = Ret true /\ lightness 1 189 147 = 128000%N /\ is_dark_color "01BD93" = Ret false.
Proof. now vm_compute. Qed.
Print Assumptions C80_middle_refuted.
(** A fill whose first six bytes break a character ends the program. *)
Theorem C80_panic_refuted : get_text_color (Some (String "F" (String (ascii_of_nat 195) (String (ascii_of_nat 169) "CC99"%string)))) = Panic.
Proof. now vm_compute. Qed.
Print Assumptions C80_panic_refuted.
