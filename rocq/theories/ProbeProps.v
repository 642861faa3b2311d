(** C27: image probing is total and exact. *)
From Coq Require Import String List Bool Arith NArith.
From Verif Require Import ColorModel ProbeModel ProbeSpec ProbeProofs.
Import ListNotations.
Open Scope N_scope.

(** On any bytes the reader terminates (the scan's fuel, the length of the data
    plus one, is never exhausted) and never indexes out of bounds. *)
Theorem C27_total : forall d : list N, exists r, read_image_dimensions d = Some (Ret r).
Proof. exact read_total. Qed.
Print Assumptions C27_total.

Theorem C27_jpeg_total : forall d : list N, exists r, read_jpeg_dimensions d = Some (Ret r).
Proof. exact read_jpeg_total. Qed.
Print Assumptions C27_jpeg_total.

(** The encoded width and height are returned, format by format. *)
Theorem C27_png : forall w h junk rest, w < 2 ^ 32 -> h < 2 ^ 32 -> length junk = 8%nat ->
  read_image_dimensions (png w h junk rest) = Some (Ret (Some (w, h, PNG))).
Proof. exact png_exact. Qed.
Print Assumptions C27_png.
Example C27_png_case : read_image_dimensions (png 640 70000 [0; 0; 0; 13; 73; 72; 68; 82] [8]) = Some (Ret (Some (640, 70000, PNG))).
Proof. apply C27_png; reflexivity. Qed.

Theorem C27_gif : forall w h v1 v2 rest, w < 2 ^ 16 -> h < 2 ^ 16 ->
  read_image_dimensions (gif w h v1 v2 rest) = Some (Ret (Some (w, h, GIF))).
Proof. exact gif_exact. Qed.
Print Assumptions C27_gif.
Example C27_gif_case : read_image_dimensions (gif 300 2 57 97 []) = Some (Ret (Some (300, 2, GIF))).
Proof. apply C27_gif; reflexivity. Qed.

Theorem C27_bmp : forall w h junk rest, w < 2 ^ 32 -> h < 2 ^ 32 -> length junk = 16%nat ->
  read_image_dimensions (bmp w h junk rest) = Some (Ret (Some (w, h, BMP))).
Proof. exact bmp_exact. Qed.
Print Assumptions C27_bmp.
Example C27_bmp_case : read_image_dimensions (bmp 70000 3 (repeat 1 16) []) = Some (Ret (Some (70000, 3, BMP))).
Proof. apply C27_bmp; reflexivity. Qed.

Theorem C27_webp_lossy : forall w h sw sh size junk rest,
  w < 2 ^ 14 -> h < 2 ^ 14 -> sw < 4 -> sh < 4 -> length size = 4%nat -> length junk = 10%nat ->
  read_image_dimensions (webp_lossy w h sw sh size junk rest) = Some (Ret (Some (w, h, WEBP))).
Proof. exact lossy_exact. Qed.
Print Assumptions C27_webp_lossy.
Example C27_webp_lossy_case : read_image_dimensions (webp_lossy 16383 5 3 1 (repeat 0 4) (repeat 7 10) []) = Some (Ret (Some (16383, 5, WEBP))).
Proof. apply C27_webp_lossy; reflexivity. Qed.

Theorem C27_webp_lossless : forall w h top size junk rest,
  1 <= w <= 2 ^ 14 -> 1 <= h <= 2 ^ 14 -> top < 16 -> length size = 4%nat -> length junk = 5%nat -> (5 <= length rest)%nat ->
  read_image_dimensions (webp_lossless w h top size junk rest) = Some (Ret (Some (w, h, WEBP))).
Proof. exact lossless_exact. Qed.
Print Assumptions C27_webp_lossless.
Example C27_webp_lossless_case : read_image_dimensions (webp_lossless 16384 300 9 (repeat 0 4) (repeat 7 5) (repeat 0 5)) = Some (Ret (Some (16384, 300, WEBP))).
Proof. apply C27_webp_lossless; try reflexivity; try (split; discriminate). Qed.

(** Any number of length-carrying segments before a baseline or progressive
    frame header is skipped. *)
Theorem C27_jpeg : forall segs sof flen prec ncomp w h rest,
  Forall segment_ok segs -> (sof = 192 \/ sof = 194) -> flen < 2 ^ 16 -> w < 2 ^ 16 -> h < 2 ^ 16 ->
  read_image_dimensions (jpeg segs sof flen prec ncomp w h rest) = Some (Ret (Some (w, h, JPEG))).
Proof. exact jpeg_exact. Qed.
Print Assumptions C27_jpeg.
Example C27_jpeg_case : read_image_dimensions (jpeg [Segment 224 [255; 192; 0]; Segment 219 []] 194 17 8 3 800 600 []) = Some (Ret (Some (800, 600, JPEG))).
Proof.
  apply C27_jpeg; try reflexivity; [|auto]. repeat constructor; cbn; try discriminate; reflexivity.
Qed.

(** A frame header of another kind (extended sequential, SOF1) is not recognised:
    the well-formed image below has no dimensions. *)
Theorem C27_sof1_refuted : exists w h, w < 2 ^ 16 /\ h < 2 ^ 16 /\ read_image_dimensions (jpeg [] 193 8 8 1 w h []) = Some (Ret None).
Proof. exists 800, 600. repeat split. Qed.
Print Assumptions C27_sof1_refuted.

(** Format detection panics exactly on four or five bytes that start neither
    like a PNG nor like a JPEG. *)
Theorem C27_auto_panics_refuted : forall d,
  auto_format d = Panic <-> (length d = 4 \/ length d = 5)%nat /\ begins [137; 80; 78; 71] d = false /\ begins [255; 216] d = false.
Proof. exact auto_panics. Qed.
Print Assumptions C27_auto_panics_refuted.
Example C27_auto_case : auto_format [71; 73; 70; 56] = Panic /\ auto_format [71; 73; 70; 56; 55; 97] = Ret GIF.
Proof. split; reflexivity. Qed.
(** Elsewhere it tells PNG, JPEG and GIF images apart; it never answers BMP or
    WebP. *)
Theorem C27_auto : (forall w h junk rest, auto_format (png w h junk rest) = Ret PNG)
  /\ (forall segs sof flen prec ncomp w h rest, auto_format (jpeg segs sof flen prec ncomp w h rest) = Ret JPEG)
  /\ (forall w h v rest, v = 55 \/ v = 57 -> auto_format (gif w h v 97 rest) = Ret GIF)
  /\ (forall d, (4 <= length d)%nat -> auto_format d = Ret JPEG -> exists r, d = (255 :: 216 :: r)%list)
  /\ (forall d, auto_format d = Ret GIF -> exists v r, (v = 55 \/ v = 57) /\ d = (71 :: 73 :: 70 :: 56 :: v :: 97 :: r)%list)
  /\ (forall d, auto_format d <> Ret BMP /\ auto_format d <> Ret WEBP).
Proof. exact auto_images. Qed.
Print Assumptions C27_auto.
