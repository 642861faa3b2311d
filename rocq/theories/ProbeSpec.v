(** The header layouts of the image formats. *)
From Coq Require Import List NArith.
From Verif Require Import ProbeModel.
Import ListNotations.
Open Scope N_scope.

Definition is_byte (b : N) : Prop := b < 256.
(** Big- and little-endian numbers of the given number of bytes. *)
Fixpoint le (k : nat) (n : N) : list N := match k with O => [] | S k => n mod 256 :: le k (n / 256) end.
Definition be (k : nat) (n : N) : list N := rev (le k n).

(** Signature, IHDR chunk length and tag, width, height, anything. *)
Definition png (w h : N) (junk : list N) (rest : list N) : list N :=
  ([137; 80; 78; 71; 13; 10; 26; 10] ++ junk ++ be 4 w ++ be 4 h ++ rest)%list.
(** "GIF8", two version bytes, width, height. *)
Definition gif (w h : N) (v1 v2 : N) (rest : list N) : list N := ([71; 73; 70; 56; v1; v2] ++ le 2 w ++ le 2 h ++ rest)%list.
(** "BM", 16 bytes, width, height. *)
Definition bmp (w h : N) (junk : list N) (rest : list N) : list N := ([66; 77] ++ junk ++ le 4 w ++ le 4 h ++ rest)%list.
(** "RIFF" size "WEBP" "VP8 " and ten bytes; the two 14-bit dimensions with their two scale bits. *)
Definition webp_lossy (w h sw sh : N) (size junk : list N) (rest : list N) : list N :=
  ([82; 73; 70; 70] ++ size ++ [87; 69; 66; 80; 86; 80; 56; 32] ++ junk ++ le 2 (w + 16384 * sw) ++ le 2 (h + 16384 * sh) ++ rest)%list.
(** "VP8L": four bytes, the signature byte, then width-1 and height-1 as 14-bit fields. *)
Definition webp_lossless (w h top : N) (size junk : list N) (rest : list N) : list N :=
  ([82; 73; 70; 70] ++ size ++ [87; 69; 66; 80; 86; 80; 56; 76] ++ junk ++ le 4 ((w - 1) + 16384 * (h - 1) + 268435456 * top) ++ rest)%list.

(** JPEG: segments with a length before the frame header. *)
Record segment := Segment { marker : N; payload : list N }.
Definition segment_ok (s : segment) : Prop :=
  192 <= marker s < 255 /\ marker s <> 192 /\ marker s <> 194 /\ marker s <> 217 /\ marker s <> 218 /\
  N.of_nat (length (payload s)) + 2 < 65536.
Definition segment_bytes (s : segment) : list N :=
  ([255; marker s] ++ be 2 (N.of_nat (length (payload s)) + 2) ++ payload s)%list.
(** SOI, segments, then a frame header (SOF0 or SOF2): length, precision,
    height, width, number of components. *)
Definition jpeg (segs : list segment) (sof : N) (flen prec ncomp : N) (w h : N) (rest : list N) : list N :=
  ([255; 216] ++ flat_map segment_bytes segs ++ [255; sof] ++ be 2 flen ++ [prec] ++ be 2 h ++ be 2 w ++ [ncomp] ++ rest)%list.
