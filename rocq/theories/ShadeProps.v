(** C79: colours are made lighter, darker, transparent, mixed and gray as real numbers say. *)
From Coq Require Import ZArith NArith Reals List Lra.
From Flocq Require Import Core IEEE754.BinarySingleNaN.
From Verif Require Import FloatModel ColorModel ShadeModel ShadeSpec ShadeProofs.
Import ListNotations.
Open Scope R_scope.

(** A lighter colour is nowhere darker and keeps its opacity; each channel goes the
    given part of the way to 255, cut off to a whole number. *)
Theorem C79_lighter : forall x c, is_finite x = true -> bytes c -> bytes (lighter x c) /\ ca (lighter x c) = ca c
  /\ each (fun old new => (old <= new)%N /\ whole_byte (1 / 65536) new (real old + (255 - real old) * unit_of (B2R x))) c (lighter x c).
Proof. exact lighter_colour. Qed.
Print Assumptions C79_lighter.
Theorem C79_lighter_grows : forall x y c, is_finite x = true -> is_finite y = true -> bytes c -> B2R x <= B2R y -> each N.le (lighter x c) (lighter y c).
Proof. exact lighter_grows. Qed.
Print Assumptions C79_lighter_grows.
Theorem C79_lighter_ends : forall x c, is_finite x = true -> bytes c -> (B2R x <= 0 -> lighter x c = c) /\ (1 <= B2R x -> lighter x c = Cv 255 255 255 (ca c)).
Proof. exact lighter_ends. Qed.
Print Assumptions C79_lighter_ends.
(** A darker colour is nowhere lighter and keeps its opacity; each channel loses the
    given part, cut off to a whole number. *)
Theorem C79_darker : forall x c, is_finite x = true -> bytes c -> bytes (darker x c) /\ ca (darker x c) = ca c
  /\ each (fun old new => (new <= old)%N /\ whole_byte (1 / 65536) new (real old * (1 - unit_of (B2R x)))) c (darker x c).
Proof. exact darker_colour. Qed.
Print Assumptions C79_darker.
Theorem C79_darker_grows : forall x y c, is_finite x = true -> is_finite y = true -> bytes c -> B2R x <= B2R y -> each N.le (darker y c) (darker x c).
Proof. exact darker_grows. Qed.
Print Assumptions C79_darker_grows.
Theorem C79_darker_ends : forall x c, is_finite x = true -> bytes c -> (B2R x <= 0 -> darker x c = c) /\ (1 <= B2R x -> darker x c = Cv 0 0 0 (ca c)).
Proof. exact darker_ends. Qed.
Print Assumptions C79_darker_ends.
Example C79_lighter_case : let half := over32 (num32 1) (num32 2) in is_finite half = true /\ bytes (Cv 100 0 255 7)
  /\ lighter half (Cv 100 0 255 7) = Cv 177 127 255 7 /\ darker half (Cv 100 0 255 7) = Cv 50 0 127 7.
Proof. split; [now vm_compute|]. split; [unfold bytes; repeat (apply Forall_cons; [cbn; discriminate|]); apply Forall_nil|now vm_compute]. Qed.

(** The opacity is the given part of 255, cut off to a whole number; a transparency in
    percent gives exactly the rest, cut off to a whole number, and none beyond 100. *)
Theorem C79_opacity : forall x c, is_finite x = true -> each eq c (opacity x c) /\ (ca (opacity x c) <= 255)%N /\ whole_byte (1 / 65536) (ca (opacity x c)) (unit_of (B2R x) * 255).
Proof. exact opacity_colour. Qed.
Print Assumptions C79_opacity.
Theorem C79_transparent : forall p c, (p <= 255)%N -> each eq c (transparent p c) /\ ca (transparent p c) = ((100 - N.min p 100) * 255 / 100)%N.
Proof. exact transparent_colour. Qed.
Print Assumptions C79_transparent.
Example C79_opacity_case : opacity (over32 (num32 1) (num32 2)) (Cv 1 2 3 255) = Cv 1 2 3 127 /\ transparent 30 (Cv 1 2 3 255) = Cv 1 2 3 178 /\ transparent 200 (Cv 1 2 3 255) = Cv 1 2 3 0.
Proof. now vm_compute. Qed.

(** A mixture is the weighted mean of each channel, opacity included, cut off to a
    whole number: never above both colours, and below both by at most 1. *)
Theorem C79_mix : forall c d x, is_finite x = true -> bytes c -> bytes d -> bytes (mix c d x)
  /\ Forall2 (fun cd new => (N.min (fst cd) (snd cd) <= new + 1 /\ new <= N.max (fst cd) (snd cd))%N /\ whole_byte (1 / 16384) new (real (fst cd) * (1 - unit_of (B2R x)) + real (snd cd) * unit_of (B2R x)))
       [(cr c, cr d); (cg c, cg d); (cb c, cb d); (ca c, ca d)] [cr (mix c d x); cg (mix c d x); cb (mix c d x); ca (mix c d x)].
Proof. exact mix_colour. Qed.
Print Assumptions C79_mix.
Theorem C79_mix_ends : forall c d x, is_finite x = true -> bytes c -> bytes d -> (B2R x <= 0 -> mix c d x = c) /\ (1 <= B2R x -> mix c d x = d).
Proof. exact mix_ends. Qed.
Print Assumptions C79_mix_ends.
Example C79_mix_case : mix (Cv 255 0 0 255) (Cv 0 0 255 255) (over32 (num32 1) (num32 2)) = Cv 127 0 127 255.
Proof. now vm_compute. Qed.
(** A colour mixed with itself is not always itself, nor opaque if it was. *)
Theorem C79_mix_refuted : let x := over32 (num32 4) (num32 100) in is_finite x = true /\ bytes (Cv 3 3 3 255) /\ mix (Cv 3 3 3 255) (Cv 3 3 3 255) x = Cv 2 2 2 254.
Proof. split; [now vm_compute|]. split; [unfold bytes; repeat (apply Forall_cons; [cbn; discriminate|]); apply Forall_nil|now vm_compute]. Qed.
Print Assumptions C79_mix_refuted.

(** A gray has the weighted mean of the channels in all three, cut off to a whole
    number, and keeps the opacity; what was gray already loses at most 1. *)
Theorem C79_gray : forall c, bytes c -> bytes (grayscale c) /\ gray (grayscale c) /\ ca (grayscale c) = ca c
  /\ whole_byte (1 / 10000) (cr (grayscale c)) ((299 * real (cr c) + 587 * real (cg c) + 114 * real (cb c)) / 1000).
Proof. exact gray_colour. Qed.
Print Assumptions C79_gray.
Theorem C79_gray_again : forall c, bytes c -> gray c -> (cr (grayscale c) <= cr c <= cr (grayscale c) + 1)%N.
Proof. exact gray_again. Qed.
Print Assumptions C79_gray_again.
Example C79_gray_case : bytes (Cv 200 100 50 9) /\ grayscale (Cv 200 100 50 9) = Cv 124 124 124 9.
Proof. split; [unfold bytes; repeat (apply Forall_cons; [cbn; discriminate|]); apply Forall_nil|now vm_compute]. Qed.
Theorem C79_gray_refuted : gray (Cv 37 37 37 255) /\ grayscale (Cv 37 37 37 255) = Cv 36 36 36 255.
Proof. now vm_compute. Qed.
Print Assumptions C79_gray_refuted.

(** An amount that is not a number makes every colour black, also when it should be
    made lighter. *)
Theorem C79_nan_refuted : forall c, lighter B754_nan c = Cv 0 0 0 (ca c) /\ darker B754_nan c = Cv 0 0 0 (ca c) /\ ca (opacity B754_nan c) = 0%N.
Proof. exact nan_colour. Qed.
Print Assumptions C79_nan_refuted.
