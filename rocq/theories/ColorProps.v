(** C25: hex colours. *)
From Coq Require Import String Ascii List NArith.
From Verif Require Import Str Num ColorModel ColorSpec ColorProofs.
Open Scope string_scope.

Theorem C25_hex_round_trip (c : rgb) : rgb_ok c -> from_hex (to_hex c) = Ret (Some c).
Proof. exact (to_hex_roundtrip c). Qed.
Print Assumptions C25_hex_round_trip.

Theorem C25_color_value_round_trip (c : cv) : cv_ok c ->
  cv_from_hex (cv_to_hex c) = Ret (Cv (cr c) (cg c) (cb c) 255) /\ cv_from_hex (cv_to_hex_alpha c) = Ret c.
Proof. exact (cv_roundtrip c). Qed.
Print Assumptions C25_color_value_round_trip.

Theorem C25_accepted_iff_denotes (s : string) (c : rgb) : from_hex s = Ret (Some c) <-> denotes s c.
Proof. exact (accept_iff s c). Qed.
Print Assumptions C25_accepted_iff_denotes.

Theorem C25_no_panic_on_ascii (s : string) : sforall (fun c => (N_of_ascii c <? 128)%N) s = true ->
  from_hex s <> Panic /\ cv_from_hex s <> Panic.
Proof. exact (no_panic s). Qed.
Print Assumptions C25_no_panic_on_ascii.

(** A colour value is read from any ASCII text. *)
Theorem C25_color_value_read (s : string) : sforall (fun c => (N_of_ascii c <? 128)%N) s = true ->
  exists n t c, s = string_of_list_ascii (List.repeat "#"%char n ++ t)%list /\ List.hd_error t <> Some "#"%char /\ cv_from_hex s = Ret c /\ value_of t c.
Proof. exact (value_reads s). Qed.
Print Assumptions C25_color_value_read.
Example C25_read_case : cv_from_hex "#12zz0F80" = Ret (Cv 18 0 15 128) /\ cv_from_hex "fff" = Ret (Cv 0 0 0 255) /\ cv_from_hex "#01020304" = Ret (Cv 1 2 3 4).
Proof. repeat split. Qed.

(** A six-byte string with a two-byte character across a pair boundary panics. *)
Theorem C25_panic_refuted : exists s, from_hex s = Panic /\ cv_from_hex s = Panic.
Proof. exists (String "A" (String "195" (String "169" "BCD"))). split; vm_compute; reflexivity. Qed.
Print Assumptions C25_panic_refuted.
(** Signs are taken for digits. *)
Theorem C25_sign_refuted : from_hex "+1+2+F" = Ret (Some (Rgb 1 2 15)).
Proof. vm_compute. reflexivity. Qed.
Print Assumptions C25_sign_refuted.

Theorem C25_invert_involutive (c : cv) : cv_ok c -> invert (invert c) = c /\
  invert c = Cv (255 - cr c) (255 - cg c) (255 - cb c) (ca c).
Proof. exact (invert_involutive c). Qed.
Print Assumptions C25_invert_involutive.

Example C25_case : rgb_ok (Rgb 18 171 255) /\ to_hex (Rgb 18 171 255) = "12ABFF" /\
  cv_ok (Cv 18 171 255 9) /\ cv_to_hex_alpha (Cv 18 171 255 9) = "12ABFF09" /\ from_hex "##12aBfF" = Ret (Some (Rgb 18 171 255)).
Proof. repeat split; vm_compute; congruence. Qed.
