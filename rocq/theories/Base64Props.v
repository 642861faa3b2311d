(** C26: base64. *)
From Coq Require Import String Ascii List Arith NArith.
From Verif Require Import Str Base64Model Base64Spec Base64Proofs.
Open Scope string_scope.

(** The encoder is RFC 4648's. *)
Theorem C26_encode_is_rfc4648 (s : string) : base64_encode s = rfc4648 s.
Proof. exact (encode_rfc s). Qed.
Print Assumptions C26_encode_is_rfc4648.

Theorem C26_encode_shape (s : string) :
  String.length (base64_encode s) = 4 * ((String.length s + 2) / 3) /\
  sforall (fun c => let n := N_of_ascii c in
    ((65 <=? n) && (n <=? 90) || (97 <=? n) && (n <=? 122) || (48 <=? n) && (n <=? 57) || (n =? 43) || (n =? 47) || (n =? 61))%N%bool)
    (base64_encode s) = true.
Proof. exact (conj (encode_length s) (encode_out s)). Qed.
Print Assumptions C26_encode_shape.

(** [s] is the encoding of [b] with any line feeds, carriage returns and blanks inserted. *)
Theorem C26_decode_inverse (b s : string) :
  sfilter (fun c => negb (Ascii.eqb c LF || Ascii.eqb c CR || Ascii.eqb c " "))%bool s = base64_encode b ->
  base64_decode s = Some b.
Proof. exact (decode_with_gaps b s). Qed.
Print Assumptions C26_decode_inverse.

Example C26_case : base64_encode "Many hands" = "TWFueSBoYW5kcw==" /\
  base64_decode (" TWFu" ++ String LF "eSBo YW5k" ++ String CR (String LF "cw= =")) = Some "Many hands".
Proof. split; vm_compute; reflexivity. Qed.
