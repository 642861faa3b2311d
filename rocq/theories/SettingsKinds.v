(** The names standards give to the choices of a deck's settings, written down
    without the code. *)
From Coq Require Import String List.
From Verif Require Import Str SettingsModel.
Open Scope string_scope.

(** XML Encryption 5.8, RFC 4051 2.1, XML Signature 6.2: digest algorithms. *)
Definition digest_name (h : hash_algorithm) : string :=
  match h with
  | Sha1 => "http://www.w3.org/2000/09/xmldsig#sha1"
  | Sha256 => "http://www.w3.org/2001/04/xmlenc#sha256"
  | Sha384 => "http://www.w3.org/2001/04/xmldsig-more#sha384"
  | Sha512 => "http://www.w3.org/2001/04/xmlenc#sha512"
  end.
(** What the signer stands for, and the word shown for it. *)
Definition proof_name (c : commitment) : string :=
  "http://uri.etsi.org/01903/v1.2.2#ProofOf" ++ match c with Created => "Creation" | Approved => "Approval" | Reviewed => "Review" end.
Definition proof_word (c : commitment) : string := match c with Created => "Created" | Approved => "Approved" | Reviewed => "Reviewed" end.
Definition tip_name (t : tip) : string := match t with Flat => "flat" | Ball => "ball" end.
(** The twelve colours of a theme in the order of the slots of a colour scheme. *)
Definition theme_list (c : colors) : list string :=
  tc_dk1 c :: tc_lt1 c :: tc_dk2 c :: tc_lt2 c :: tc_accent1 c :: tc_accent2 c :: tc_accent3 c :: tc_accent4 c :: tc_accent5 c :: tc_accent6 c :: tc_hlink c :: tc_fol c :: nil.
