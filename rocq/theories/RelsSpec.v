(** Domain of relationship histories. *)
From Coq Require Import String Ascii List Bool NArith.
From Verif Require Import Str Num XmlSpec RelsModel.
Import ListNotations.
Open Scope string_scope.

(** No explicit id "rId<number>" and no number of calls comes near the end of
    the u32 range. *)
Definition explicit_number (o : op) : option N :=
  match o with
  | AddWithId i _ _ => match strip_prefix "rId" i with Some d => parse_uint u32_max d | None => None end
  | Add _ _ => None
  end.
Definition in_range (l : list op) : Prop :=
  exists m, (forall o n, In o l -> explicit_number o = Some n -> n <= m)%N /\ (m + N.of_nat (length l) + 1 <= 4294967295)%N.

(** Characters that may be written into an attribute value unescaped. *)
Definition plain_attr (c : ascii) : bool :=
  xml_char c && negb (xml_space c && negb (Ascii.eqb c " ")) && negb (Ascii.eqb c "<" || Ascii.eqb c "&" || Ascii.eqb c c_quot).
(** Types that survive being written and read. *)
Definition stable_type (t : rtype) : Prop :=
  match t with
  | ExtendedProperties => False
  | Custom u => from_uri u = Custom u /\ sforall plain_attr u = true
  | _ => True
  end.
