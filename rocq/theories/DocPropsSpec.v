(** Reading document properties and W3CDTF time stamps. *)
From Coq Require Import String Ascii List Bool Arith NArith.
From Verif Require Import Str XmlSpec OpcSpec XmlPath.
Import ListNotations.
Open Scope string_scope.

(** "YYYY-MM-DDThh:mm:ssZ" *)
Record stamp := Stamp { year : N; month : N; day : N; hour : N; minute : N; second : N }.
Definition digit (c : ascii) : option N := if is_digit c then Some (N_of_ascii c - 48)%N else None.
Fixpoint number (k : nat) (v : N) (s : string) : option (N * string) :=
  match k, s with
  | O, _ => Some (v, s)
  | S k, String c s => match digit c with Some d => number k (10 * v + d)%N s | None => None end
  | S _, "" => None
  end.
Definition sep (c : ascii) (s : string) : option string := match s with String d s => if Ascii.eqb c d then Some s else None | "" => None end.
Notation "'do' p <- a ; b" := (match a with Some p => b | None => None end) (at level 200, p pattern, a at level 100, b at level 200).
Definition read_stamp (s : string) : option stamp :=
  do (y, s) <- number 4 0 s; do s <- sep "-" s; do (mo, s) <- number 2 0 s; do s <- sep "-" s; do (d, s) <- number 2 0 s; do s <- sep "T" s;
  do (h, s) <- number 2 0 s; do s <- sep ":" s; do (mi, s) <- number 2 0 s; do s <- sep ":" s; do (sc, s) <- number 2 0 s; do s <- sep "Z" s;
  if String.eqb s "" then Some (Stamp y mo d h mi sc) else None.

(** The Gregorian calendar. *)
Definition leap (y : N) : bool := ((y mod 4 =? 0) && (negb (y mod 100 =? 0) || (y mod 400 =? 0)))%N.
Definition month_length (y m : N) : N :=
  match m with
  | 1 | 3 | 5 | 7 | 8 | 10 | 12 => 31
  | 4 | 6 | 9 | 11 => 30
  | 2 => if leap y then 29 else 28
  | _ => 0
  end%N.
Definition valid_date (t : stamp) : Prop := (1 <= month t <= 12)%N /\ (1 <= day t <= month_length (year t) (month t))%N.
Definition valid_time (t : stamp) : Prop := (hour t < 24 /\ minute t < 60 /\ second t < 60)%N.

(** Days from 1970-01-01 to a date. *)
Fixpoint year_days (k : nat) (y : N) : N := match k with O => 0 | S k => (if leap y then 366 else 365) + year_days k (y + 1) end%N.
Fixpoint month_days (k : nat) (y m : N) : N := match k with O => 0 | S k => month_length y m + month_days k y (m + 1) end%N.
Definition day_number (t : stamp) : N :=
  (year_days (N.to_nat (year t - 1970)) 1970 + month_days (N.to_nat (month t - 1)) (year t) 1 + (day t - 1))%N.

(** One stamp before another: by year, then month, day, hour, minute, second. *)
Fixpoint lex (l m : list N) : Prop := match l, m with a :: l, b :: m => (a < b)%N \/ (a = b /\ lex l m) | _, _ => False end.
Definition before (a b : stamp) : Prop := lex [year a; month a; day a; hour a; minute a; second a] [year b; month b; day b; hour b; minute b; second b].

(** app.xml *)
Definition texts (l : list node) : list string := map text_in l.
