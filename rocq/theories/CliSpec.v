(** What the command-line tool should print and where it should write.  A reader
    of JSON (RFC 8259, without fractions, exponents, negative numbers and
    surrogate pairs, which are refused), independent of the model. *)
From Coq Require Import String Ascii List Bool Arith NArith.
From Verif Require Import Str ValidModel CliModel.
Import ListNotations.
Open Scope nat_scope.
Open Scope string_scope.

(** ** JSON *)
Inductive json := JNull | JBool (b : bool) | JNum (digits : string) | JStr (s : string) | JArr (l : list json) | JObj (l : list (string * json)).

(** Words of a text: punctuation, strings, numbers and names. *)
Inductive token := TP (c : ascii) | TStr (s : string) | TNum (digits : string) | TName (w : string).
Definition punct (c : ascii) : bool := existsb (Ascii.eqb c) ["{"; "}"; "["; "]"; ":"; ","]%char.
Definition blank_char (c : ascii) : bool := existsb (Ascii.eqb c) [" "; LF; CR; TAB]%char.
Definition letter (c : ascii) : bool := let n := N_of_ascii c in ((97 <=? n) && (n <=? 122))%N.
Definition hex_of (c : ascii) : option N :=
  let n := N_of_ascii c in
  if ((48 <=? n) && (n <=? 57))%N then Some (n - 48)%N
  else if ((97 <=? n) && (n <=? 102))%N then Some (n - 87)%N
  else if ((65 <=? n) && (n <=? 70))%N then Some (n - 55)%N else None.
(** A character from its number, in UTF-8. *)
Definition utf8 (n : N) : option string :=
  if (n <? 128)%N then Some (s1 (ascii_of_N n))
  else if (n <? 2048)%N then Some (s1 (ascii_of_N (192 + n / 64)) ++ s1 (ascii_of_N (128 + n mod 64)))
  else if ((55296 <=? n) && (n <=? 57343))%N then None
  else Some (s1 (ascii_of_N (224 + n / 4096)) ++ s1 (ascii_of_N (128 + n / 64 mod 64)) ++ s1 (ascii_of_N (128 + n mod 64))).
Definition escaped (c : ascii) : option string :=
  if Ascii.eqb c DQ then Some dq else if Ascii.eqb c "\" then Some "\" else if Ascii.eqb c "/" then Some "/"
  else if Ascii.eqb c "b" then Some (s1 "008") else if Ascii.eqb c "f" then Some (s1 "012")
  else if Ascii.eqb c "n" then Some nl else if Ascii.eqb c "r" then Some (s1 CR) else if Ascii.eqb c "t" then Some (s1 TAB) else None.
(** Inside a string: what it says, and what comes after its closing quote. *)
Fixpoint string_rest (s : string) : option (string * string) :=
  match s with
  | "" => None
  | String c s =>
      if Ascii.eqb c DQ then Some ("", s)
      else if Ascii.eqb c "\" then
        match s with
        | String "u" (String a (String b (String c (String d s)))) =>
            match hex_of a, hex_of b, hex_of c, hex_of d with
            | Some a, Some b, Some c, Some d =>
                match utf8 (a * 4096 + b * 256 + c * 16 + d)%N, string_rest s with
                | Some x, Some (t, r) => Some (x ++ t, r)
                | _, _ => None
                end
            | _, _, _, _ => None
            end
        | String e s => match escaped e, string_rest s with Some x, Some (t, r) => Some (x ++ t, r) | _, _ => None end
        | "" => None
        end
      else if (N_of_ascii c <? 32)%N then None
      else match string_rest s with Some (t, r) => Some (String c t, r) | None => None end
  end.
(** The longest start of a text made of such characters, and the rest. *)
Fixpoint span (p : ascii -> bool) (s : string) : string * string :=
  match s with
  | "" => ("", "")
  | String c s' => if p c then let (a, b) := span p s' in (String c a, b) else ("", s)
  end.
Definition number_ok (d : string) : bool := match d with String "0" (String _ _) => false | _ => true end.
Fixpoint words (fuel : nat) (s : string) : option (list token) :=
  match fuel, s with
  | _, "" => Some []
  | O, _ => None
  | S fuel, String c s' =>
      if blank_char c then words fuel s'
      else if punct c then option_map (cons (TP c)) (words fuel s')
      else if Ascii.eqb c DQ then
        match string_rest s' with Some (t, r) => option_map (cons (TStr t)) (words fuel r) | None => None end
      else if is_digit c then
        let (d, r) := span is_digit s in if number_ok d then option_map (cons (TNum d)) (words fuel r) else None
      else if letter c then let (w, r) := span letter s in option_map (cons (TName w)) (words fuel r)
      else None
  end.
(** A value at the start of a list of words, and the words after it. *)
Fixpoint value (fuel : nat) (l : list token) : option (json * list token) :=
  match fuel with
  | O => None
  | S fuel =>
      match l with
      | TStr s :: l => Some (JStr s, l)
      | TNum d :: l => Some (JNum d, l)
      | TName "true" :: l => Some (JBool true, l)
      | TName "false" :: l => Some (JBool false, l)
      | TName "null" :: l => Some (JNull, l)
      | TP "[" :: TP "]" :: l => Some (JArr [], l)
      | TP "[" :: l => match elements fuel l with Some (x, l) => Some (JArr x, l) | None => None end
      | TP "{" :: TP "}" :: l => Some (JObj [], l)
      | TP "{" :: l => match members fuel l with Some (x, l) => Some (JObj x, l) | None => None end
      | _ => None
      end
  end
with elements (fuel : nat) (l : list token) : option (list json * list token) :=
  match fuel with
  | O => None
  | S fuel =>
      match value fuel l with
      | Some (v, TP "]" :: l) => Some ([v], l)
      | Some (v, TP "," :: l) => match elements fuel l with Some (vs, l) => Some (v :: vs, l) | None => None end
      | _ => None
      end
  end
with members (fuel : nat) (l : list token) : option (list (string * json) * list token) :=
  match fuel with
  | O => None
  | S fuel =>
      match l with
      | TStr k :: TP ":" :: l =>
          match value fuel l with
          | Some (v, TP "}" :: l) => Some ([(k, v)], l)
          | Some (v, TP "," :: l) => match members fuel l with Some (vs, l) => Some ((k, v) :: vs, l) | None => None end
          | _ => None
          end
      | _ => None
      end
  end.
(** One value and nothing after it. *)
Definition read_json (s : string) : option json :=
  match words (String.length s) s with
  | Some l => match value (2 * length l) l with Some (v, []) => Some v | _ => None end
  | None => None
  end.

(** ** A report as JSON *)
Definition named (c : category) : string :=
  nth (match c with MissingPart => 0 | Relationship => 1 | ContentType => 2 | Presentation => 3 | SlideMaster => 4 | Slide => 5 | Chart => 6 | Xml => 7 | Theme => 8 end)
    ["MissingPart"; "Relationship"; "ContentType"; "Presentation"; "SlideMaster"; "Slide"; "Chart"; "Xml"; "Theme"] "".
Definition finding_json (i : finding) : json :=
  JObj [("severity", JStr (match f_severity i with Error => "error" | Warning => "warning" end));
        ("category", JStr (named (f_category i)));
        ("path", match f_path i with Some p => JStr p | None => JNull end);
        ("message", JStr (f_message i))].
Fixpoint how_many (v : severity) (r : list finding) : nat :=
  match r with
  | [] => 0
  | i :: r => match v, f_severity i with Error, Error | Warning, Warning => S (how_many v r) | _, _ => how_many v r end
  end.
Definition report_json (file : string) (r : list finding) : json :=
  JObj [("file", JStr file); ("valid", JBool (Nat.eqb (how_many Error r) 0)); ("error_count", JNum (decn (how_many Error r)));
        ("warning_count", JNum (decn (how_many Warning r))); ("issues", JArr (map finding_json r))].

(** ** A report for people: its lines *)
Definition line_for (i : finding) : list string :=
  ["[" ++ (match f_severity i with Error => "ERROR" | Warning => "WARNING" end) ++ "] " ++ named (f_category i) ++ "  " ++ (match f_path i with Some p => p | None => "-" end);
   "  " ++ f_message i].
Definition report_head (file : string) (r : list finding) : list string :=
  ["Validating PPTX file: " ++ file; "============================================================";
   "Summary: " ++ decn (how_many Error r) ++ " error(s), " ++ decn (how_many Warning r) ++ " warning(s)"; ""].
Definition report_lines (file : string) (r : list finding) : list string :=
  (report_head file r
   ++ (match r with [] => ["✓ Validation PASSED — no issues found"] | _ => flat_map line_for r
         ++ ["" ; if Nat.eqb (how_many Error r) 0 then "✓ Validation PASSED (warnings only)" else "✗ Validation FAILED"] end)
   ++ (if Nat.eqb (how_many Error r) 0 then [""; "✓ Validation completed successfully"] else []))%list.
Definition without (c : ascii) (s : string) : Prop := forall a b, s <> a ++ String c b.
Definition one_liners (r : list finding) : Prop := Forall (fun i => without LF (f_message i) /\ forall p, f_path i = Some p -> without LF p) r.
(** The lines of a text that ends its last line too. *)
Definition of_lines (l : list string) : string := fold_right (fun x t => x ++ nl ++ t) "" l.

(** ** Paths *)
(** The name of a file: not empty, without slash, and not one of the two
    directory names. *)
Definition file_name_ok (n : string) : Prop := n <> "" /\ without "/" n /\ n <> "." /\ n <> "..".
(** A directory as one writes it: not empty, and not ending in a slash or in "/.". *)
Definition directory_ok (d : string) : Prop := d <> "" /\ forall a, d <> a ++ "/" /\ d <> a ++ "/.".
(** A name without its ending, if it has one. *)
Definition stem_of (n stem : string) : Prop :=
  (exists ext, n = stem ++ "." ++ ext /\ without "." ext /\ stem <> "") \/ (n = stem /\ forall a b, n = a ++ "." ++ b -> a = "").
(** ** Endings, in letters of either kind *)
Definition capitals : list (ascii * ascii) := combine (list_ascii_of_string "ABCDEFGHIJKLMNOPQRSTUVWXYZ") (list_ascii_of_string "abcdefghijklmnopqrstuvwxyz").
Definition same_letter (x y : ascii) : Prop := x = y \/ In (x, y) capitals.
Definition ends_in (e s : string) : Prop := exists a b, s = a ++ b /\ Forall2 same_letter (list_ascii_of_string b) (list_ascii_of_string e).
