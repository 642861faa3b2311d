(** Reading HTML as tags and texts, written without the model.

    Every [<] opens a tag that runs to the next [>]; the texts of style and
    script elements run to the next [</]; elsewhere the references to the four
    named characters and to the apostrophe are decoded and any other use of
    [&] is an error.  Text made of white space only is skipped. *)
From Coq Require Import String Ascii List Bool Arith NArith.
From Verif Require Import Str.
Import ListNotations.
Open Scope nat_scope.
Open Scope string_scope.

Inductive token := Tag (t : string) | Text (t : string).
Inductive hstate := HText (b : string) | HRef (b e : string) | HTag (b : string) | HRaw (b : string) | HRawLt (b : string).

Definition blank (s : string) : bool := sforall (fun c => Ascii.eqb c " " || Ascii.eqb c "009" || Ascii.eqb c "010" || Ascii.eqb c "013") s.
Definition text (s : string) : list token := if blank s then [] else [Text s].
Definition reference (e : string) : option string :=
  if String.eqb e "amp" then Some "&" else if String.eqb e "lt" then Some "<" else if String.eqb e "gt" then Some ">"
  else if String.eqb e "quot" then Some (s1 "034") else if String.eqb e "#39" then Some "'" else None.
Definition add (b : string) (c : ascii) : string := b ++ s1 c.

Definition hstep (st : option (hstate * list token)) (c : ascii) : option (hstate * list token) :=
  match st with
  | None => None
  | Some (HText b, out) =>
      if Ascii.eqb c "<" then Some (HTag "", (out ++ text b)%list) else if Ascii.eqb c "&" then Some (HRef b "", out) else Some (HText (add b c), out)
  | Some (HRef b e, out) =>
      if Ascii.eqb c ";" then match reference e with Some x => Some (HText (b ++ x), out) | None => None end else Some (HRef b (add e c), out)
  | Some (HTag b, out) =>
      if Ascii.eqb c ">" then Some (if String.eqb b "style" || String.eqb b "script" then HRaw "" else HText "", (out ++ [Tag b])%list) else Some (HTag (add b c), out)
  | Some (HRaw b, out) => if Ascii.eqb c "<" then Some (HRawLt b, out) else Some (HRaw (add b c), out)
  | Some (HRawLt b, out) => if Ascii.eqb c "/" then Some (HTag "/", (out ++ text b)%list) else Some (HRaw (b ++ "<" ++ s1 c), out)
  end.
Definition html_read (s : string) : option (list token) :=
  match sfold hstep s (Some (HText "", [])) with Some (HText b, out) => Some (out ++ text b)%list | _ => None end.

(** Text that HTML shows as it is, inside an element or an attribute. *)
Definition html_plain (s : string) : bool :=
  sforall (fun c => negb (Ascii.eqb c "<" || Ascii.eqb c ">" || Ascii.eqb c "&" || Ascii.eqb c "034" || Ascii.eqb c "'")) s.
