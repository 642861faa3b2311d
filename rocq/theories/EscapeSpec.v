(** Specification of escaping, written without the model. *)
From Coq Require Import String Ascii List Bool.
Import ListNotations.
Open Scope string_scope.

(** [Decodes raw text]: [raw] is XML character data free of markup in which
    every [&] starts a reference to one of the five entities predefined by
    XML 1.0 (section 4.6), and [text] is what it stands for.  The relation is
    a function from [raw] (see [Decodes_functional] in EscapeProofs). *)
Inductive Decodes : string -> string -> Prop :=
| D_nil : Decodes "" ""
| D_amp r t : Decodes r t -> Decodes ("&amp;" ++ r) ("&" ++ t)
| D_lt r t : Decodes r t -> Decodes ("&lt;" ++ r) ("<" ++ t)
| D_gt r t : Decodes r t -> Decodes ("&gt;" ++ r) (">" ++ t)
| D_quot r t : Decodes r t -> Decodes ("&quot;" ++ r) ("""" ++ t)
| D_apos r t : Decodes r t -> Decodes ("&apos;" ++ r) ("'" ++ t)
| D_char c r t :
    c <> "&"%char -> c <> "<"%char -> c <> ">"%char -> c <> """"%char -> c <> "'"%char ->
    Decodes r t -> Decodes (String c r) (String c t).

(** HTML variant: the apostrophe is written as the numeric reference 39. *)
Inductive HtmlDecodes : string -> string -> Prop :=
| H_nil : HtmlDecodes "" ""
| H_amp r t : HtmlDecodes r t -> HtmlDecodes ("&amp;" ++ r) ("&" ++ t)
| H_lt r t : HtmlDecodes r t -> HtmlDecodes ("&lt;" ++ r) ("<" ++ t)
| H_gt r t : HtmlDecodes r t -> HtmlDecodes ("&gt;" ++ r) (">" ++ t)
| H_quot r t : HtmlDecodes r t -> HtmlDecodes ("&quot;" ++ r) ("""" ++ t)
| H_apos r t : HtmlDecodes r t -> HtmlDecodes ("&#39;" ++ r) ("'" ++ t)
| H_char c r t :
    c <> "&"%char -> c <> "<"%char -> c <> ">"%char -> c <> """"%char -> c <> "'"%char ->
    HtmlDecodes r t -> HtmlDecodes (String c r) (String c t).

(** Character [c] occurs in the string. *)
Fixpoint occurs (c : ascii) (s : string) : Prop :=
  match s with
  | "" => False
  | String x s' => x = c \/ occurs c s'
  end.

(** CommonMark backslash escapes: a backslash followed by an ASCII character
    that [escapable] accepts stands for that character. *)
Fixpoint md_unescape (escapable : ascii -> bool) (s : string) : string :=
  match s with
  | "" => ""
  | String "\" (String c s') =>
      if escapable c then String c (md_unescape escapable s')
      else String "\" (String c (md_unescape escapable s'))
  | String c s' => String c (md_unescape escapable s')
  end.

(** ASCII punctuation, the set CommonMark allows to be escaped. *)
Definition ascii_punct (c : ascii) : bool :=
  let n := nat_of_ascii c in
  (Nat.leb 33 n && Nat.leb n 47) || (Nat.leb 58 n && Nat.leb n 64)
  || (Nat.leb 91 n && Nat.leb n 96) || (Nat.leb 123 n && Nat.leb n 126).

(** The characters that start inline markup or raw HTML in the exported
    documents and that must not appear bare. *)
Definition md_active (c : ascii) : bool :=
  match c with
  | "*"%char | "_"%char | "["%char | "]"%char | "`"%char | "#"%char | "<"%char | ">"%char => true
  | _ => false
  end.

(** Every active character is preceded by an (unescaped) backslash. *)
Fixpoint md_inert (s : string) : bool :=
  match s with
  | "" => true
  | String "\" (String _ s') => md_inert s'
  | String c s' => negb (md_active c) && md_inert s'
  end.
