(** An independent reader for the XML the crate emits.

    This is a specification: a character-at-a-time reader for the subset of
    XML 1.0 made of elements, attributes, character data, the five predefined
    entities and processing instructions (which are skipped).  It has no
    comments, CDATA, DOCTYPE or numeric references: a document using them is
    rejected, so "the reader accepts" is stronger than "is well-formed" on
    those points.  It enforces: matching tags, one root element, XML names
    (ASCII letters, digits, '_', ':', '-', '.' and any byte above 127),
    no '<' in attribute values, a declared entity after every '&', no
    duplicate attribute, and the character range of XML 1.0 section 2.2 for
    the ASCII range (no control characters except tab, line feed and carriage
    return).  It applies end-of-line handling (section 2.11) and
    attribute-value normalisation (section 3.3.3). *)
From Coq Require Import String Ascii List Bool NArith.
Import ListNotations.
Open Scope string_scope.

Inductive node :=
| Elem (name : string) (attrs : list (string * string)) (kids : list node)
| Txt (text : string).

Definition c_quot : ascii := "034"%char.
Definition c_apos : ascii := "039"%char.
Definition c_tab : ascii := "009"%char.
Definition c_lf : ascii := "010"%char.
Definition c_cr : ascii := "013"%char.

Definition in_range (lo hi : N) (c : ascii) : bool :=
  N.leb lo (N_of_ascii c) && N.leb (N_of_ascii c) hi.

(** Section 2.2, Char. *)
Definition xml_char (c : ascii) : bool :=
  in_range 32 255 c || Ascii.eqb c c_tab || Ascii.eqb c c_lf || Ascii.eqb c c_cr.

(** Section 2.3, S. *)
Definition xml_space (c : ascii) : bool :=
  Ascii.eqb c " " || Ascii.eqb c c_tab || Ascii.eqb c c_lf || Ascii.eqb c c_cr.

(** Section 2.3, NameStartChar and NameChar. *)
Definition name_start (c : ascii) : bool :=
  in_range 65 90 c || in_range 97 122 c || in_range 128 255 c || Ascii.eqb c "_" || Ascii.eqb c ":".
Definition name_char (c : ascii) : bool :=
  name_start c || in_range 48 57 c || Ascii.eqb c "-" || Ascii.eqb c ".".

Definition is_name (s : string) : bool :=
  match s with
  | "" => false
  | String c s' =>
      name_start c &&
      (fix all (s : string) := match s with "" => true | String c s => name_char c && all s end) s'
  end.

(** Section 4.6, predefined entities. *)
Definition entity (e : string) : option ascii :=
  if String.eqb e "amp" then Some "&"%char
  else if String.eqb e "lt" then Some "<"%char
  else if String.eqb e "gt" then Some ">"%char
  else if String.eqb e "quot" then Some c_quot
  else if String.eqb e "apos" then Some c_apos
  else None.

Definition snoc (s : string) (c : ascii) : string := s ++ String c "".

Record frame := Frame { f_name : string; f_attrs : list (string * string); f_kids : list node }.

Inductive lex :=
| LText (b : string)                                            (* character data *)
| LEnt (b e : string)                                           (* after & in character data *)
| LLt                                                           (* after < *)
| LPI | LPIq                                                    (* in <? ... ?> *)
| LOpen (n : string)                                            (* element name *)
| LTag (n : string) (a : list (string * string))                (* white space inside a start tag *)
| LAttr (n : string) (a : list (string * string)) (k : string)  (* attribute name *)
| LEq (n : string) (a : list (string * string)) (k : string)    (* after = *)
| LVal (n : string) (a : list (string * string)) (k : string) (q : ascii) (v : string)
| LValEnt (n : string) (a : list (string * string)) (k : string) (q : ascii) (v e : string)
| LAfter (n : string) (a : list (string * string))              (* after the closing quote *)
| LSlash (n : string) (a : list (string * string))              (* after / in a start tag *)
| LClose (n : string)                                           (* end tag name *)
| LCloseWs (n : string).

(** Reader state: lexer state and the stack of open elements, innermost
    first, the last frame being the document itself.  [f_kids] is in reverse
    order. *)
Record st := St { lx : lex; stack : list frame }.

Definition add_kid (x : node) (fs : list frame) : list frame :=
  match fs with
  | [] => []
  | Frame n a k :: fs => Frame n a (x :: k) :: fs
  end.

Definition flush (b : string) (fs : list frame) : list frame :=
  if String.eqb b "" then fs else add_kid (Txt b) fs.

Definition has_key (k : string) (a : list (string * string)) : bool :=
  existsb (fun p => String.eqb k (fst p)) a.

(** End of a start tag. *)
Definition open_elem (n : string) (a : list (string * string)) (fs : list frame) : option st :=
  Some (St (LText "") (Frame n a [] :: fs)).
Definition empty_elem (n : string) (a : list (string * string)) (fs : list frame) : option st :=
  Some (St (LText "") (add_kid (Elem n a []) fs)).
Definition close_elem (n : string) (fs : list frame) : option st :=
  match fs with
  | Frame m a k :: f :: fs' =>
      if String.eqb n m then Some (St (LText "") (add_kid (Elem m a (rev k)) (f :: fs'))) else None
  | _ => None
  end.

Definition step1 (l : lex) (fs : list frame) (c : ascii) : option st :=
  match l with
  | LText b =>
      if Ascii.eqb c "<" then Some (St LLt (flush b fs))
      else if Ascii.eqb c "&" then Some (St (LEnt b "") fs)
      else Some (St (LText (snoc b c)) fs)
  | LEnt b e =>
      if Ascii.eqb c ";" then
        match entity e with Some x => Some (St (LText (snoc b x)) fs) | None => None end
      else if name_char c then Some (St (LEnt b (snoc e c)) fs) else None
  | LLt =>
      if Ascii.eqb c "/" then Some (St (LClose "") fs)
      else if Ascii.eqb c "?" then Some (St LPI fs)
      else if name_start c then Some (St (LOpen (String c "")) fs) else None
  | LPI => if Ascii.eqb c "?" then Some (St LPIq fs) else Some (St LPI fs)
  | LPIq =>
      if Ascii.eqb c ">" then Some (St (LText "") fs)
      else if Ascii.eqb c "?" then Some (St LPIq fs) else Some (St LPI fs)
  | LOpen n =>
      if name_char c then Some (St (LOpen (snoc n c)) fs)
      else if xml_space c then Some (St (LTag n []) fs)
      else if Ascii.eqb c "/" then Some (St (LSlash n []) fs)
      else if Ascii.eqb c ">" then open_elem n [] fs else None
  | LTag n a =>
      if xml_space c then Some (St (LTag n a) fs)
      else if Ascii.eqb c "/" then Some (St (LSlash n a) fs)
      else if Ascii.eqb c ">" then open_elem n a fs
      else if name_start c then Some (St (LAttr n a (String c "")) fs) else None
  | LAttr n a k =>
      if name_char c then Some (St (LAttr n a (snoc k c)) fs)
      else if Ascii.eqb c "=" then if has_key k a then None else Some (St (LEq n a k) fs)
      else None
  | LEq n a k =>
      if Ascii.eqb c c_quot || Ascii.eqb c c_apos then Some (St (LVal n a k c "") fs) else None
  | LVal n a k q v =>
      if Ascii.eqb c q then Some (St (LAfter n (a ++ [(k, v)])%list) fs)
      else if Ascii.eqb c "<" then None
      else if Ascii.eqb c "&" then Some (St (LValEnt n a k q v "") fs)
      else if xml_space c then Some (St (LVal n a k q (snoc v " ")) fs)
      else Some (St (LVal n a k q (snoc v c)) fs)
  | LValEnt n a k q v e =>
      if Ascii.eqb c ";" then
        match entity e with Some x => Some (St (LVal n a k q (snoc v x)) fs) | None => None end
      else if name_char c then Some (St (LValEnt n a k q v (snoc e c)) fs) else None
  | LAfter n a =>
      if xml_space c then Some (St (LTag n a) fs)
      else if Ascii.eqb c "/" then Some (St (LSlash n a) fs)
      else if Ascii.eqb c ">" then open_elem n a fs else None
  | LSlash n a => if Ascii.eqb c ">" then empty_elem n a fs else None
  | LClose n =>
      if (if String.eqb n "" then name_start c else name_char c) then Some (St (LClose (snoc n c)) fs)
      else if Ascii.eqb c ">" then close_elem n fs
      else if xml_space c then Some (St (LCloseWs n) fs) else None
  | LCloseWs n =>
      if Ascii.eqb c ">" then close_elem n fs
      else if xml_space c then Some (St (LCloseWs n) fs) else None
  end.

Definition xstep (o : option st) (c : ascii) : option st :=
  match o with
  | Some (St l fs) => if xml_char c then step1 l fs c else None
  | None => None
  end.

Fixpoint xrun (s : string) (o : option st) : option st :=
  match s with
  | "" => o
  | String c s' => xrun s' (xstep o c)
  end.

(** Section 2.11: CR LF and a lone CR are read as LF. *)
Fixpoint eol (s : string) : string :=
  match s with
  | "" => ""
  | String c s' =>
      if Ascii.eqb c c_cr then
        match s' with
        | String d s'' => if Ascii.eqb d c_lf then String c_lf (eol s'') else String c_lf (eol s')
        | "" => String c_lf ""
        end
      else String c (eol s')
  end.

Fixpoint blank (s : string) : bool :=
  match s with "" => true | String c s' => xml_space c && blank s' end.

Definition is_blank_text (x : node) : bool :=
  match x with Txt s => blank s | Elem _ _ _ => false end.

(** The document frame must hold one element and otherwise only white space. *)
Definition root_of (kids : list node) : option node :=
  match filter (fun x => negb (is_blank_text x)) kids with
  | [Elem n a k] => Some (Elem n a k)
  | _ => None
  end.

Definition start : option st := Some (St (LText "") [Frame "" [] []]).

Definition xml_read (s : string) : option node :=
  match xrun (eol s) start with
  | Some (St (LText b) fs) =>
      match flush b fs with
      | [Frame _ _ k] => root_of (rev k)
      | _ => None
      end
  | _ => None
  end.

(** A document is accepted when it reads as a tree. *)
Definition well_formed (s : string) : Prop := exists t, xml_read s = Some t.

(** Strings that survive a round trip unchanged: only XML characters, and no
    carriage return (text) or no white space other than blanks (attributes). *)
Fixpoint text_ok (s : string) : bool :=
  match s with "" => true | String c s' => xml_char c && negb (Ascii.eqb c c_cr) && text_ok s' end.
Fixpoint attr_ok (s : string) : bool :=
  match s with
  | "" => true
  | String c s' =>
      xml_char c && negb (Ascii.eqb c c_cr || Ascii.eqb c c_lf || Ascii.eqb c c_tab) && attr_ok s'
  end.
Fixpoint chars_ok (s : string) : bool :=
  match s with "" => true | String c s' => xml_char c && chars_ok s' end.

(** What the reader is entitled to return for a list of written nodes:
    adjacent text is one text node and empty text is no node. *)
Fixpoint merge_text (l : list node) : list node :=
  match l with
  | [] => []
  | Txt a :: l' =>
      match merge_text l' with
      | Txt b :: m => Txt (a ++ b) :: m
      | m => if String.eqb a "" then m else Txt a :: m
      end
  | Elem n a k :: l' => Elem n a k :: merge_text l'
  end.
