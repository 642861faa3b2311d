(** Reading markdown line by line, written without the model: the blocks the
    exported documents use, and the document a presentation should give. *)
From Coq Require Import String Ascii List Bool Arith NArith.
From Verif Require Import Str EscapeSpec.
Import ListNotations.
Open Scope nat_scope.
Open Scope string_scope.

(** Text of a heading, list item, quote or table cell: [Plain] when nothing in
    it is markup (every character that could start some is escaped, there are
    no character references and no strike-through), else [Marked]. *)
Inductive inline := Plain (t : string) | Marked (raw : string).
Definition no_ref (c : ascii) : bool := negb (Ascii.eqb c "&" || Ascii.eqb c "~").
Definition read_inline (raw : string) : inline := if md_inert raw && sforall no_ref raw then Plain (md_unescape ascii_punct raw) else Marked raw.
(** Text that would start another list, or a code block, inside an item or quote. *)
Definition list_mark (s : string) : bool :=
  starts_with "- " s || starts_with "+ " s || starts_with " " s || starts_with (String "009" "") s || starts_with "|" s
  || match s with String c _ => is_digit c | "" => false end.
Definition read_item (raw : string) : inline := if list_mark raw then Marked raw else read_inline raw.

Inductive block :=
| Heading (level : nat) (t : inline) | Item (t : inline) | Quote (t : inline)
| Row (cells : list inline)
| Fenced (lang : string) (lines : list string)
| Line (l : string).

(** The cells of a table line: between bars, without one space on each side. *)
Definition trim_one (s : string) : string :=
  let s := match s with String " " r => r | _ => s end in
  match srev s with String " " r => srev r | _ => s end.
Definition read_cells (l : string) : list inline := map (fun c => read_inline (trim_one c)) (removelast (split_char "|" l)).

(** A line outside a code block; empty lines are skipped. *)
Definition read_line (l : string) : list block :=
  match strip_prefix "## " l with Some t => [Heading 2 (read_inline t)] | None =>
  match strip_prefix "# " l with Some t => [Heading 1 (read_inline t)] | None =>
  match strip_prefix "- " l with Some t => [Item (read_item t)] | None =>
  match strip_prefix "> " l with Some t => [Quote (read_item t)] | None =>
  match strip_prefix "|" l with Some t => [Row (read_cells t)] | None =>
  if String.eqb l "" then [] else [Line l] end end end end end.

(** Lines with code blocks: from a line starting with three backticks to the
    next such line. *)
Fixpoint blocks (open : option (string * list string)) (ls : list string) : list block :=
  match ls with
  | [] => match open with Some (lang, acc) => [Fenced lang (rev acc)] | None => [] end
  | l :: r =>
      match open with
      | Some (lang, acc) => if starts_with "```" l then Fenced lang (rev acc) :: blocks None r else blocks (Some (lang, l :: acc)) r
      | None => match strip_prefix "```" l with Some lang => blocks (Some (lang, [])) r | None => (read_line l ++ blocks None r)%list end
      end
  end.
Definition read_md (doc : string) : list block := blocks None (split_char LF doc).

(** Texts that fit in one line and are not taken for something else. *)
Definition one_line (s : string) : bool := sforall (fun c => negb (Ascii.eqb c LF || Ascii.eqb c "013")) s.
Definition md_text (s : string) : bool := one_line s && sforall no_ref s.
Definition md_item (s : string) : bool := md_text s && negb (list_mark s).
Definition md_cell (s : string) : bool := md_text s && sforall (fun c => negb (Ascii.eqb c "|")) s.
Definition md_codes (s : string) : bool := forallb (fun l => negb (starts_with "```" l)) (split_char LF s).
