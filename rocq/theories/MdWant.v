(** The document a presentation should give, from its description. *)
From Coq Require Import String Ascii List Bool Arith NArith.
From Verif Require Import Str EscapeSpec TableModel ShapeModel SlideModel DeckModel ExportModel MdSpec.
Import ListNotations.
Open Scope nat_scope.
Open Scope string_scope.

(** Which slides are exported faithfully. *)
Definition md_row_ok (r : row) : bool := forallb (fun c => md_cell (ctext c)) (cells r).
Definition md_slide_ok (s : slide) : bool :=
  md_text (s_title s) && forallb md_item (s_content s)
  && match s_table s with Some t => forallb md_row_ok (rows t) | None => true end
  && forallb (fun i => String.eqb (im_format i) "PNG" || String.eqb (im_format i) "JPEG") (s_images s)
  && forallb (fun c => one_line (cb_lang c) && md_codes (cb_code c)) (s_code s)
  && match s_notes s with Some n => md_item n | None => true end.

Definition want_row (r : row) : block := Row (map (fun c => Plain (ctext c)) (cells r)).
(** The header, the line of dashes, and the other rows. *)
Definition want_table (t : table) : list block :=
  match rows t with [] => [] | h :: l => want_row h :: Row (map (fun _ => Plain "---") (cells h)) :: map want_row l end.
Definition want_image (n : nat) (p : nat * image) : block :=
  Line ("![Image " ++ decn (fst p) ++ " on slide " ++ decn n ++ "](images/slide" ++ decn n ++ "_image" ++ decn (fst p)
        ++ (if String.eqb (im_format (snd p)) "PNG" then ".png" else ".jpg") ++ ")").
Definition numbered_from1 {A} (l : list A) : list (nat * A) := combine (seq 1 (length l)) l.
(** The [n]-th slide, counted from 1. *)
Definition want_slide (o : md_options) (p : nat * slide) : list block :=
  let (n, s) := p in
  ((if Nat.ltb 1 n || mo_numbers o then read_line (mo_separator o) else [])
  ++ [Heading 2 (Plain (if mo_numbers o then "Slide " ++ decn n ++ ": " ++ s_title s else s_title s))]
  ++ map (fun t => Item (Plain t)) (s_content s)
  ++ (if mo_tables o then match s_table s with Some t => want_table t | None => [] end else [])
  ++ (if mo_images o then map (want_image n) (numbered_from1 (s_images s)) else [])
  ++ map (fun c => Fenced (cb_lang c) (split_char LF (cb_code c))) (s_code s)
  ++ match s_notes s with Some t => if mo_notes o && negb (String.eqb t "") then [Line "**Notes:**"; Quote (Plain t)] else [] | None => [] end)%list.
Definition want_doc (o : md_options) (title : string) (slides : list slide) : list block :=
  (Heading 1 (Plain title) :: flat_map (want_slide o) (numbered_from1 slides))%list.
(** A separator of one line that does not open a code block; a title without
    markup (it is not escaped). *)
Definition sep_ok (o : md_options) : bool := one_line (mo_separator o) && match strip_prefix "```" (mo_separator o) with None => true | Some _ => false end.
Definition title_ok (t : string) : bool := md_text t && sforall (fun c => negb (md_active c || Ascii.eqb c "\")) t.
