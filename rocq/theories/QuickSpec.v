(** What quick decks and quick tables should hold. *)
From Coq Require Import String Ascii List Bool Arith NArith.
From Verif Require Import Str Num XmlSpec TableModel ShapeModel SlideModel SlideWant SlideBackSpec DeckModel DeckInput ReaderModel WebSpec QuickModel.
Import ListNotations.
Open Scope nat_scope.
Open Scope string_scope.

(** ** Decks: the calls, in order *)
Inductive call := Bullets (title : string) (bullets : list string) | OnlyTitle (title : string) | Own (s : slide) | Drawn (title : string) (shapes : list shape).
Definition make (title : string) (calls : list call) : quick :=
  fold_left (fun q c => match c with Bullets t l => quick_slide t l q | OnlyTitle t => quick_title_slide t q | Own s => quick_content_slide s q | Drawn t l => quick_shapes_slide t l q end) calls (quick_new title).
(** Slides a file can hold and a reader can give back *)
Definition slide_good (s : slide) : bool := deck_slide_ok s && slide_fits s && sizes_ok s.
Definition call_ok (c : call) : bool :=
  match c with
  | Bullets t l => text_ok t && forallb text_ok l
  | OnlyTitle t => text_ok t
  | Own s => slide_good s
  | Drawn t l => slide_good (with_shapes l (slide_new t))
  end.
(** What a reader finds for a call *)
Definition call_read (r : pslide) (c : call) : Prop :=
  match c with
  | Bullets t l => page_read r (t, l)
  | OnlyTitle t => page_read r (t, [])
  | Own s => given_back s r
  | Drawn t l => sl_title r = Some (visible t) /\ sl_body r = [] /\ sl_tables r = []
      /\ exists front back, sl_shapes r = (front ++ back)%list /\ Forall (fun p => ps_title p || ps_body p = true) front /\ Forall2 back_shape back l
  end.
(** A deck of which only the number of slides is given: slide [k] *)
Definition numbered_title (k : nat) : string := if Nat.eqb k 1 then "Presentation" else "Slide " ++ decn k.

(** ** Tables *)
Inductive content := Heads (l : list string) | Texts (l : list string) | Cells (l : list cell).
Definition plain_cell (c : cell) (t : string) : Prop := ctext c = t /\ cbold c = false /\ text_color c = None /\ background c = None /\ row_span_of c = None /\ grid_span c = None /\ h_merge c = false /\ v_merge c = false.
Definition head_cell (c : cell) (t : string) : Prop :=
  ctext c = t /\ cbold c = true /\ text_color c = Some "FFFFFF" /\ background c = Some "1F4E79" /\ calign c = ACenter /\ row_span_of c = None /\ grid_span c = None /\ h_merge c = false /\ v_merge c = false.
Definition row_like (r : row) (w : content) : Prop :=
  match w with Heads l => Forall2 head_cell (cells r) l | Texts l => Forall2 plain_cell (cells r) l | Cells l => cells r = l end.
(** [cols] columns as wide as ten inches allow when they are equal *)
Definition equal_columns (cols : nat) (ws : list N) : Prop :=
  exists w, ws = repeat w cols /\ (w * N.of_nat cols <= 9144000 < (w + 1) * N.of_nat cols)%N.
(** The calls that fill a quick table *)
Inductive fill := Header (l : list string) | TextRow (l : list string) | StyledRow (l : list cell) | TextRows (data : list (list string)) | At (x y : N).
Definition fill_step (t : table) (f : fill) : table :=
  match f with Header l => qt_header l t | TextRow l => qt_row l t | StyledRow l => qt_styled_row l t | TextRows d => qt_rows d t | At x y => qt_at x y t end.
Definition contents (f : fill) : list content :=
  match f with Header l => [Heads l] | TextRow l => [Texts l] | StyledRow l => [Cells l] | TextRows d => map Texts d | At _ _ => [] end.
Fixpoint last_place (p : N * N) (l : list fill) : N * N := match l with [] => p | At x y :: l => last_place (x, y) l | _ :: l => last_place p l end.
