(** What a reader should give back for a slide the caller described. *)
From Coq Require Import String Ascii List Bool Arith NArith ZArith.
From Verif Require Import Str Num XmlSpec TableModel ShapeModel SlideModel SlideSpec SlideWant GeomSpec ReaderModel.
Import ListNotations.
Open Scope string_scope.

(** White space alone is not kept by the reader. *)
Definition nonblank (t : string) : bool := negb (blank t).
Definition visible (t : string) : string := if blank t then "" else t.
(** The bullets a slide of this layout shows. *)
Definition shown_bullets (s : slide) : list bullet :=
  match s_layout s with
  | TitleAndContent => match s_table s with None => wanted s | Some _ => [] end
  | TitleAndBigContent | TwoColumn => wanted s
  | _ => []
  end.
(** The size of bullet text when the caller gives none, in points. *)
Definition usual_size (s : slide) : N := match s_layout s with TwoColumn => 24 | _ => 28 end.
(** Colours are given back without number sign, in upper case. *)
Definition back_color (c : option string) : option string := option_map clean c.
(** A bullet as the reader should give it. *)
Definition back_bullet (s : slide) (b : bullet) : para :=
  let size := or_default (s_csize s) (usual_size s) in
  match b_format b with
  | None => Para [Run (b_text b) (s_cbold s) (s_citalic s) false (Some (size * 100)%N) (back_color (s_ccolor s))] (b_level b)
  | Some f => Para [Run (b_text b) (bf_bold f || s_cbold s) (bf_italic f || s_citalic s) (bf_underline f)
                      (Some (or_default (bf_size f) size * 100)%N)
                      (back_color (match bf_color f with Some c => Some c | None => s_ccolor s end))] (b_level b)
  end.
(** The table of the slide: texts, and row and column spans. *)
Definition back_cell (c : cell) : pcell :=
  if h_merge c || v_merge c then PCell "" 1 1
  else PCell (visible (ctext c)) (N.max 1 (or_default (row_span_of c) 1%N)) (N.max 1 (or_default (grid_span c) 1%N)).
Definition back_tables (s : slide) : list (list (list pcell)) :=
  match s_layout s, s_table s with
  | TitleAndContent, Some t =>
      match filter (fun r => match r with [] => false | _ => true end) (map (fun r => map back_cell (cells r)) (rows t)) with [] => [] | l => [l] end
  | _, _ => []
  end.
(** A listing starts with its language in brackets, on a line of its own. *)
Definition listing (u : string) : Prop := exists a b, u = "[" ++ a ++ "]" ++ nl ++ b.
(** A shape: geometry, place, size, text (a listing line by line, other text
    whole). *)
Definition back_shape (p : pshape) (t : shape) : Prop :=
  match figure (sh_type t) with Some g => ps_type p = Some g | None => exists g, ps_type p = Some g /\ ~ In g preset_figures end
  /\ (ps_x p, ps_y p, ps_w p, ps_h p) = (Z.of_N (sh_x t), Z.of_N (sh_y t), Z.of_N (sh_w t), Z.of_N (sh_h t))
  /\ match sh_text t with
     | Some u => (listing u -> map para_text (ps_paras p) = filter nonblank (lines u)) /\ (~ listing u -> map para_text (ps_paras p) = filter nonblank [u])
     | None => ps_paras p = []
     end
  /\ ps_title p = false /\ ps_body p = false.
(** A code block: a rectangle of its place and size; its text is not read (see
    C53_code_refuted). *)
Definition back_code (p : pshape) (c : code_block) : Prop :=
  ps_type p = Some "rect" /\ (ps_x p, ps_y p, ps_w p, ps_h p) = (cb_x c, cb_y c, cb_w c, cb_h c) /\ ps_paras p = [] /\ ps_title p = false /\ ps_body p = false.
(** [r] is what the reader should give for the slide [s]. *)
Definition given_back (s : slide) (r : pslide) : Prop :=
  sl_title r = match s_layout s with Blank => None | _ => Some (visible (s_title s)) end
  /\ sl_body r = filter nonblank (map b_text (shown_bullets s))
  /\ flat_map ps_paras (filter ps_body (sl_shapes r)) = map (back_bullet s) (filter (fun b => nonblank (b_text b)) (shown_bullets s))
  /\ sl_tables r = back_tables s
  /\ exists front us cs, sl_shapes r = (front ++ us ++ cs)%list /\ Forall (fun p => ps_title p || ps_body p = true) front
     /\ Forall2 back_shape us (s_shapes s) /\ Forall2 back_code cs (s_code s).
(** Numbers of the width the caller's types have: u32, and i64 for code blocks. *)
Definition span_fits (o : option N) : bool := match o with Some n => (n <=? u32_max)%N | None => true end.
Definition i64_fits (z : Z) : bool := (Z.leb (-9223372036854775808) z && Z.leb z 9223372036854775807)%Z.
Definition slide_fits (s : slide) : bool :=
  forallb (fun b => (b_level b <=? u32_max)%N) (s_bullets s)
  && match s_table s with
     | Some t => forallb (fun r => forallb (fun c => span_fits (row_span_of c) && span_fits (grid_span c)) (cells r)) (rows t)
     | None => true
     end
  && forallb (fun t => forallb (fun n => n <=? u32_max)%N [sh_x t; sh_y t; sh_w t; sh_h t]) (s_shapes s)
  && forallb (fun c => forallb i64_fits [cb_x c; cb_y c; cb_w c; cb_h c]) (s_code s).
