(** Which slides the theorems about slide parts range over: texts made of
    characters XML can carry, colours of hexadecimal digits (or, for shapes and
    connectors, of anything without XML markup), fonts, custom bullet characters
    and relationship ids without XML markup. *)
From Coq Require Import String Ascii List Bool NArith.
From Verif Require Import Str XmlSpec XmlProofs XmlTpl TableModel TableSpec ConnectorModel ShapeModel SlideModel.
Import ListNotations.
Open Scope string_scope.

Definition link_ok (h : hyperlink) : bool :=
  opt_ok attr_ok (h_tooltip h) && opt_ok (sforall plain_val) (h_rid h).
Definition stop_ok (s : stop) : bool := sforall plain_val (st_color s).
Definition shape_ok (s : shape) : bool :=
  match sh_gradient s with Some g => forallb stop_ok (stops g) | None => match sh_fill s with Some f => sforall plain_val (fl_color f) | None => true end end
  && match sh_line s with Some l => sforall plain_val (ln_color l) | None => true end
  && match sh_text s with Some t => text_ok t | None => true end
  && match sh_link s with Some h => link_ok h | None => true end.
Definition image_ok (i : image) : bool := attr_ok (im_name i) && opt_ok attr_ok (im_alt i).
Definition style_ok (s : bullet_style) : bool := match s with Custom ch => sforall plain_val ch | _ => true end.
Definition format_ok (f : bullet_format) : bool :=
  opt_ok color_ok (bf_color f) && opt_ok color_ok (bf_highlight f) && opt_ok (sforall plain_val) (bf_font f).
Definition bullet_ok (b : bullet) : bool :=
  text_ok (b_text b) && style_ok (b_style b) && match b_format b with Some f => format_ok f | None => true end.
Definition conn_ok (c : connector) : bool := sforall plain_val (line_color c) && opt_ok text_ok (label c).
Definition slide_ok (s : slide) : bool :=
  text_ok (s_title s) && opt_ok color_ok (s_tcolor s) && forallb text_ok (s_content s) && style_ok (s_style s) && forallb bullet_ok (s_bullets s)
  && opt_ok color_ok (s_ccolor s) && match s_table s with Some t => table_ok t | None => true end
  && forallb shape_ok (s_shapes s) && forallb image_ok (s_images s) && forallb conn_ok (s_connectors s) && forallb (fun c => text_ok (cb_code c)) (s_code s).
