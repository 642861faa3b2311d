(** What the stand-alone layouts should show. *)
From Coq Require Import String Ascii List Bool Arith NArith ZArith.
From Verif Require Import Str Num XmlSpec OpcSpec XmlPath LookSpec TableModel TableSpec ShapeModel SlideModel SlideSpec SlideWant.
Import ListNotations.
Open Scope nat_scope.
Open Scope string_scope.

(** Only the layout of two columns takes sizes in points; the others take them in
    hundredths of a point. *)
Definition lay_size (s : slide) (o : option N) (two other : N) : string :=
  match s_layout s with TwoColumn => points (or_default o two) | _ => dec (or_default o other) end.
(** Alignment and look of the title. *)
Definition lay_title_want (s : slide) :=
  (match s_layout s with CenteredTitle | SectionHeader => ["ctr"] | _ => [] end,
   [(Some (bit (s_tbold s)), Some (bit (s_titalic s)), on "sng" (s_tunder s), Some (lay_size s (s_tsize s) 44 4400), opt_list (option_map color_value (s_tcolor s)), @nil string)]).
(** One bullet: level, text, size, weight and slant, underline, mark, colour; a
    format of its own is not looked at. *)
Definition lay_view (s : slide) (cu : bool) (b : bullet) :=
  ([dec (b_level b)], b_text b, [(lay_size s (s_csize s) 24 2800, bit (s_cbold s), bit (s_citalic s))], [(on "sng" cu, @None string, @None string)],
   (want_mark (b_style b), [want_colors (s_ccolor s) None None])).
(** In place of an image there is a box of its size with its file name. *)
Definition placeholder (n : node) (i : image) : Prop :=
  shape_name n = ["Image Placeholder: " ++ im_name i]
  /\ placed n = [[("x", dec (im_x i)); ("y", dec (im_y i))]; [("cx", dec (im_w i)); ("cy", dec (im_h i))]]
  /\ shape_paragraphs n = ["📷 " ++ im_name i].
(** The same description with nothing but a title, bullets and their looks. *)
Definition texts_only (s : slide) : slide :=
  Slide (s_title s) (s_content s) (map (fun b => BulletPoint (b_text b) (b_level b) (b_style b) None) (s_bullets s)) (s_style s)
    (s_tsize s) (s_csize s) (s_tbold s) (s_cbold s) (s_titalic s) (s_citalic s) (s_tunder s) (s_tcolor s) (s_ccolor s) (s_layout s)
    NoTransition None [] [] None [] [] [] false.
(** Sizes in points are small enough for the hundredths to fit 32 bits. *)
Definition points_ok (s : slide) : bool := match s_layout s with TwoColumn => SlideWant.size_ok (s_tsize s) && SlideWant.size_ok (s_csize s) | _ => true end.
(** The boxes of the two columns: left edge, top, width and height. *)
Definition left_box : N * N * N * N := (457200, 1189200, 4115100, 5668800)%N.
Definition right_box : N * N * N * N := (4572300, 1189200, 4115100, 5668800)%N.
Definition at_box (b : N * N * N * N) : list (list (string * string)) :=
  match b with (x, y, w, h) => [[("x", dec x); ("y", dec y)]; [("cx", dec w); ("cy", dec h)]] end.
