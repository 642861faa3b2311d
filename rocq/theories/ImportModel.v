(** Model of src/import/mod.rs: a saved presentation as slides to work on. *)
From Coq Require Import String Ascii List Bool Arith NArith ZArith.
From Verif Require Import Str Num XmlSpec PackageModel TableModel ShapeModel SlideModel DeckModel ReaderModel MdParseModel.
Import ListNotations.
Open Scope string_scope.

(** mod.rs:77-97 [map_shape_type] *)
Definition map_shape_type (o : option string) : shape_type :=
  match o with
  | Some name =>
      if String.eqb name "rect" then KRectangle else if String.eqb name "roundRect" then KRoundedRectangle else if String.eqb name "ellipse" then KEllipse
      else if String.eqb name "triangle" then KTriangle else if String.eqb name "rtTriangle" then KRightTriangle else if String.eqb name "diamond" then KDiamond
      else if String.eqb name "pentagon" then KPentagon else if String.eqb name "hexagon" then KHexagon else if String.eqb name "octagon" then KOctagon
      else if String.eqb name "star5" then KStar5 else if String.eqb name "rightArrow" then KRightArrow else KRectangle
  | None => KRectangle
  end.
(** [z.max(0) as u32] *)
Definition as_u32 (z : Z) : N := Z.to_N (Z.max 0 z mod 4294967296).
(** slide_content/content.rs: pushing onto [shapes] *)
Definition push_shape (s : slide) (t : shape) : slide := with_drawing [t] [] s.

Section IMPORT.
  (** The font size computed for a text in a shape of a given width and height
      (see [sh_autofit]): any function. *)
  Variable fit : string -> N -> N -> N.
  (** shapes.rs:654-657 [with_text] *)
  Definition with_text (s : shape) (t : string) : shape :=
    Shape (sh_type s) (sh_x s) (sh_y s) (sh_w s) (sh_h s) (sh_fill s) (sh_gradient s) (sh_line s) (Some t) (sh_id s) (sh_rotation s) (sh_link s) (fit t (sh_w s) (sh_h s)) (sh_dark s).
  (** mod.rs:28-44: one shape *)
  Definition import_shape (p : pshape) : shape :=
    let s := shape_new (map_shape_type (ps_type p)) (as_u32 (ps_x p)) (as_u32 (ps_y p)) (as_u32 (ps_w p)) (as_u32 (ps_h p)) in
    let text := pshape_text p in
    if String.eqb text "" then s else with_text s text.
  Definition add_shape (c : slide) (p : pshape) : slide :=
    if negb (ps_title p) && negb (ps_body p) then push_shape c (import_shape p) else c.
  (** mod.rs:48-69: one table; [TableRow::new] sets no height, [TableBuilder::new]
      puts the table at 0, 0 *)
  Definition add_table (c : slide) (rs : list (list pcell)) : slide :=
    let col_count := match rs with r :: _ => length r | [] => 0%nat end in
    if Nat.eqb col_count 0 then c
    else match s_table c with
         | Some _ => c
         | None => with_table (Table (map (fun r => Row (map (fun x => cell_new (pc_text x)) r) None) rs) (repeat 1828800%N col_count) 0 0) c
         end.
  (** mod.rs:19-71: one slide *)
  Definition import_slide (p : pslide) : slide :=
    let c := slide_new (or "" (sl_title p)) in
    let c := fold_left (fun c t => add_bullet t c) (sl_body p) c in
    let c := fold_left add_shape (sl_shapes p) c in
    fold_left add_table (sl_tables p) c.
  (** mod.rs:11-75 [import_pptx], after the archive has been read; [None] is the
      error.  [keys] is the order of the parts in the hash map. *)
  Definition import_pptx (p : package) (keys : list string) : option presentation :=
    let r := reader_open p keys in
    let q := match i_title (rd_info r) with Some t => Presentation t (p_slides new_presentation) (p_settings new_presentation) | None => new_presentation end in
    match get_all_slides r with
    | Some l => Some (fold_left (fun q s => add_slide q (import_slide s)) l q)
    | None => None
    end.
End IMPORT.
