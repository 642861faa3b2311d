(** What importing a saved presentation should keep of it. *)
From Coq Require Import String Ascii List Bool Arith NArith ZArith.
From Verif Require Import Str XmlSpec TableModel ShapeModel SlideModel SlideSpec SlideWant SlideBackSpec ReaderModel.
Import ListNotations.
Open Scope string_scope.

(** The kinds of shape that are kept; a circle is an ellipse, any other kind
    becomes a rectangle. *)
Definition kept_kind (k : shape_type) : shape_type :=
  match k with
  | KRectangle | KRoundedRectangle | KEllipse | KTriangle | KRightTriangle | KDiamond | KPentagon | KHexagon | KOctagon | KStar5 | KRightArrow => k
  | KCircle => KEllipse
  | _ => KRectangle
  end.
(** The text of a shape: nothing if blank; of a listing the lines that are not
    blank. *)
Definition some_text (o : option string) : Prop := match o with Some u => u <> "" | None => True end.
Definition text_value (o : option string) : string := match o with Some u => u | None => "" end.
Definition kept_text (u v : option string) : Prop :=
  some_text v /\ match u with
                 | Some u => (listing u -> text_value v = sjoin nl (filter nonblank (lines u))) /\ (~ listing u -> text_value v = visible u)
                 | None => v = None
                 end.
(** A shape: kind, place, size and text; no fill, line, link or turn. *)
Definition kept_shape (v t : shape) : Prop :=
  sh_type v = kept_kind (sh_type t) /\ (sh_x v, sh_y v, sh_w v, sh_h v) = (sh_x t, sh_y t, sh_w t, sh_h t) /\ kept_text (sh_text t) (sh_text v)
  /\ sh_fill v = None /\ sh_gradient v = None /\ sh_line v = None /\ sh_id v = None /\ sh_rotation v = None /\ sh_link v = None.
(** Of a code block only the frame stays. *)
Definition clamp (z : Z) : N := Z.to_N (Z.max 0 z mod 4294967296).
Definition kept_code (v : shape) (c : code_block) : Prop := v = shape_new KRectangle (clamp (cb_x c)) (clamp (cb_y c)) (clamp (cb_w c)) (clamp (cb_h c)).
(** The texts of the table a slide shows, row by row. *)
Definition shown_cells (s : slide) : list (list string) :=
  match s_layout s, s_table s with
  | TitleAndContent, Some t =>
      filter (fun r => match r with [] => false | _ => true end)
        (map (fun r => map (fun c => if h_merge c || v_merge c then "" else visible (ctext c)) (cells r)) (rows t))
  | _, _ => []
  end.
(** A plain table: columns of two inches, as many as the first row has cells. *)
Definition plain_table (g : list (list string)) : option table :=
  match g with [] => None | r :: _ => Some (Table (map (fun r => Row (map cell_new r) None) g) (repeat 1828800%N (length r)) 0 0) end.
(** The slide [v] that importing should give for the saved slide [s]: title,
    bullets without level or format, shapes, table; all else as in a new slide. *)
Definition kept_slide (s v : slide) : Prop :=
  let title := match s_layout s with Blank => "" | _ => visible (s_title s) end in
  let bullets := filter nonblank (map b_text (shown_bullets s)) in
  exists us cs, Forall2 kept_shape us (s_shapes s) /\ Forall2 kept_code cs (s_code s)
  /\ v = Slide title bullets (map (fun t => BulletPoint t 0 Bullet None) bullets) Bullet (Some 44%N) (Some 28%N) true false false false false None None
           TitleAndContent NoTransition (plain_table (shown_cells s)) (us ++ cs)%list [] None [] [] [] false.
(** What importing should take of a slide the reader gives. *)
Definition taken (r : pslide) (v : slide) : Prop :=
  s_title v = match sl_title r with Some t => t | None => "" end /\ s_content v = sl_body r /\ map b_text (s_bullets v) = sl_body r
  /\ Forall2 (fun p t => sh_text t = (if String.eqb (pshape_text p) "" then None else Some (pshape_text p)))
       (filter (fun p => negb (ps_title p || ps_body p)) (sl_shapes r)) (s_shapes v)
  /\ match s_table v with
     | None => Forall (fun g => match g with [] => True | row :: _ => row = [] end) (sl_tables r)
     | Some t => exists before g row rows' after, sl_tables r = (before ++ g :: after)%list /\ g = row :: rows' /\ row <> []
                   /\ Forall (fun g => match g with [] => True | row :: _ => row = [] end) before /\ map (fun r => map ctext (cells r)) (rows t) = map (map pc_text) g
     end.
