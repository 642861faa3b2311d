(** Gradient fills on their own (src/generator/gradients.rs). *)
From Coq Require Import String Ascii List Bool Arith NArith.
From Verif Require Import Str Num TableModel.
Import ListNotations.
Open Scope string_scope.

(** gradients.rs:7-17 [GradientType] *)
Inductive grad_type := GLinear | GRadial | GRectangular | GPath.
(** gradients.rs:19-29 [xml_value] *)
Definition type_value (t : grad_type) : string := match t with GLinear => "lin" | GRadial => "circle" | GRectangular => "rect" | GPath => "path" end.
(** gradients.rs:31-44 [GradientDirection] *)
Inductive grad_dir := GHorizontal | GVertical | GDown | GUp | GCustom (n : N).
(** gradients.rs:46-57 [angle]; [u32] product, wrapping as in a release build. *)
Definition grad_angle (d : grad_dir) : N :=
  match d with GHorizontal => 0 | GVertical => 5400000 | GDown => 2700000 | GUp => 18900000 | GCustom n => wmul u32_max n 60000 end.
(** gradients.rs:59-68 [GradientStop] *)
Record stop := Stop { st_pos : N; st_color : string; st_clear : option N }.
(** gradients.rs:70-79 [new]: the colour as in table cells ([clean]: hash marks
    dropped, ASCII letters made capitals). *)
Definition stop_new (position : N) (color : string) : stop := Stop (N.min position 100000) (clean color) None.
(** gradients.rs:81-94 [start], [middle], [end] *)
Definition stop_start (color : string) : stop := stop_new 0 color.
Definition stop_middle (color : string) : stop := stop_new 50000 color.
Definition stop_end (color : string) : stop := stop_new 100000 color.
(** gradients.rs:96-100 [with_transparency] *)
Definition with_clear (percent : N) (s : stop) : stop := Stop (st_pos s) (st_color s) (Some (wmul u32_max (N.min percent 100) 1000)).
(** gradients.rs:103-114 [GradientFill] *)
Record grad := Grad { g_type : grad_type; g_dir : grad_dir; g_stops : list stop; g_rotate : bool }.
(** gradients.rs:116-125 [new] *)
Definition grad_new (t : grad_type) : grad := Grad t GVertical [] true.
(** gradients.rs:127-137 [linear], [radial] *)
Definition grad_linear (d : grad_dir) : grad := let g := grad_new GLinear in Grad (g_type g) d (g_stops g) (g_rotate g).
Definition grad_radial : grad := grad_new GRadial.
(** gradients.rs:154-158 [add_stop] *)
Definition add_stop (s : stop) (g : grad) : grad := Grad (g_type g) (g_dir g) (g_stops g ++ [s])%list (g_rotate g).
(** gradients.rs:139-152 [two_color], [three_color] *)
Definition two_color (a b : string) : grad := add_stop (stop_end b) (add_stop (stop_start a) (grad_linear GVertical)).
Definition three_color (a b c : string) : grad := add_stop (stop_end c) (add_stop (stop_middle b) (add_stop (stop_start a) (grad_linear GVertical))).
(** gradients.rs:160-170 [with_direction], [with_rotate] *)
Definition with_direction (d : grad_dir) (g : grad) : grad := Grad (g_type g) d (g_stops g) (g_rotate g).
Definition with_rotate (b : bool) (g : grad) : grad := Grad (g_type g) (g_dir g) (g_stops g) b.
(** [slice::sort_by_key], a stable sort: every element is put in front of the
    first one with a larger key, from the left. *)
Fixpoint put (s : stop) (l : list stop) : list stop :=
  match l with [] => [s] | t :: l => if (st_pos s <? st_pos t)%N then s :: t :: l else t :: put s l end.
Definition sort_stops (l : list stop) : list stop := fold_left (fun l s => put s l) l [].
(** gradients.rs:172-176 [sorted] *)
Definition grad_sorted (g : grad) : grad := Grad (g_type g) (g_dir g) (sort_stops (g_stops g)) (g_rotate g).
(** gradients.rs:179-240 [PresetGradients], in the order of the file *)
Definition presets : list grad :=
  [ two_color "0066CC" "003366"; two_color "00CC66" "006633"; two_color "CC0000" "660000"; two_color "FF9900" "CC6600"; two_color "9933CC" "660099"; two_color "999999" "333333";
    three_color "FF6600" "FFCC00" "FFFF66"; three_color "003366" "0066CC" "66CCFF"; three_color "003300" "006600" "66CC66";
    fold_left (fun g s => add_stop s g) [stop_new 0 "FF0000"; stop_new 17000 "FF9900"; stop_new 33000 "FFFF00"; stop_new 50000 "00FF00"; stop_new 67000 "0000FF"; stop_new 83000 "9900FF"; stop_new 100000 "FF00FF"] (grad_linear GHorizontal) ].
(** gradients.rs:243-287 [generate_gradient_fill_xml] *)
Definition stop_xml (s : stop) : string :=
  ("<a:gs pos=""" ++ dec (st_pos s) ++ """><a:srgbClr val=""" ++ st_color s ++ """")
  ++ (match st_clear s with Some a => ("><a:alpha val=""" ++ dec (wsub u32_max 100000 a) ++ """/></a:srgbClr>") | None => "/>" end) ++ "</a:gs>".
Definition grad_xml (g : grad) : string :=
  "<a:gradFill rotWithShape=""" ++ (if g_rotate g then "1" else "0") ++ """>" ++ "<a:gsLst>" ++ sconcat (map stop_xml (g_stops g)) ++ "</a:gsLst>"
  ++ (match g_type g with
      | GLinear => ("<a:lin ang=""" ++ dec (grad_angle (g_dir g)) ++ """ scaled=""1""/>")
      | _ => ("<a:path path=""" ++ type_value (g_type g) ++ """><a:fillToRect l=""50000"" t=""50000"" r=""50000"" b=""50000""/></a:path>")
      end) ++ "</a:gradFill>".
