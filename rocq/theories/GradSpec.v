(** What is asked of a gradient and what a reader finds in it. *)
From Coq Require Import String List Bool NArith Sorted Permutation.
From Verif Require Import Str Num XmlSpec OpcSpec XmlPath LookSpec GradModel.
Import ListNotations.
Open Scope string_scope.

(** A stop as asked for: where (in thousandths of a percent), its colour, how
    transparent (in percent). *)
Definition asked := (N * string * option N)%type.
(** The stop made for it by the interface. *)
Definition made (a : asked) : stop :=
  let '(p, c, t) := a in match t with Some t => with_clear t (stop_new p c) | None => stop_new p c end.
(** The gradient made by the interface: of a kind, in a direction, turning with
    its shape or not, with stops added one after the other. *)
Definition gradient_of (k : grad_type) (d : grad_dir) (turns : bool) (l : list asked) : grad :=
  fold_left (fun g a => add_stop (made a) g) l (with_rotate turns (with_direction d (grad_new k))).

(** A stop as seen: where, the colour, how opaque if said (all in thousandths
    of a percent). *)
Definition seen (x : node) : list (string * list (string * list string)) :=
  map (fun g => (attr "pos" g, map (fun c => (attr "val" c, map (attr "val") (at_path ["a:alpha"] c))) (at_path ["a:srgbClr"] g))) (at_path ["a:gsLst"; "a:gs"] x).
Definition shown (a : asked) : string * list (string * list string) :=
  let '(p, c, t) := a in (dec (N.min p 100000), [(color_value c, match t with Some t => [dec (100000 - 1000 * N.min t 100)] | None => [] end)]).
(** The angle of a direction in degrees, clockwise from the right. *)
Definition degrees (d : grad_dir) : N :=
  match d with GHorizontal => 0 | GVertical => 90 | GDown => 45 | GUp => 315 | GCustom n => n end.
(** Linear gradients have an angle in 60000ths of a degree, others a centre
    and the shape of their rings. *)
Definition runs (x : node) : list (string * string) :=
  (map (fun l => ("angle", attr "ang" l)) (at_path ["a:lin"] x) ++ map (fun l => ("rings", attr "path" l)) (at_path ["a:path"] x))%list.
Definition rings (k : grad_type) : string := match k with GLinear => "" | GRadial => "circle" | GRectangular => "rect" | GPath => "path" end.
Definition to_run (k : grad_type) (d : grad_dir) : list (string * string) :=
  match k with GLinear => [("angle", dec (degrees d * 60000))] | _ => [("rings", rings k)] end.

(** Sorted by place; stops at the same place in the order given. *)
Definition before (s t : stop) : Prop := (st_pos s <= st_pos t)%N.
Definition at_place (p : N) (l : list stop) : list stop := filter (fun s => N.eqb (st_pos s) p) l.
(** The name of an element. *)
Definition tag (x : node) : string := match x with Elem n _ _ => n | Txt _ => "" end.
