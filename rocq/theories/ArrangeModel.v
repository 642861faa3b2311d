(** The layout helpers of the prelude: where to put shapes on a slide. *)
From Coq Require Import String Ascii List Bool Arith NArith.
From Verif Require Import Str Num ColorModel.
Import ListNotations.
Open Scope nat_scope.

(** prelude.rs:708-714, the slide and its margin *)
Definition SLIDE_WIDTH : N := 9144000.
Definition SLIDE_HEIGHT : N := 6858000.
Definition MARGIN : N := 457200.
(** [n as u32] of a [usize] *)
Definition as_u32 (n : N) : N := (n mod (u32_max + 1))%N.
Notation "a +u b" := (wadd u32_max a b) (at level 50, left associativity).
Notation "a -u b" := (wsub u32_max a b) (at level 50, left associativity).
Notation "a *u b" := (wmul u32_max a b) (at level 40, left associativity).

(** prelude.rs:716-724 [center_x], [center_y] *)
Definition center_x (shape_width : N) : N := ((SLIDE_WIDTH -u shape_width) / 2)%N.
Definition center_y (shape_height : N) : N := ((SLIDE_HEIGHT -u shape_height) / 2)%N.
(** prelude.rs:726-729 [center] *)
Definition center (shape_width shape_height : N) : N * N := (center_x shape_width, center_y shape_height).
(** prelude.rs:731-748 [grid]: the two loops *)
Definition grid (rows cols : nat) (cell_width cell_height : N) : list (N * N) :=
  let start_x := center_x (cell_width *u as_u32 (N.of_nat cols)) in
  let start_y := center_y (cell_height *u as_u32 (N.of_nat rows)) in
  flat_map (fun row => map (fun col => (start_x +u (as_u32 (N.of_nat col) *u cell_width), start_y +u (as_u32 (N.of_nat row) *u cell_height))) (seq 0 cols)) (seq 0 rows).
(** prelude.rs:750-763 [stack_horizontal]; [count - 1] is in [usize]. *)
Definition stack_horizontal (count : nat) (shape_width spacing y : N) : list (N * N) :=
  let start_x := center_x ((shape_width *u as_u32 (N.of_nat count)) +u (spacing *u as_u32 (wsub usize_max (N.of_nat count) 1))) in
  map (fun i => (start_x +u (as_u32 (N.of_nat i) *u (shape_width +u spacing)), y)) (seq 0 count).
(** prelude.rs:765-778 [stack_vertical] *)
Definition stack_vertical (count : nat) (shape_height spacing x : N) : list (N * N) :=
  let start_y := center_y ((shape_height *u as_u32 (N.of_nat count)) +u (spacing *u as_u32 (wsub usize_max (N.of_nat count) 1))) in
  map (fun i => (x, start_y +u (as_u32 (N.of_nat i) *u (shape_height +u spacing)))) (seq 0 count).
(** prelude.rs:780-796 [distribute_horizontal]; [count as u32 - 1] can be zero
    for a count above [u32::MAX], and the division then panics. *)
Definition distribute_horizontal (count : nat) (shape_width y : N) : outcome (list (N * N)) :=
  match count with
  | 0 => Ret []
  | 1 => Ret [(center_x shape_width, y)]
  | _ =>
      let usable := SLIDE_WIDTH -u (2 *u MARGIN) in
      let gaps := as_u32 (N.of_nat count) -u 1 in
      if (gaps =? 0)%N then Panic
      else
        let spacing := ((usable -u (shape_width *u as_u32 (N.of_nat count))) / gaps)%N in
        Ret (map (fun i => (MARGIN +u (as_u32 (N.of_nat i) *u (shape_width +u spacing)), y)) (seq 0 count))
  end.
