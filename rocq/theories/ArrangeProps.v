(** C71: shapes arranged on a slide. *)
From Coq Require Import List Arith NArith.
From Verif Require Import Num ColorModel ArrangeModel ArrangeSpec ArrangeThms.
Import ListNotations.
Open Scope N_scope.

Theorem C71_center : forall w h : N, w <= slide_w -> h <= slide_h -> exists x y, center w h = (x, y) /\ in_the_middle x (x + w) slide_w /\ in_the_middle y (y + h) slide_h.
Proof. exact center_mid. Qed.
Print Assumptions C71_center.
Example C71_center_example : 2000001 <= slide_w /\ 914400 <= slide_h.
Proof. split; discriminate. Qed.
Theorem C71_grid : forall (rows cols : nat) (cw ch : N), cw * N.of_nat cols <= slide_w -> ch * N.of_nat rows <= slide_h ->
  exists x0 y0, in_the_middle x0 (x0 + cw * N.of_nat cols) slide_w /\ in_the_middle y0 (y0 + ch * N.of_nat rows) slide_h
    /\ length (grid rows cols cw ch) = (rows * cols)%nat
    /\ (forall r c, (r < rows)%nat -> (c < cols)%nat -> nth_error (grid rows cols cw ch) (r * cols + c) = Some (x0 + N.of_nat c * cw, y0 + N.of_nat r * ch))
    /\ Forall on_slide (boxes cw ch (grid rows cols cw ch)) /\ no_overlap (boxes cw ch (grid rows cols cw ch)).
Proof. exact grid_all. Qed.
Print Assumptions C71_grid.
Example C71_grid_example : 2000000 * N.of_nat 4 <= slide_w /\ 914400 * N.of_nat 3 <= slide_h.
Proof. split; discriminate. Qed.
Theorem C71_row : forall (count : nat) (w s y : N), span w s count <= slide_w ->
  exists a, in_the_middle a (a + span w s count) slide_w /\ spread a w s count (map fst (stack_horizontal count w s y)) /\ Forall (fun p => snd p = y) (stack_horizontal count w s y)
    /\ forall h, y + h <= slide_h -> Forall on_slide (boxes w h (stack_horizontal count w s y)) /\ no_overlap (boxes w h (stack_horizontal count w s y)).
Proof. exact stack_h. Qed.
Print Assumptions C71_row.
Example C71_row_example : span 1000000 200000 7 <= slide_w.
Proof. discriminate. Qed.
Theorem C71_column : forall (count : nat) (h s x : N), span h s count <= slide_h ->
  exists a, in_the_middle a (a + span h s count) slide_h /\ spread a h s count (map snd (stack_vertical count h s x)) /\ Forall (fun p => fst p = x) (stack_vertical count h s x)
    /\ forall w, x + w <= slide_w -> Forall on_slide (boxes w h (stack_vertical count h s x)) /\ no_overlap (boxes w h (stack_vertical count h s x)).
Proof. exact stack_v. Qed.
Print Assumptions C71_column.
Example C71_column_example : span 1000000 200000 5 <= slide_h.
Proof. discriminate. Qed.
Theorem C71_distribute : forall (count : nat) (w y : N), (2 <= count)%nat -> N.of_nat count <= u32_max -> w * N.of_nat count <= slide_w - inch ->
  exists gap l, distribute_horizontal count w y = Ret l /\ spread (inch / 2) w gap count (map fst l) /\ Forall (fun p => snd p = y) l
    /\ inch / 2 + span w gap count <= slide_w - inch / 2 /\ slide_w - inch / 2 < inch / 2 + span w gap count + N.of_nat (count - 1)
    /\ forall h, y + h <= slide_h -> Forall on_slide (boxes w h l) /\ no_overlap (boxes w h l).
Proof. exact distribute. Qed.
Print Assumptions C71_distribute.
Example C71_distribute_example : (2 <= 6)%nat /\ N.of_nat 6 <= Num.u32_max /\ 1000000 * N.of_nat 6 <= slide_w - inch.
Proof. split; [|split; discriminate]. repeat constructor. Qed.
Theorem C71_distribute_one : forall w y : N, w <= slide_w -> exists x, distribute_horizontal 1 w y = Ret [(x, y)] /\ in_the_middle x (x + w) slide_w.
Proof. exact distribute_one. Qed.
Print Assumptions C71_distribute_one.
(** What does not fit is put beside the slide: the position wraps around. *)
Theorem C71_too_wide_refuted : exists x y, center 9144001 914400 = (x, y) /\ slide_w < x.
Proof. exact too_wide. Qed.
Print Assumptions C71_too_wide_refuted.
Theorem C71_too_many_refuted : Exists (fun b => ~ on_slide b) (boxes 2000000 914400 (stack_horizontal 5 2000000 100000 0)) /\ Exists (fun b => ~ on_slide b) (boxes 2000000 914400 (grid 2 5 2000000 914400))
  /\ exists l, distribute_horizontal 5 2000000 0 = Ret l /\ Exists (fun b => ~ on_slide b) (boxes 2000000 914400 l).
Proof. exact too_many. Qed.
Print Assumptions C71_too_many_refuted.
