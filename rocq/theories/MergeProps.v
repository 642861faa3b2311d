(** C19, C20: merged table cells. *)
From Coq Require Import List Bool NArith.
From Verif Require Import MergeModel MergeSpec MergeProofs.
Import ListNotations.
Open Scope N_scope.

Theorem C19_regions_disjoint_inside (nrows ncols : N) (m : merge_map) :
  reachable nrows ncols m ->
  (forall x r c, In x (regions m) -> covered x r c -> r < nrows /\ c < ncols) /\
  (forall i j x y r c, nth_error (regions m) i = Some x -> nth_error (regions m) j = Some y ->
     covered x r c -> covered y r c -> i = j).
Proof. exact (regions_disjoint nrows ncols m). Qed.
Print Assumptions C19_regions_disjoint_inside.

Theorem C19_accepted_iff_free (nrows ncols : N) (m : merge_map) (r c rs cs : N) :
  reachable nrows ncols m -> fits (r, c, rs, cs) ->
  (fst (merge_cells r c rs cs m) = true <->
   1 <= rs /\ 1 <= cs /\ r + rs <= nrows /\ c + cs <= ncols /\
   forall x i j, In x (regions m) -> covered x i j -> ~ in_rect i j r c rs cs) /\
  regions (snd (merge_cells r c rs cs m)) =
    (if fst (merge_cells r c rs cs m) then regions m ++ [Region r c rs cs] else regions m)%list /\
  (fst (merge_cells r c rs cs m) = false -> snd (merge_cells r c rs cs m) = m).
Proof. exact (accept_iff nrows ncols m r c rs cs). Qed.
Print Assumptions C19_accepted_iff_free.

(** Beyond [fits], a release build accepts a region that is not in the table. *)
Theorem C19_overflow_refuted :
  exists r c rs cs, fst (merge_cells r c rs cs (map_new 4 4)) = true /\ 4 < r + rs.
Proof. exists 2, 0, 18446744073709551615, 1. split; vm_compute; reflexivity. Qed.
Print Assumptions C19_overflow_refuted.

Example C19_case : let m := merge_all [(0, 0, 2, 2); (1, 1, 1, 3); (2, 1, 2, 1); (3, 3, 2, 1)] (map_new 4 4) in
  reachable 4 4 m /\ length (regions m) = 2%nat /\ fits (3, 3, 2, 1).
Proof.
  cbv zeta. split; [|split; [vm_compute; reflexivity|split; vm_compute; discriminate]].
  eexists. split; [|reflexivity]. repeat constructor; vm_compute; discriminate.
Qed.

(** A covered cell: anchor at the top-left, otherwise merged (horizontally on
    the anchor's row, vertically below).  An uncovered cell is normal. *)
Theorem C20_cell_state (nrows ncols : N) (m : merge_map) (r c : N) :
  reachable nrows ncols m ->
  (forall x, In x (regions m) -> covered x r c ->
     cell_state m r c = if (r =? row x) && (c =? col x) then Anchor (row_span x) (col_span x)
                        else if r =? row x then HMerge else VMerge) /\
  ((forall x, In x (regions m) -> ~ covered x r c) -> cell_state m r c = Normal).
Proof. exact (cell_state_reachable nrows ncols m r c). Qed.
Print Assumptions C20_cell_state.

Example C20_case : let m := merge_all [(0, 0, 2, 2); (2, 1, 2, 1)] (map_new 4 4) in
  reachable 4 4 m /\ map (fun p => cell_state m (fst p) (snd p)) [(0,0); (0,1); (1,1); (2,1); (3,1); (3,2)] =
  [Anchor 2 2; HMerge; VMerge; Anchor 2 1; VMerge; Normal].
Proof.
  cbv zeta. split; [|vm_compute; reflexivity].
  eexists. split; [|reflexivity]. repeat constructor; vm_compute; discriminate.
Qed.
