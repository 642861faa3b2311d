(** Merged cells as sets of positions. *)
From Coq Require Import List NArith.
From Verif Require Import MergeModel.
Import ListNotations.
Open Scope N_scope.

(** Cell (r, c) is one of the [rs] x [cs] cells from (r0, c0). *)
Definition in_rect (r c r0 c0 rs cs : N) : Prop := r0 <= r < r0 + rs /\ c0 <= c < c0 + cs.
Definition covered (x : region) (r c : N) : Prop := in_rect r c (row x) (col x) (row_span x) (col_span x).
(** Row and column ends fit in a [usize]. *)
Definition fits (q : N * N * N * N) : Prop := let '(r, c, rs, cs) := q in r + rs <= 18446744073709551615 /\ c + cs <= 18446744073709551615.
(** What a history may lead to: some history of requests that fit. *)
Definition reachable (nrows ncols : N) (m : merge_map) : Prop :=
  exists reqs, Forall fits reqs /\ m = merge_all reqs (map_new nrows ncols).
