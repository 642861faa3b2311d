(** Model of src/generator/slide_content/table_merge.rs.  [usize] values are
    [N]; arithmetic is that of a release build (wrapping, see Num.v). *)
From Coq Require Import String List Bool NArith.
From Verif Require Import Str Num.
Import ListNotations.
Open Scope N_scope.

(** table_merge.rs:8-13 (all fields are public). *)
Record region := Region { row : N; col : N; row_span : N; col_span : N }.
(** table_merge.rs:17-22 [new]. *)
Definition region_new (r c rs cs : N) : option region :=
  if (rs =? 0) || (cs =? 0) then None else Some (Region r c rs cs).
(** table_merge.rs:25-32. *)
Definition last_row (x : region) : N := wsub usize_max (wadd usize_max (row x) (row_span x)) 1.
Definition last_col (x : region) : N := wsub usize_max (wadd usize_max (col x) (col_span x)) 1.
(** table_merge.rs:35-37. *)
Definition contains (x : region) (r c : N) : bool :=
  (row x <=? r) && (r <=? last_row x) && (col x <=? c) && (c <=? last_col x).
(** table_merge.rs:40-42. *)
Definition is_anchor (x : region) (r c : N) : bool := (r =? row x) && (c =? col x).
(** table_merge.rs:45-50. *)
Definition overlaps (x y : region) : bool :=
  (row x <=? last_row y) && (row y <=? last_row x) && (col x <=? last_col y) && (col y <=? last_col x).

(** table_merge.rs:55-64. *)
Inductive cell_merge := Normal | Anchor (rs cs : N) | HMerge | VMerge.
(** table_merge.rs:68-84 [to_xml_attrs]. *)
Definition to_xml_attrs (s : cell_merge) : string :=
  (match s with
  | Normal => ""
  | Anchor rs cs =>
      (if (1 <? cs)%N then " gridSpan=""" ++ dec cs ++ """" else "")
      ++ (if (1 <? rs)%N then " rowSpan=""" ++ dec rs ++ """" else "")
  | HMerge => " hMerge=""1"""
  | VMerge => " vMerge=""1"""
  end)%string.
(** table_merge.rs:86-88. *)
Definition is_merged_away (s : cell_merge) : bool := match s with HMerge | VMerge => true | _ => false end.

(** table_merge.rs:92-103. *)
Record merge_map := Map { regions : list region; rows : N; cols : N }.
Definition map_new (r c : N) : merge_map := Map [] r c.
(** table_merge.rs:106-130 [add_merge]: success flag and new state. *)
Definition add_merge (x : region) (m : merge_map) : bool * merge_map :=
  if rows m <=? last_row x then (false, m)
  else if cols m <=? last_col x then (false, m)
  else if existsb (fun e => overlaps e x) (regions m) then (false, m)
  else (true, Map (regions m ++ [x]) (rows m) (cols m)).
(** table_merge.rs:133-136 [merge_cells]. *)
Definition merge_cells (r c rs cs : N) (m : merge_map) : bool * merge_map :=
  match region_new r c rs cs with
  | Some x => add_merge x m
  | None => (false, m)
  end.
(** table_merge.rs:139-157 [cell_state]: the loop over the regions. *)
Fixpoint cell_state_in (l : list region) (r c : N) : cell_merge :=
  match l with
  | [] => Normal
  | x :: l =>
      if is_anchor x r c then Anchor (row_span x) (col_span x)
      else if contains x r c then (if r =? row x then HMerge else VMerge)
      else cell_state_in l r c
  end.
Definition cell_state (m : merge_map) (r c : N) : cell_merge := cell_state_in (regions m) r c.

(** A history of [merge_cells] calls; arguments (row, col, row_span, col_span). *)
Definition merge_all (reqs : list (N * N * N * N)) (m : merge_map) : merge_map :=
  fold_left (fun m '(r, c, rs, cs) => snd (merge_cells r c rs cs m)) reqs m.
