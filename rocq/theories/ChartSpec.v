(** What a chart part shows. *)
From Coq Require Import String Ascii List Bool Arith.
From Verif Require Import Str XmlSpec OpcSpec XmlPath ChartModel.
Import ListNotations.
Open Scope string_scope.

(** All series of all plots of a chart part, in document order. *)
Definition plot_children (x : node) : list node := flat_map children (at_path ["c:chart"; "c:plotArea"] x).
Definition series_nodes (x : node) : list node := flat_map (fun p => named "c:ser" (children p)) (plot_children x).
Definition series_in (plot : string) (x : node) : list node := at_path ["c:chart"; "c:plotArea"; plot; "c:ser"] x.

Definition val_of (k : string) (x : node) : list string := map (attr "val") (at_path [k] x).
(** A cache of points: (index, text) pairs. *)
Definition points (cache : node) : list (string * string) :=
  map (fun p => (attr "idx" p, sconcat (map text_in (at_path ["c:v"] p)))) (at_path ["c:pt"] cache).
(** A series: index, order, name and the texts of its values. *)
Definition ser_idx (x : node) : list string := val_of "c:idx" x.
Definition ser_order (x : node) : list string := val_of "c:order" x.
Definition ser_names (x : node) : list string :=
  map text_in (at_path ["c:title"; "c:tx"; "c:rich"; "a:p"; "a:r"; "a:t"] x
               ++ at_path ["c:tx"; "c:strRef"; "c:strCache"; "c:pt"; "c:v"] x).
Definition ser_points (x : node) : list (string * string) :=
  flat_map points (at_path ["c:val"; "c:numRef"; "c:numCache"] x ++ at_path ["c:yVal"; "c:numRef"; "c:numCache"] x).
(** The categories, on a category axis or inside a series. *)
Definition category_points (x : node) : list (string * string) :=
  flat_map (fun p => flat_map points (at_path ["c:catAx"; "c:strRef"; "c:strCache"] p ++ at_path ["c:ser"; "c:cat"; "c:strRef"; "c:strCache"] p))
           (plot_children x).

(** [l] numbered from 0. *)
Fixpoint numbered {A} (k : nat) (l : list A) : list (nat * A) := match l with [] => [] | x :: l => (k, x) :: numbered (S k) l end.

(** Characters of a displayed floating-point number: digits, sign, point, [inf], [NaN]. *)
Definition number_char (c : Ascii.ascii) : bool := is_digit c || existsb (Ascii.eqb c) ["-"; "."; "i"; "n"; "f"; "N"; "a"]%char.
(** The titles a chart part shows. *)
Definition chart_titles (x : node) : list string :=
  map text_in (at_path ["c:chart"; "c:title"; "c:tx"; "c:rich"; "a:p"; "a:r"; "a:t"] x).
(** What a reader sees of a series: index, order, names, texts of its values. *)
Definition read_series (x : node) : list string * list string * list string * list string :=
  (ser_idx x, ser_order x, ser_names x, map snd (ser_points x)).
(** Values display as numbers; names and texts are text XML can carry. *)
Definition numv (v : value) : Prop := sforall number_char (shown v) = true /\ sforall number_char (shown_abs v) = true.
Definition ser_ok (s : series) : Prop := text_ok (ser_name s) = true /\ Forall numv (values s).
Definition chart_ok (c : chart) : Prop :=
  text_ok (title c) = true /\ Forall (fun s => text_ok s = true) (categories c) /\ Forall ser_ok (sers c).
(** What a reader should see of the [idx]-th series. *)
Definition ser_view (idx : nat) (s : series) : list string * list string * list string * list string :=
  ([decn idx], [decn idx], [ser_name s], map shown (values s)).
(** What a reader should see of the categories. *)
Definition cats_view (c : chart) : list (string * string) := map (fun p => (decn (fst p), snd p)) (numbered 0 (categories c)).
(** Pie and doughnut charts show one series only. *)
Definition first_only (t : chart_type) : bool := match t with Pie | Doughnut => true | _ => false end.
Definition drawn (c : chart) : list series := if first_only (ctype c) then firstn 1 (sers c) else sers c.
(** Scatter and bubble charts have no categories. *)
Definition has_categories (c : chart) : bool :=
  match ctype c with
  | Scatter | ScatterLines | ScatterSmooth | Bubble => false
  | Pie | Doughnut => negb (Nat.eqb (length (sers c)) 0)
  | _ => true
  end.
Definition views (k : nat) (l : list series) := map (fun p => ser_view (fst p) (snd p)) (numbered k l).

(** ** How a chart is drawn: its plots, by name, each with its settings (the
    children that hold just a value). *)
Definition settings (p : node) : list (string * string) :=
  flat_map (fun k => match k with Elem n _ _ => match attr_opt "val" k with Some v => [(n, v)] | None => [] end | Txt _ => [] end) (children p).
Definition plots (x : node) : list (string * list (string * string)) :=
  flat_map (fun p => match p with Elem n _ _ => if String.eqb n "c:layout" then [] else [(n, settings p)] | Txt _ => [] end) (plot_children x).
Definition want_plots (t : chart_type) (series : nat) : list (string * list (string * string)) :=
  match t with
  | Bar | BarHorizontal | BarStacked | BarStacked100 => [("c:barChart", [("c:barDir", "bar"); ("c:grouping", "clustered")])]
  | Line | LineMarkers | LineStacked => [("c:lineChart", [("c:grouping", "lineMarkers")])]
  | Pie => [("c:pieChart", [("c:varyColors", "1")])]
  | Doughnut => [("c:doughnutChart", [("c:varyColors", "1"); ("c:holeSize", "50")])]
  | Area => [("c:areaChart", [("c:grouping", "standard")])]
  | AreaStacked => [("c:areaChart", [("c:grouping", "stacked")])]
  | AreaStacked100 => [("c:areaChart", [("c:grouping", "percentStacked")])]
  | Scatter => [("c:scatterChart", [("c:scatterStyle", "marker")])]
  | ScatterLines => [("c:scatterChart", [("c:scatterStyle", "lineMarker")])]
  | ScatterSmooth => [("c:scatterChart", [("c:scatterStyle", "smoothMarker")])]
  | Bubble => [("c:bubbleChart", [("c:varyColors", "0"); ("c:bubbleScale", "100")])]
  | Radar => [("c:radarChart", [("c:radarStyle", "marker")])]
  | RadarFilled => [("c:radarChart", [("c:radarStyle", "filled")])]
  | StockHLC | StockOHLC => [("c:stockChart", [])]
  | Combo => ("c:barChart", [("c:barDir", "col"); ("c:grouping", "clustered")])
             :: (if Nat.leb series 1 then [] else [("c:lineChart", [("c:grouping", "standard")])])
  end.
(** The points of a series: its values, its positions along the x axis, its
    bubble sizes, each with the number of the point. *)
Definition ser_xs (x : node) : list (string * string) := flat_map points (at_path ["c:xVal"; "c:numRef"; "c:numCache"] x).
Definition ser_sizes (x : node) : list (string * string) := flat_map points (at_path ["c:bubbleSize"; "c:numRef"; "c:numCache"] x).
Definition count_up {A} (f : nat -> A -> string) (l : list A) : list (string * string) := map (fun p => (decn (fst p), f (fst p) (snd p))) (numbered 0 l).
Definition want_points (t : chart_type) (s : series) : list (string * string) * list (string * string) * list (string * string) :=
  let ys := count_up (fun _ v => shown v) (values s) in
  let xs := count_up (fun i _ => decn (i + 1)) (values s) in
  match t with
  | Pie | Doughnut => (ys, [], [])
  | Scatter | ScatterLines | ScatterSmooth => (ys, xs, [])
  | Bubble => (ys, xs, count_up (fun _ v => shown_abs v) (values s))
  | _ => (map (fun v => ("0", shown v)) (values s), [], [])
  end.
