(** C39: what a chart part shows. *)
From Coq Require Import String List Bool Arith NArith.
From Verif Require Import Str XmlSpec OpcSpec XmlPath ChartModel ChartSpec ChartProofs ChartLook.
Import ListNotations.
Open Scope string_scope.

Definition sample (t : chart_type) : chart :=
  Chart "R & D" t ["Q1"; "<Q2>"] [Series "a & b" [Value "1.5" "1.5"; Value "-2" "2"]; Series "c" [Value "3" "3"]; Series "d" [Value "4" "4"]] 1%N 2%N 3%N 4%N.
Example C39_case : chart_ok (sample Combo) /\ chart_ok (sample Pie) /\ chart_ok (sample Bubble).
Proof. repeat split; repeat constructor. Qed.

(** Every series of a combo chart is drawn exactly once, as a bar or as a line,
    under its position, with its name and its values; the bars are the first
    half. *)
Theorem C39_combo_each_series_once (c : chart) : chart_ok c -> ctype c = Combo ->
  exists x, xml_read (chart_part_xml c) = Some x
  /\ (map read_series (series_in "c:barChart" x) ++ map read_series (series_in "c:lineChart" x))%list = views 0 (sers c)
  /\ length (series_in "c:barChart" x) = Nat.min (length (sers c)) (Nat.max 1 (length (sers c) / 2)).
Proof. exact (combo_split c). Qed.
Print Assumptions C39_combo_each_series_once.

(** Every kind of chart: the part is well-formed, has the title, the series
    (all of them, or the first one for pies and doughnuts) in order under their
    positions with names and values, and the categories in order. *)
Theorem C39_chart_shows (c : chart) : chart_ok c ->
  exists x, xml_read (chart_part_xml c) = Some x /\ chart_titles x = [title c]
  /\ map read_series (series_nodes x) = views 0 (drawn c)
  /\ category_points x = (if has_categories c then cats_view c else []).
Proof. exact (chart_shows c). Qed.
Print Assumptions C39_chart_shows.

(** The indexes are 0, 1, 2, … without repetition. *)
Theorem C39_indexes_distinct (c : chart) : chart_ok c ->
  exists x, xml_read (chart_part_xml c) = Some x
  /\ flat_map ser_idx (series_nodes x) = map decn (seq 0 (length (drawn c))) /\ NoDup (flat_map ser_idx (series_nodes x)).
Proof. exact (chart_indexes c). Qed.
Print Assumptions C39_indexes_distinct.

(** The plots of a chart, with their settings, follow from its type; every
    point of every series that is drawn stands there, in order, with its value
    and, for scatter and bubble charts, its position along the x axis (1, 2,
    3, ...) and its bubble size (the size of the value). *)
Theorem C39_chart_drawn (c : chart) : chart_ok c ->
  exists x, xml_read (chart_part_xml c) = Some x
    /\ plots x = want_plots (ctype c) (length (sers c))
    /\ map (fun s => (ser_points s, ser_xs s, ser_sizes s)) (series_nodes x) = map (want_points (ctype c)) (drawn c).
Proof. exact (chart_drawn c). Qed.
Print Assumptions C39_chart_drawn.
Example C39_drawn_case : chart_ok (sample Bubble) /\ want_plots (ctype (sample Bubble)) (length (sers (sample Bubble))) = [("c:bubbleChart", [("c:varyColors", "0"); ("c:bubbleScale", "100")])]
  /\ map (want_points Bubble) (firstn 1 (drawn (sample Bubble))) = [([("0", "1.5"); ("1", "-2")], [("0", "1"); ("1", "2")], [("0", "1.5"); ("1", "2")])].
Proof. split; [repeat split; repeat constructor|split; reflexivity]. Qed.

(** The points of a bar series are not told apart: every one has index 0. *)
Theorem C39_point_indexes_refuted :
  exists c x, chart_ok c /\ xml_read (chart_part_xml c) = Some x /\
    map ser_points (series_nodes x) = [[("0", "1.5"); ("0", "-2")]; [("0", "3")]; [("0", "4")]].
Proof.
  exists (sample Bar). destruct (xml_read (chart_part_xml (sample Bar))) as [x|] eqn:E; [|vm_compute in E; discriminate].
  exists x. split; [repeat constructor|]. split; [reflexivity|]. vm_compute in E. injection E as <-. vm_compute. reflexivity.
Qed.
Print Assumptions C39_point_indexes_refuted.
(** The kind of bar chart is not kept: a stacked bar chart, a horizontal one and
    a plain one give the same part. *)
Theorem C39_bar_kind_refuted : forall t p cs ss x y w h,
  chart_part_xml (Chart t BarStacked cs ss x y w h) = chart_part_xml (Chart t BarHorizontal cs ss x y w h) /\
  chart_part_xml (Chart p BarStacked100 cs ss x y w h) = chart_part_xml (Chart p Bar cs ss x y w h).
Proof. intros. split; reflexivity. Qed.
Print Assumptions C39_bar_kind_refuted.
(** A pie chart shows its first series only: the others leave no trace. *)
Theorem C39_pie_drops_series_refuted : forall t cs s ss x y w h,
  chart_part_xml (Chart t Pie cs (s :: ss) x y w h) = chart_part_xml (Chart t Pie cs [s] x y w h).
Proof. reflexivity. Qed.
Print Assumptions C39_pie_drops_series_refuted.
