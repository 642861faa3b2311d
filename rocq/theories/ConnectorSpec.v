(** What a connector element means: position, extent and flips determine the
    two end points (DrawingML: an unflipped line runs from the top left to the
    bottom right corner of its box). *)
From Coq Require Import String List NArith.
From Verif Require Import Str XmlSpec OpcSpec XmlPath ConnectorModel.
Import ListNotations.
Open Scope string_scope.

Record box := Box { bx : N; by_ : N; bcx : N; bcy : N; flipped_h : bool; flipped_v : bool }.
Definition start_of (b : box) : N * N :=
  ((if flipped_h b then bx b + bcx b else bx b)%N, (if flipped_v b then by_ b + bcy b else by_ b)%N).
Definition end_of (b : box) : N * N :=
  ((if flipped_h b then bx b else bx b + bcx b)%N, (if flipped_v b then by_ b else by_ b + bcy b)%N).

Definition flag (b : bool) : option string := if b then Some "1" else None.
(** The element [x] shows the box [b]. *)
Definition shows (x : node) (b : box) : Prop :=
  exists xf off ext, at_path ["p:spPr"; "a:xfrm"] x = [xf] /\
    at_path ["a:off"] xf = [off] /\ at_path ["a:ext"] xf = [ext] /\
    attr_opt "flipH" xf = flag (flipped_h b) /\ attr_opt "flipV" xf = flag (flipped_v b) /\
    attr "x" off = dec (bx b) /\ attr "y" off = dec (by_ b) /\ attr "cx" ext = dec (bcx b) /\ attr "cy" ext = dec (bcy b).
(** The shapes it is glued to. *)
Definition glued (x : node) (which : string) (o : option (N * N)) : Prop :=
  map (fun n => (attr "id" n, attr "idx" n)) (at_path ["p:nvCxnSpPr"; "p:cNvCxnSpPr"; which] x)
  = match o with Some (i, k) => [(dec i, dec k)] | None => [] end.
Definition both {A B} (a : option A) (b : option B) : option (A * B) :=
  match a, b with Some x, Some y => Some (x, y) | _, _ => None end.

(** How the line looks: geometry, width, colour, dashes, arrow heads (shape,
    width, length) at the start and at the end. *)
Definition line_look (x : node) :=
  let ln := at_path ["p:spPr"; "a:ln"] x in
  let heads n := map (fun h => (attr "type" h, attr "w" h, attr "len" h)) (flat_map (at_path [n]) ln) in
  (map (attr "prst") (at_path ["p:spPr"; "a:prstGeom"] x), map (attr "w") ln,
   map (attr "val") (flat_map (at_path ["a:solidFill"; "a:srgbClr"]) ln), map (attr "val") (flat_map (at_path ["a:prstDash"]) ln),
   heads "a:headEnd", heads "a:tailEnd").
(** The DrawingML names (ECMA-376 part 1, 20.1.10.56, 20.1.10.48, 20.1.10.33, 20.1.10.31). *)
Definition want_kind (t : connector_type) : string :=
  match t with Straight => "straightConnector1" | Elbow => "bentConnector3" | Curved => "curvedConnector3" end.
Definition want_dash (d : dash) : string :=
  match d with Solid => "solid" | Dash => "dash" | Dot => "dot" | DashDot => "dashDot" | DashDotDot => "lgDashDotDot" | LongDash => "lgDash" | LongDashDot => "lgDashDot" end.
Definition want_arrow (a : arrow) (z : arrow_size) : list (string * string * string) :=
  let n := match z with Small => "sm" | Medium => "med" | Large => "lg" end in
  match a with
  | NoArrow => [] | Triangle => [("triangle", n, n)] | Stealth => [("stealth", n, n)] | Diamond => [("diamond", n, n)]
  | Oval => [("oval", n, n)] | OpenArrow => [("arrow", n, n)]
  end.
Definition want_line (c : connector) :=
  ([want_kind (ctype c)], [dec (line_width c)], [line_color c], [want_dash (line_dash c)],
   want_arrow (start_arrow c) (a_size c), want_arrow (end_arrow c) (a_size c)).
(** The connection sites of a rectangle, in the order of its DrawingML preset
    definition (presetShapeDefinitions.xml, "rect"): top, left, bottom, right. *)
Definition rect_site (s : site) : option N :=
  match s with Top => Some 0%N | Left_ => Some 1%N | Bottom => Some 2%N | Right_ => Some 3%N | _ => None end.
