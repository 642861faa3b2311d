(** Model of src/generator/connectors.rs. *)
From Coq Require Import String List Bool NArith.
From Verif Require Import Str EscapeModel.
Import ListNotations.
Open Scope string_scope.

(** connectors.rs:9-27. *)
Inductive connector_type := Straight | Elbow | Curved.
Definition preset_name (t : connector_type) : string :=
  match t with Straight => "straightConnector1" | Elbow => "bentConnector3" | Curved => "curvedConnector3" end.
(** connectors.rs:40-68. *)
Inductive arrow := NoArrow | Triangle | Stealth | Diamond | Oval | OpenArrow.
Definition arrow_value (a : arrow) : string :=
  match a with NoArrow => "none" | Triangle => "triangle" | Stealth => "stealth" | Diamond => "diamond" | Oval => "oval" | OpenArrow => "arrow" end.
(** connectors.rs:70-87. *)
Inductive arrow_size := Small | Medium | Large.
Definition size_value (s : arrow_size) : string := match s with Small => "sm" | Medium => "med" | Large => "lg" end.
(** connectors.rs:89-126. *)
Inductive site := Top | Bottom | Left_ | Right_ | TopLeft | TopRight | BottomLeft | BottomRight | Center.
Definition site_index (s : site) : N :=
  match s with Top => 0 | Right_ => 1 | Bottom => 2 | Left_ => 3 | TopLeft => 4 | TopRight => 5 | BottomRight => 6 | BottomLeft => 7 | Center => 8 end%N.
(** connectors.rs:163-189. *)
Inductive dash := Solid | Dash | Dot | DashDot | DashDotDot | LongDash | LongDashDot.
Definition dash_value (d : dash) : string :=
  match d with Solid => "solid" | Dash => "dash" | Dot => "dot" | DashDot => "dashDot" | DashDotDot => "lgDashDotDot" | LongDash => "lgDash" | LongDashDot => "lgDashDot" end.

(** connectors.rs:191-224; the line (128-161) is inlined. *)
Record connector := Connector {
  ctype : connector_type; start_x : N; start_y : N; end_x : N; end_y : N;
  line_color : string; line_width : N; line_dash : dash;
  start_arrow : arrow; end_arrow : arrow; a_size : arrow_size;
  start_shape : option N; start_site : option site; end_shape : option N; end_site : option site;
  label : option string }.

(** connectors.rs:227-252 [new] with the default line (137-145). *)
Definition new (t : connector_type) (sx sy ex ey : N) : connector :=
  Connector t sx sy ex ey "000000" 12700 Solid NoArrow NoArrow Medium None None None None None.

(** connectors.rs:331-349: [abs_diff] and the flip tests. *)
Definition abs_diff (a b : N) : N := if (a <? b)%N then (b - a)%N else (a - b)%N.
Definition width (c : connector) : N := abs_diff (end_x c) (start_x c).
Definition height (c : connector) : N := abs_diff (end_y c) (start_y c).
Definition flip_h (c : connector) : bool := (end_x c <? start_x c)%N.
Definition flip_v (c : connector) : bool := (end_y c <? start_y c)%N.

Definition arrow_is_none (a : arrow) : bool := match a with NoArrow => true | _ => false end.
(** connectors.rs:353-460 [generate_connector_xml]. *)
Definition generate_connector_xml (c : connector) (shape_id : N) : string :=
  let x := N.min (start_x c) (end_x c) in
  let y := N.min (start_y c) (end_y c) in
  let fh := if flip_h c then " flipH=""1""" else "" in
  let fv := if flip_v c then " flipV=""1""" else "" in
  "<p:cxnSp>" ++ nl ++ "<p:nvCxnSpPr>" ++ nl ++
  "<p:cNvPr id=""" ++ dec shape_id ++ """ name=""Connector " ++ dec shape_id ++ """/>" ++ nl ++ "<p:cNvCxnSpPr>"
  ++ match start_shape c, start_site c with
     | Some i, Some s => nl ++ "<a:stCxn id=""" ++ dec i ++ """ idx=""" ++ dec (site_index s) ++ """/>"
     | _, _ => ""
     end
  ++ match end_shape c, end_site c with
     | Some i, Some s => nl ++ "<a:endCxn id=""" ++ dec i ++ """ idx=""" ++ dec (site_index s) ++ """/>"
     | _, _ => ""
     end
  ++ nl ++ "</p:cNvCxnSpPr>" ++ nl ++ "<p:nvPr/>" ++ nl ++ "</p:nvCxnSpPr>" ++ nl ++ "<p:spPr>" ++ nl
  ++ "<a:xfrm" ++ fh ++ fv ++ ">" ++ nl
  ++ "<a:off x=""" ++ dec x ++ """ y=""" ++ dec y ++ """/>" ++ nl
  ++ "<a:ext cx=""" ++ dec (width c) ++ """ cy=""" ++ dec (height c) ++ """/>" ++ nl
  ++ "</a:xfrm>" ++ nl ++ "<a:prstGeom prst=""" ++ preset_name (ctype c) ++ """>" ++ nl ++ "<a:avLst/>" ++ nl ++ "</a:prstGeom>" ++ nl
  ++ "<a:ln w=""" ++ dec (line_width c) ++ """>" ++ nl ++ "<a:solidFill>" ++ nl ++ "<a:srgbClr val=""" ++ line_color c ++ """/>" ++ nl
  ++ "</a:solidFill>" ++ nl ++ "<a:prstDash val=""" ++ dash_value (line_dash c) ++ """/>"
  ++ (if arrow_is_none (start_arrow c) then ""
      else nl ++ "<a:headEnd type=""" ++ arrow_value (start_arrow c) ++ """ w=""" ++ size_value (a_size c) ++ """ len=""" ++ size_value (a_size c) ++ """/>")
  ++ (if arrow_is_none (end_arrow c) then ""
      else nl ++ "<a:tailEnd type=""" ++ arrow_value (end_arrow c) ++ """ w=""" ++ size_value (a_size c) ++ """ len=""" ++ size_value (a_size c) ++ """/>")
  ++ nl ++ "</a:ln>" ++ nl ++ "</p:spPr>"
  ++ match label c with
     | Some l => nl ++ "<p:txBody>" ++ nl ++ "<a:bodyPr/>" ++ nl ++ "<a:lstStyle/>" ++ nl ++ "<a:p>" ++ nl ++ "<a:r>" ++ nl
                 ++ "<a:rPr lang=""en-US"" sz=""1000""/>" ++ nl ++ "<a:t>" ++ escape_xml l ++ "</a:t>" ++ nl ++ "</a:r>" ++ nl ++ "</a:p>" ++ nl ++ "</p:txBody>"
     | None => ""
     end
  ++ nl ++ "</p:cxnSp>".
