(** Model of src/generator/charts/xml.rs.  A value of a series is the pair of
    texts that Rust's [Display] gives for the number and for its absolute value
    (number formatting is the environment's). *)
From Coq Require Import String List Bool Arith NArith.
From Verif Require Import Str EscapeModel.
Import ListNotations.
Open Scope string_scope.

(** charts/types.rs:5-49 *)
Inductive chart_type :=
| Bar | BarHorizontal | BarStacked | BarStacked100 | Line | LineMarkers | LineStacked | Pie | Doughnut
| Area | AreaStacked | AreaStacked100 | Scatter | ScatterLines | ScatterSmooth | Bubble | Radar | RadarFilled
| StockHLC | StockOHLC | Combo.
(** charts/types.rs:104-112 [grouping] *)
Definition grouping (t : chart_type) : option string :=
  match t with
  | Bar | BarHorizontal => Some "clustered"
  | BarStacked | LineStacked | AreaStacked => Some "stacked"
  | BarStacked100 | AreaStacked100 => Some "percentStacked"
  | Line | LineMarkers | Area => Some "standard"
  | _ => None
  end.
(** charts/types.rs:125-141 *)
Definition scatter_style (t : chart_type) : option string :=
  match t with Scatter => Some "marker" | ScatterLines => Some "lineMarker" | ScatterSmooth => Some "smoothMarker" | _ => None end.
Definition radar_style (t : chart_type) : option string :=
  match t with Radar => Some "marker" | RadarFilled => Some "filled" | _ => None end.
Definition unwrap_or (o : option string) (d : string) : string := match o with Some s => s | None => d end.

Record value := Value { shown : string; shown_abs : string }.
(** charts/data.rs:6-9 *)
Record series := Series { ser_name : string; values : list value }.
(** charts/data.rs:34-43 *)
Record chart := Chart { title : string; ctype : chart_type; categories : list string; sers : list series; cx0 : N; cy0 : N; cw : N; ch : N }.

(** [iter().enumerate()] followed by pushes. *)
Fixpoint pushes {A} (f : nat -> A -> string) (k : nat) (l : list A) : string :=
  match l with [] => "" | x :: l => f k x ++ pushes f (S k) l end.

(** charts/xml.rs:32-52 [generate_chart_ref_xml] *)
Definition chart_ref_xml (c : chart) (r_id : string) (shape_id : N) : string :=
  ("<p:graphicFrame>
<p:nvGraphicFramePr>
<p:cNvPr id=""" ++ dec shape_id ++ """ name=""Chart " ++ dec shape_id ++ """/>
<p:cNvGraphicFramePr/>
<p:nvPr/>
</p:nvGraphicFramePr>
<p:xfrm>
<a:off x=""" ++ dec (cx0 c) ++ """ y=""" ++ dec (cy0 c) ++ """/>
<a:ext cx=""" ++ dec (cw c) ++ """ cy=""" ++ dec (ch c) ++ """/>
</p:xfrm>
<a:graphic>
<a:graphicData uri=""http://schemas.openxmlformats.org/drawingml/2006/chart"">
<c:chart xmlns:c=""http://schemas.openxmlformats.org/drawingml/2006/chart"" xmlns:r=""http://schemas.openxmlformats.org/officeDocument/2006/relationships"" r:id=""" ++ r_id ++ """/>
</a:graphicData>
</a:graphic>
</p:graphicFrame>").
(** charts/xml.rs:55-92 [chart_part_header] *)
Definition header (c : chart) : string := ("<?xml version=""1.0"" encoding=""UTF-8"" standalone=""yes""?>
<c:chartSpace xmlns:c=""http://schemas.openxmlformats.org/drawingml/2006/chart"" xmlns:a=""http://schemas.openxmlformats.org/drawingml/2006/main"" xmlns:r=""http://schemas.openxmlformats.org/officeDocument/2006/relationships"">
<c:date1904 val=""0""/>
<c:lang val=""en-US""/>
<c:roundedCorners val=""0""/>
<c:chart>
<c:title>
<c:tx>
<c:rich>
<a:bodyPr/>
<a:lstStyle/>
<a:p>
<a:pPr>
<a:defRPr/>
</a:pPr>
<a:r>
<a:rPr lang=""en-US"" sz=""1800"" b=""0"" i=""0"" u=""none"" strike=""noStrike"">
<a:solidFill>
<a:srgbClr val=""595959""/>
</a:solidFill>
<a:latin typeface=""Calibri""/>
</a:rPr>
<a:t>" ++ escape_xml (title c) ++ "</a:t>
</a:r>
</a:p>
</c:rich>
</c:tx>
<c:layout/>
<c:overlay val=""0""/>
</c:title>
<c:autoTitleDeleted val=""0""/>
<c:plotArea>
<c:layout/>").
(** charts/xml.rs:95-110 [chart_part_footer] *)
Definition footer : string := "</c:plotArea>
<c:legend>
<c:legendPos val=""r""/>
<c:layout/>
<c:overlay val=""0""/>
</c:legend>
<c:plotVisOnly val=""1""/>
<c:dispBlanksAs val=""gap""/>
<c:showDLblsOverMax val=""0""/>
</c:chart>
<c:externalData r:id=""rId1"">
<c:autoUpdate val=""0""/>
</c:externalData>
</c:chartSpace>".
(** charts/xml.rs:113-163 [generate_series_data] *)
Definition series_data (idx : nat) (s : series) : string :=
  ("
<c:ser>
<c:idx val=""" ++ decn idx ++ """/>
<c:order val=""" ++ decn idx ++ """/>
<c:title>
<c:tx>
<c:rich>
<a:bodyPr/>
<a:lstStyle/>
<a:p>
<a:r>
<a:rPr lang=""en-US"" sz=""1000""/>
<a:t>" ++ escape_xml (ser_name s) ++ "</a:t>
</a:r>
</a:p>
</c:rich>
</c:tx>
</c:title>
<c:dLbls>
<c:showVal val=""0""/>
</c:dLbls>
<c:val>
<c:numRef>
<c:f>Sheet1!$B$" ++ decn (2 + idx) ++ ":$B$" ++ decn (2 + idx + length (values s)) ++ "</c:f>
<c:numCache>
<c:formatCode>General</c:formatCode>")
  ++ sconcat (map (fun v => ("
<c:pt idx=""0"">
<c:v>" ++ shown v ++ "</c:v>
</c:pt>")) (values s))
  ++ "
</c:numCache>
</c:numRef>
</c:val>
</c:ser>".
(** One point of a cache (charts/xml.rs:189-195 and the other enumerated loops). *)
Definition point (idx : nat) (text : string) : string := ("
<c:pt idx=""" ++ decn idx ++ """>
<c:v>" ++ text ++ "</c:v>
</c:pt>").
(** charts/xml.rs:166-206 [generate_category_axis] *)
Definition category_axis (c : chart) (pos : string) : string :=
  ("
<c:catAx>
<c:axId val=""1""/>
<c:scaling>
<c:orientation val=""minMax""/>
</c:scaling>
<c:delete val=""0""/>
<c:axPos val=""" ++ pos ++ """/>
<c:majorGridlines/>
<c:numFmt formatCode=""General"" sourceLinked=""1""/>
<c:tickLblPos val=""low""/>
<c:crossAx val=""2""/>
<c:crosses val=""autoZero""/>
<c:strRef>
<c:f>Sheet1!$A$2:$A$" ++ decn (1 + length (categories c)) ++ "</c:f>
<c:strCache>
<c:ptCount val=""" ++ decn (length (categories c)) ++ """/>")
  ++ pushes (fun i cat => point i (escape_xml cat)) 0 (categories c)
  ++ "
</c:strCache>
</c:strRef>
</c:catAx>".
(** charts/xml.rs:209-228 [generate_value_axis] *)
Definition value_axis (pos : string) : string := ("
<c:valAx>
<c:axId val=""2""/>
<c:scaling>
<c:orientation val=""minMax""/>
</c:scaling>
<c:delete val=""0""/>
<c:axPos val=""" ++ pos ++ """/>
<c:majorGridlines/>
<c:numFmt formatCode=""General"" sourceLinked=""1""/>
<c:tickLblPos val=""low""/>
<c:crossAx val=""1""/>
<c:crosses val=""autoZero""/>
</c:valAx>").
(** charts/xml.rs:231-248 *)
Definition bar_xml (c : chart) : string :=
  header c ++ "<c:barChart>
<c:barDir val=""bar""/>
<c:grouping val=""clustered""/>" ++ pushes series_data 0 (sers c) ++ category_axis c "l" ++ value_axis "b" ++ "</c:barChart>" ++ footer.
(** charts/xml.rs:251-267 *)
Definition line_xml (c : chart) : string :=
  header c ++ "<c:lineChart>
<c:grouping val=""lineMarkers""/>" ++ pushes series_data 0 (sers c) ++ category_axis c "b" ++ value_axis "l" ++ "</c:lineChart>" ++ footer.
(** charts/xml.rs:270-356 *)
Definition pie_xml (c : chart) : string :=
  header c ++ "<c:pieChart>
<c:varyColors val=""1""/>"
  ++ match sers c with
     | s :: _ =>
         ("
<c:ser>
<c:idx val=""0""/>
<c:order val=""0""/>
<c:title>
<c:tx>
<c:rich>
<a:bodyPr/>
<a:lstStyle/>
<a:p>
<a:r>
<a:rPr lang=""en-US"" sz=""1000""/>
<a:t>" ++ escape_xml (ser_name s) ++ "</a:t>
</a:r>
</a:p>
</c:rich>
</c:tx>
</c:title>
<c:dLbls>
<c:showCatName val=""1""/>
<c:showPercent val=""1""/>
</c:dLbls>
<c:val>
<c:numRef>
<c:f>Sheet1!$B$2:$B$" ++ decn (1 + length (values s)) ++ "</c:f>
<c:numCache>
<c:formatCode>General</c:formatCode>")
         ++ pushes (fun i v => point i (shown v)) 0 (values s)
         ++ ("
</c:numCache>
</c:numRef>
</c:val>
<c:cat>
<c:strRef>
<c:f>Sheet1!$A$2:$A$" ++ decn (1 + length (categories c)) ++ "</c:f>
<c:strCache>
<c:ptCount val=""" ++ decn (length (categories c)) ++ """/>")
         ++ pushes (fun i cat => point i (escape_xml cat)) 0 (categories c)
         ++ "
</c:strCache>
</c:strRef>
</c:cat>
</c:ser>"
     | [] => ""
     end
  ++ "</c:pieChart>" ++ footer.
(** charts/xml.rs:359-443 *)
Definition doughnut_xml (c : chart) : string :=
  header c ++ "<c:doughnutChart>
<c:varyColors val=""1""/>
<c:holeSize val=""50""/>"
  ++ match sers c with
     | s :: _ =>
         ("
<c:ser>
<c:idx val=""0""/>
<c:order val=""0""/>
<c:tx>
<c:strRef>
<c:f>Sheet1!$B$1</c:f>
<c:strCache>
<c:ptCount val=""1""/>
<c:pt idx=""0""><c:v>" ++ escape_xml (ser_name s) ++ "</c:v></c:pt>
</c:strCache>
</c:strRef>
</c:tx>
<c:dLbls>
<c:showCatName val=""1""/>
<c:showPercent val=""1""/>
</c:dLbls>
<c:val>
<c:numRef>
<c:f>Sheet1!$B$2:$B$" ++ decn (1 + length (values s)) ++ "</c:f>
<c:numCache>
<c:formatCode>General</c:formatCode>")
         ++ pushes (fun i v => point i (shown v)) 0 (values s)
         ++ ("
</c:numCache>
</c:numRef>
</c:val>
<c:cat>
<c:strRef>
<c:f>Sheet1!$A$2:$A$" ++ decn (1 + length (categories c)) ++ "</c:f>
<c:strCache>
<c:ptCount val=""" ++ decn (length (categories c)) ++ """/>")
         ++ pushes (fun i cat => point i (escape_xml cat)) 0 (categories c)
         ++ "
</c:strCache>
</c:strRef>
</c:cat>
</c:ser>"
     | [] => ""
     end
  ++ "</c:doughnutChart>" ++ footer.
(** charts/xml.rs:446-462 *)
Definition area_xml (c : chart) : string :=
  header c ++ ("<c:areaChart>
<c:grouping val=""" ++ unwrap_or (grouping (ctype c)) "standard" ++ """/>")
  ++ pushes series_data 0 (sers c) ++ category_axis c "b" ++ value_axis "l" ++ "</c:areaChart>" ++ footer.
(** charts/xml.rs:465-544: one series of a scatter chart *)
Definition scatter_series (idx : nat) (s : series) : string :=
  ("
<c:ser>
<c:idx val=""" ++ decn idx ++ """/>
<c:order val=""" ++ decn idx ++ """/>
<c:tx>
<c:strRef>
<c:f>Sheet1!$B$1</c:f>
<c:strCache>
<c:ptCount val=""1""/>
<c:pt idx=""0""><c:v>" ++ escape_xml (ser_name s) ++ "</c:v></c:pt>
</c:strCache>
</c:strRef>
</c:tx>
<c:xVal>
<c:numRef>
<c:f>Sheet1!$A$2:$A$" ++ decn (1 + length (values s)) ++ "</c:f>
<c:numCache>
<c:formatCode>General</c:formatCode>")
  ++ pushes (fun i _ => point i (decn (i + 1))) 0 (values s)
  ++ ("
</c:numCache>
</c:numRef>
</c:xVal>
<c:yVal>
<c:numRef>
<c:f>Sheet1!$B$2:$B$" ++ decn (1 + length (values s)) ++ "</c:f>
<c:numCache>
<c:formatCode>General</c:formatCode>")
  ++ pushes (fun i v => point i (shown v)) 0 (values s)
  ++ "
</c:numCache>
</c:numRef>
</c:yVal>
</c:ser>".
Definition scatter_xml (c : chart) : string :=
  header c ++ ("<c:scatterChart>
<c:scatterStyle val=""" ++ unwrap_or (scatter_style (ctype c)) "lineMarker" ++ """/>")
  ++ pushes scatter_series 0 (sers c) ++ value_axis "b" ++ value_axis "l" ++ "</c:scatterChart>" ++ footer.
(** charts/xml.rs:547-649 *)
Definition bubble_series (idx : nat) (s : series) : string :=
  ("
<c:ser>
<c:idx val=""" ++ decn idx ++ """/>
<c:order val=""" ++ decn idx ++ """/>
<c:tx>
<c:strRef>
<c:f>Sheet1!$B$1</c:f>
<c:strCache>
<c:ptCount val=""1""/>
<c:pt idx=""0""><c:v>" ++ escape_xml (ser_name s) ++ "</c:v></c:pt>
</c:strCache>
</c:strRef>
</c:tx>
<c:xVal>
<c:numRef>
<c:f>Sheet1!$A$2:$A$" ++ decn (1 + length (values s)) ++ "</c:f>
<c:numCache>
<c:formatCode>General</c:formatCode>")
  ++ pushes (fun i _ => point i (decn (i + 1))) 0 (values s)
  ++ ("
</c:numCache>
</c:numRef>
</c:xVal>
<c:yVal>
<c:numRef>
<c:f>Sheet1!$B$2:$B$" ++ decn (1 + length (values s)) ++ "</c:f>
<c:numCache>
<c:formatCode>General</c:formatCode>")
  ++ pushes (fun i v => point i (shown v)) 0 (values s)
  ++ ("
</c:numCache>
</c:numRef>
</c:yVal>
<c:bubbleSize>
<c:numRef>
<c:f>Sheet1!$C$2:$C$" ++ decn (1 + length (values s)) ++ "</c:f>
<c:numCache>
<c:formatCode>General</c:formatCode>")
  ++ pushes (fun i v => point i (shown_abs v)) 0 (values s)
  ++ "
</c:numCache>
</c:numRef>
</c:bubbleSize>
</c:ser>".
Definition bubble_xml (c : chart) : string :=
  header c ++ "<c:bubbleChart>
<c:varyColors val=""0""/>
<c:bubbleScale val=""100""/>"
  ++ pushes bubble_series 0 (sers c) ++ value_axis "b" ++ value_axis "l" ++ "</c:bubbleChart>" ++ footer.
(** charts/xml.rs:652-669 *)
Definition radar_xml (c : chart) : string :=
  header c ++ ("<c:radarChart>
<c:radarStyle val=""" ++ unwrap_or (radar_style (ctype c)) "marker" ++ """/>")
  ++ pushes series_data 0 (sers c) ++ category_axis c "b" ++ value_axis "l" ++ "</c:radarChart>" ++ footer.
(** charts/xml.rs:672-688 *)
Definition stock_xml (c : chart) : string :=
  header c ++ "<c:stockChart>" ++ pushes series_data 0 (sers c) ++ category_axis c "b" ++ value_axis "l" ++ "</c:stockChart>" ++ footer.
(** charts/xml.rs:691-723 *)
Definition combo_xml (c : chart) : string :=
  let mid := length (sers c) / 2 in
  header c ++ "<c:barChart>
<c:barDir val=""col""/>
<c:grouping val=""clustered""/>"
  ++ pushes series_data 0 (firstn (Nat.max mid 1) (sers c)) ++ category_axis c "b" ++ value_axis "l" ++ "</c:barChart>"
  ++ (if Nat.ltb 1 (length (sers c)) then
        "<c:lineChart>
<c:grouping val=""standard""/>" ++ pushes (fun i s => series_data (mid + i) s) 0 (skipn (Nat.max mid 1) (sers c)) ++ "</c:lineChart>"
      else "")
  ++ footer.
(** charts/xml.rs:8-29 [generate_chart_part_xml] *)
Definition chart_part_xml (c : chart) : string :=
  match ctype c with
  | Bar | BarHorizontal | BarStacked | BarStacked100 => bar_xml c
  | Line | LineMarkers | LineStacked => line_xml c
  | Pie => pie_xml c
  | Doughnut => doughnut_xml c
  | Area | AreaStacked | AreaStacked100 => area_xml c
  | Scatter | ScatterLines | ScatterSmooth => scatter_xml c
  | Bubble => bubble_xml c
  | Radar | RadarFilled => radar_xml c
  | StockHLC | StockOHLC => stock_xml c
  | Combo => combo_xml c
  end.
