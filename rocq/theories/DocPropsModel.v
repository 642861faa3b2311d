(** Model of src/generator/props_xml.rs and of the slide titles handed to it
    (src/generator/builder.rs). *)
From Coq Require Import String List Bool Arith NArith.
From Verif Require Import Str EscapeModel.
Import ListNotations.
Open Scope string_scope.

(** Rust's [{:0w}] of an unsigned number. *)
Fixpoint zeros (k : nat) : string := match k with O => "" | S k => "0" ++ zeros k end.
Definition pad (w : nat) (n : N) : string := zeros (w - String.length (dec n)) ++ dec n.

(** props_xml.rs:4-26 [current_timestamp]; the argument is the number of whole
    seconds since the epoch (the clock is the environment; a clock before the
    epoch counts as 0). *)
Definition timestamp (secs : N) : string :=
  let days := (secs / 86400)%N in
  let seconds := (secs mod 86400)%N in
  let year := (1970 + days / 365)%N in
  let remaining := (days mod 365)%N in
  let month := (1 + remaining / 30)%N in
  let day := (1 + remaining mod 30)%N in
  let hours := (seconds / 3600)%N in
  let minutes := ((seconds mod 3600) / 60)%N in
  let s := (seconds mod 60)%N in
  pad 4 year ++ "-" ++ pad 2 month ++ "-" ++ pad 2 day ++ "T" ++ pad 2 hours ++ ":" ++ pad 2 minutes ++ ":" ++ pad 2 s ++ "Z".

(** props_xml.rs:29-43 [create_core_props_xml]; [now] is the timestamp. *)
Definition core_props_xml (now title : string) : string :=
  "<?xml version=""1.0"" encoding=""UTF-8"" standalone=""yes""?>
<cp:coreProperties xmlns:cp=""http://schemas.openxmlformats.org/package/2006/metadata/core-properties"" xmlns:dc=""http://purl.org/dc/elements/1.1/"" xmlns:dcterms=""http://purl.org/dc/terms/"" xmlns:dcmitype=""http://purl.org/dc/dcmitype/"" xmlns:xsi=""http://www.w3.org/2001/XMLSchema-instance"">
<dc:title>" ++ title ++ "</dc:title>
<dc:creator>pptx-rs</dc:creator>
<cp:lastModifiedBy>pptx-rs</cp:lastModifiedBy>
<cp:revision>1</cp:revision>
<dcterms:created xsi:type=""dcterms:W3CDTF"">" ++ now ++ "</dcterms:created>
<dcterms:modified xsi:type=""dcterms:W3CDTF"">" ++ now ++ "</dcterms:modified>
</cp:coreProperties>".

(** props_xml.rs:66-81 [heading_pairs_and_titles]. *)
Definition heading_pairs_and_titles (titles : list string) : string :=
  let count := decn (length titles) in
  let titles_xml := sconcat (map (fun t => "<vt:lpstr>" ++ props_xml_escape t ++ "</vt:lpstr>") titles) in
  "<HeadingPairs><vt:vector size=""2"" baseType=""variant""><vt:variant><vt:lpstr>Slide Titles</vt:lpstr></vt:variant><vt:variant><vt:i4>" ++ count
  ++ "</vt:i4></vt:variant></vt:vector></HeadingPairs><TitlesOfParts><vt:vector size=""" ++ count ++ """ baseType=""lpstr"">" ++ titles_xml
  ++ "</vt:vector></TitlesOfParts>".

(** props_xml.rs:90-98: cut or padded titles. *)
Definition fit_titles (slides : nat) (titles : list string) : list string :=
  if Nat.leb slides (length titles) then firstn slides titles
  else titles ++ map (fun i => "Slide " ++ decn (i + 1)) (seq (length titles) (slides - length titles)).

(** props_xml.rs:89-122 [create_app_props_xml]. *)
Definition app_props_xml (slides notes : nat) (titles : list string) : string :=
  "<?xml version=""1.0"" encoding=""UTF-8"" standalone=""yes""?>
<Properties xmlns=""http://schemas.openxmlformats.org/officeDocument/2006/extended-properties"" xmlns:vt=""http://schemas.openxmlformats.org/officeDocument/2006/docPropsVTypes"">
<TotalTime>0</TotalTime>
<Words>0</Words>
<Application>pptx-rs</Application>
<PresentationFormat>On-screen Show (4:3)</PresentationFormat>
<Paragraphs>0</Paragraphs>
<Slides>" ++ decn slides ++ "</Slides>
<Notes>" ++ decn notes ++ "</Notes>
<HiddenSlides>0</HiddenSlides>
<MMClips>0</MMClips>
<ScaleCrop>false</ScaleCrop>
" ++ heading_pairs_and_titles (fit_titles slides titles) ++ "
<LinksUpToDate>false</LinksUpToDate>
<SharedDoc>false</SharedDoc>
<HyperlinksChanged>false</HyperlinksChanged>
<AppVersion>1.0000</AppVersion>
</Properties>".

(** builder.rs:461-500 [collect_slide_titles] of given slides (their titles);
    without slides every title is a placeholder.  [trim] is on ASCII white space. *)
Definition slide_title (i : nat) (t : string) : string :=
  if String.eqb (trim t) "" then "Slide " ++ decn (i + 1) else t.
Fixpoint slide_titles_from (i : nat) (l : list string) : list string :=
  match l with [] => [] | t :: l => slide_title i t :: slide_titles_from (S i) l end.
Definition collect_slide_titles (slides : option (list string)) (count : nat) : list string :=
  match slides with
  | Some l => slide_titles_from 0 l
  | None => map (fun i => "Slide " ++ decn (i + 1)) (seq 0 count)
  end.
(** builder.rs:483-500, the lazy version: a source that may have no slide [i]. *)
Definition collect_slide_titles_lazy (source : nat -> option string) (count : nat) : list string :=
  map (fun i => match source i with Some t => slide_title i t | None => "Slide " ++ decn (i + 1) end) (seq 0 count).
