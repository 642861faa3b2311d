(** What a reader of a deck finds for its settings, said without the code. *)
From Coq Require Import String Ascii List Bool Arith NArith ZArith.
From Verif Require Import Str XmlSpec XmlPath OpcSpec SlideModel.
Import ListNotations.
Open Scope nat_scope.
Open Scope string_scope.

(** An xsd:boolean attribute with its default. *)
Definition flag (k : string) (default : bool) (x : node) : bool :=
  match attr_opt k x with
  | Some v => if String.eqb v "1" || String.eqb v "true" then true else if String.eqb v "0" || String.eqb v "false" then false else default
  | None => default
  end.
Definition has (n : string) (x : node) : bool := match named n (children x) with [] => false | _ => true end.

(** ** Slide show properties (ISO/IEC 29500-1, 19.2.1.30 showPr, with the defaults
    of its attributes) *)
Definition show_loops (x : node) : bool := flag "loop" false x.
Definition show_narrates (x : node) : bool := flag "showNarration" false x.
Definition show_animates (x : node) : bool := flag "showAnimation" true x.
Definition show_timed (x : node) : bool := flag "useTimings" true x.
(** Presented by a speaker, at a kiosk, browsed by an individual. *)
Definition show_kind (x : node) : bool * bool * bool := (has "p:present" x, has "p:kiosk" x, has "p:browse" x).
(** The slides shown: all of them, or a range of them by number. *)
Inductive extent := Every | Between (first last : string) | Other.
Definition show_extent (x : node) : extent :=
  match named "p:sldAll" (children x), named "p:sldRg" (children x), named "p:custShow" (children x) with
  | [_], [], [] => Every
  | [], [r], [] => Between (attr "st" r) (attr "end" r)
  | _, _, _ => Other
  end.
Definition show_pen (x : node) : list string := map (attr "val") (at_path ["p:penClr"; "a:srgbClr"] x).
Definition show_laser (x : node) : list string := map (attr "val") (at_path ["p:extLst"; "p:ext"; "p14:laserClr"; "a:srgbClr"] x).
Definition show_media_controls (x : node) : bool := existsb (flag "val" true) (at_path ["p:extLst"; "p:ext"; "p14:showMediaCtrls"] x).

(** The number a string of hexadecimal digits stands for. *)
Definition hex_value (c : ascii) : option N :=
  let n := N_of_ascii c in
  if (N.leb 48 n && N.leb n 57)%bool then Some (n - 48)%N
  else if (N.leb 65 n && N.leb n 70)%bool then Some (n - 55)%N
  else if (N.leb 97 n && N.leb n 102)%bool then Some (n - 87)%N
  else None.
Fixpoint hex_from (a : N) (s : string) : option N :=
  match s with "" => Some a | String c s => match hex_value c with Some d => hex_from (16 * a + d)%N s | None => None end end.
Definition hex_number (s : string) : option N := match s with "" => None | _ => hex_from 0 s end.

(** ** Placeholders of a master or a layout *)
(** The shapes, each with its number, its placeholder type and its text (runs and
    fields). *)
Definition shapes_of (x : node) : list node := at_path ["p:cSld"; "p:spTree"; "p:sp"] x.
Definition shape_number (s : node) : list string := map (attr "id") (at_path ["p:nvSpPr"; "p:cNvPr"] s).
Definition placeholder_type (s : node) : list string := map (attr "type") (at_path ["p:nvSpPr"; "p:nvPr"; "p:ph"] s).
Definition placeholder_index (s : node) : list (option string) := map (attr_opt "idx") (at_path ["p:nvSpPr"; "p:nvPr"; "p:ph"] s).
Definition shape_runs (s : node) : list string := map text_in (at_path ["p:txBody"; "a:p"; "a:r"; "a:t"] s).
Definition shape_fields (s : node) : list string := map (attr "type") (at_path ["p:txBody"; "a:p"; "a:fld"] s).
(** The placeholders of a page of this type. *)
Definition placeholders (t : string) (x : node) : list node := filter (fun s => existsb (String.eqb t) (placeholder_type s)) (shapes_of x).
(** The numbers of all shapes of a page, its root group included. *)
Definition drawing_numbers (x : node) : list string :=
  (map (attr "id") (at_path ["p:cSld"; "p:spTree"; "p:nvGrpSpPr"; "p:cNvPr"] x) ++ flat_map shape_number (shapes_of x))%list.

(** A page shows a header (its text runs), a footer, the date and the page
    number, each in a placeholder of its own, and has no other shape; no number
    is used for two shapes. *)
Definition page_says (header : option (list string)) (footer : option string) (date number : bool) (x : node) : Prop :=
  map shape_runs (placeholders "hdr" x) = match header with Some l => [l] | None => [] end
  /\ map shape_runs (placeholders "ftr" x) = match footer with Some f => [[f]] | None => [] end
  /\ map shape_fields (placeholders "dt" x) = (if date then [["datetimeFigureOut"]] else [])
  /\ map shape_fields (placeholders "sldNum" x) = (if number then [["slidenum"]] else [])
  /\ length (shapes_of x) = length (placeholders "hdr" x) + length (placeholders "ftr" x) + length (placeholders "dt" x) + length (placeholders "sldNum" x)
  /\ NoDup (drawing_numbers x).

(** ** Layouts: the type and name of the layout a slide asks for, and the
    placeholders it offers *)
Definition layout_type (l : layout) : string :=
  match l with
  | CenteredTitle => "title" | TitleAndContent => "obj" | TwoColumn => "twoObj" | SectionHeader => "secHead" | Blank => "blank" | TitleOnly => "titleOnly" | TitleAndBigContent => "obj"
  end.
Definition layout_title (l : layout) : string :=
  match l with
  | CenteredTitle => "Title Slide" | TitleAndContent => "Title and Content" | TwoColumn => "Two Content" | SectionHeader => "Section Header"
  | Blank => "Blank" | TitleOnly => "Title Only" | TitleAndBigContent => "Title and Big Content"
  end.
Definition layout_offers (l : layout) : list (string * option string) :=
  match l with
  | CenteredTitle => [("ctrTitle", None); ("subTitle", None)]
  | TitleAndContent | SectionHeader | TitleAndBigContent => [("title", None); ("body", Some "1")]
  | TwoColumn => [("title", None); ("body", Some "1"); ("body", Some "2")]
  | Blank => []
  | TitleOnly => [("title", None)]
  end.
(** The integer a numeral stands for. *)
Definition digit_value (c : ascii) : option Z := let n := N_of_ascii c in if (N.leb 48 n && N.leb n 57)%bool then Some (Z.of_N n - 48)%Z else None.
Fixpoint digits_from (a : Z) (s : string) : option Z :=
  match s with "" => Some a | String c s => match digit_value c with Some d => digits_from (10 * a + d)%Z s | None => None end end.
Definition integer (s : string) : option Z :=
  match s with
  | "" => None
  | String "-" "" => None
  | String "-" s => option_map Z.opp (digits_from 0 s)
  | s => digits_from 0 s
  end.
(** The rectangle a shape covers, and shapes on a page of this size that do not
    overlap. *)
Definition pair_of (a b : string) (x : node) : option (Z * Z) := match integer (attr a x), integer (attr b x) with Some v, Some w => Some (v, w) | _, _ => None end.
Definition box_of (s : node) : option (Z * Z * Z * Z) :=
  match map (pair_of "x" "y") (at_path ["p:spPr"; "a:xfrm"; "a:off"] s), map (pair_of "cx" "cy") (at_path ["p:spPr"; "a:xfrm"; "a:ext"] s) with
  | [Some (x, y)], [Some (w, h)] => Some (x, y, w, h)
  | _, _ => None
  end.
Definition on_page (w h : Z) (s : node) : Prop := exists x y cx cy, box_of s = Some (x, y, cx, cy) /\ (0 <= x /\ 0 < cx /\ x + cx <= w /\ 0 <= y /\ 0 < cy /\ y + cy <= h)%Z.
Definition apart (s t : node) : Prop :=
  exists x y cx cy x' y' cx' cy', box_of s = Some (x, y, cx, cy) /\ box_of t = Some (x', y', cx', cy') /\ (x + cx <= x' \/ x' + cx' <= x \/ y + cy <= y' \/ y' + cy' <= y)%Z.
(** The layout part [x] is the one asked for. *)
Definition is_layout (l : layout) (x : node) : Prop :=
  attr "type" x = layout_type l /\ map (attr "name") (at_path ["p:cSld"] x) = [layout_title l]
  /\ map (fun s => (placeholder_type s, placeholder_index s)) (shapes_of x) = map (fun p => ([fst p], [snd p])) (layout_offers l)
  /\ NoDup (drawing_numbers x) /\ Forall (on_page 9144000 6858000) (shapes_of x) /\ ForallOrdPairs apart (shapes_of x).

(** ** Themes (20.1.6) *)
Definition slots : list string := ["a:dk1"; "a:lt1"; "a:dk2"; "a:lt2"; "a:accent1"; "a:accent2"; "a:accent3"; "a:accent4"; "a:accent5"; "a:accent6"; "a:hlink"; "a:folHlink"].
Definition slot_color (x : node) (slot : string) : list string :=
  (map (attr "val") (at_path ["a:themeElements"; "a:clrScheme"; slot; "a:srgbClr"] x)
   ++ map (attr "lastClr") (at_path ["a:themeElements"; "a:clrScheme"; slot; "a:sysClr"] x))%list.
Definition theme_colors (x : node) : list (list string) := map (slot_color x) slots.
Definition latin_face (x : node) (font : string) : list string := map (attr "typeface") (at_path ["a:themeElements"; "a:fontScheme"; font; "a:latin"] x).

(** ** Signature parts *)
Definition signature_info (x : node) (n : string) : list string :=
  map text_in (at_path ["Object"; "SignatureProperties"; "SignatureProperty"; "SignatureInfoV1"; n] x).
Definition signature_method (x : node) : list string := map (attr "Algorithm") (at_path ["SignedInfo"; "SignatureMethod"] x).
Definition key_name (x : node) : list string := map text_in (at_path ["KeyInfo"; "KeyName"] x).

(** ** Ink parts (InkML): a trace names its brush by "#" and the brush's id. *)
Definition brushes (x : node) : list node := at_path ["ink:brush"] x.
Definition traces (x : node) : list node := at_path ["ink:trace"] x.
Definition brush_of (x t : node) : option node := find (fun b => String.eqb (attr "brushRef" t) ("#" ++ attr "id" b)) (brushes x).
(** White-space separated integers. *)
Fixpoint pairs_of {A} (l : list (option A)) : option (list (A * A)) :=
  match l with
  | [] => Some []
  | Some x :: Some y :: r => option_map (cons (x, y)) (pairs_of r)
  | _ => None
  end.
Definition words (s : string) : list string := filter (fun w => negb (String.eqb w "")) (split_char " " s).
Definition trace_points (t : node) : option (list (Z * Z)) := pairs_of (map integer (words (text_in t))).
