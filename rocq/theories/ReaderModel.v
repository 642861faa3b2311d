(** Model of src/oxml/slide.rs (the slide parser) and of
    src/oxml/presentation.rs (the presentation reader), on the element tree of
    XmlTreeModel. *)
From Coq Require Import String Ascii List Bool NArith ZArith.
From Verif Require Import Str Num XmlSpec XmlTreeModel ShapeModel PackageModel.
Import ListNotations.
Open Scope string_scope.

(** [v.parse::<i64>().ok()] *)
Definition i64_max : N := 9223372036854775807.
Definition parse_i64 (s : string) : option Z :=
  match s with
  | String "-" s' => option_map (fun n => Z.opp (Z.of_N n)) (parse_digits 9223372036854775808 s')
  | _ => option_map Z.of_N (parse_uint i64_max s)
  end.
Definition or {A} (d : A) (o : option A) : A := match o with Some a => a | None => d end.
Definition bind {A B} (o : option A) (f : A -> option B) : option B := match o with Some a => f a | None => None end.

(** slide.rs:10-18, 34-37, 59-69, 96-106, 127-132 *)
Record run := Run { r_text : string; r_bold : bool; r_italic : bool; r_underline : bool; r_size : option N; r_color : option string }.
Record para := Para { runs : list run; level : N }.
Record pshape := PShape { ps_name : string; ps_type : option string; ps_paras : list para; ps_x : Z; ps_y : Z; ps_w : Z; ps_h : Z; ps_title : bool; ps_body : bool }.
Record pcell := PCell { pc_text : string; pc_rows : N; pc_cols : N }.
Record pslide := PSlide { sl_shapes : list pshape; sl_tables : list (list (list pcell)); sl_title : option string; sl_body : list string }.
(** slide.rs:48-50 [Paragraph::text], 87-93 [ParsedShape::text] *)
Definition para_text (p : para) : string := sconcat (map r_text (runs p)).
Definition pshape_text (s : pshape) : string := sjoin nl (map para_text (ps_paras s)).
(** slide.rs:145-158 [all_text] *)
Definition slide_all_text (s : pslide) : list string :=
  ((match sl_title s with Some t => [t] | None => [] end) ++ sl_body s
   ++ filter (fun t => negb (String.eqb t "")) (map pshape_text (sl_shapes s)))%list.

(** slide.rs:243-292 [parse_text_body] *)
Definition flag (e : xel) (k : string) : bool := match attr_of k e with Some v => String.eqb v "1" || String.eqb v "true" | None => false end.
Definition parse_run (r : xel) : list run :=
  let text := match find_child "t" r with Some t => text_content t | None => "" end in
  if String.eqb text "" then []
  else match find_child "rPr" r with
       | Some p => [Run text (flag p "b") (flag p "i") (match attr_of "u" p with Some _ => true | None => false end)
                     (bind (attr_of "sz" p) (parse_uint u32_max))
                     (bind (bind (find_descendant "solidFill" p) (find_child "srgbClr")) (attr_of "val"))]
       | None => [Run text false false false None None]
       end.
Definition parse_para (p : xel) : list para :=
  let lvl := or 0%N (bind (bind (find_child "pPr" p) (attr_of "lvl")) (parse_uint u32_max)) in
  match flat_map parse_run (find_all "r" p) with [] => [] | l => [Para l lvl] end.
Definition parse_text_body (b : xel) : list para := flat_map parse_para (find_all "p" b).
(** slide.rs:209-241 [parse_shape]; it always succeeds *)
Definition coord (o : option xel) (k : string) : Z := or 0%Z (bind (bind o (attr_of k)) parse_i64).
Definition parse_shape (sp : xel) : pshape :=
  let xfrm := find_descendant "xfrm" sp in
  PShape (or "Shape" (bind (find_descendant "cNvPr" sp) (attr_of "name")))
    (bind (find_descendant "prstGeom" sp) (attr_of "prst"))
    (match find_descendant "txBody" sp with Some b => parse_text_body b | None => [] end)
    (coord (bind xfrm (find_child "off")) "x") (coord (bind xfrm (find_child "off")) "y")
    (coord (bind xfrm (find_child "ext")) "cx") (coord (bind xfrm (find_child "ext")) "cy") false false.
(** slide.rs:294-338 [is_title_shape], [is_body_shape]; [to_lowercase] acts on
    ASCII letters here, and no other character lowers to one of those sought *)
Definition ph_of (sp : xel) : option xel := bind (find_descendant "nvPr" sp) (find_child "ph").
Definition name_has (w : string) (sp : xel) : bool :=
  match bind (find_descendant "cNvPr" sp) (attr_of "name") with Some n => contains w (lowercase n) | None => false end.
Definition is_title_shape (sp : xel) : bool :=
  (match ph_of sp with Some ph => let t := or "" (attr_of "type" ph) in String.eqb t "title" || String.eqb t "ctrTitle" | None => false end)
  || name_has "title" sp.
Definition is_body_shape (sp : xel) : bool :=
  (match ph_of sp with Some ph => let t := or "body" (attr_of "type" ph) in String.eqb t "body" || String.eqb t "" | None => false end)
  || name_has "content" sp.
(** slide.rs:340-375 [parse_table_from_graphic_frame] *)
Definition parse_cell (tc : xel) : pcell :=
  PCell (match find_descendant "t" tc with Some t => text_content t | None => "" end)
    (or 1%N (bind (attr_of "rowSpan" tc) (parse_uint u32_max))) (or 1%N (bind (attr_of "gridSpan" tc) (parse_uint u32_max))).
Definition parse_row (tr : xel) : list (list pcell) := match map parse_cell (find_all "tc" tr) with [] => [] | r => [r] end.
Definition parse_table (gf : xel) : list (list (list pcell)) :=
  match find_descendant "tbl" gf with
  | Some tbl => match flat_map parse_row (find_all "tr" tbl) with [] => [] | rows => [rows] end
  | None => []
  end.
(** slide.rs:173-207 [parse]: the loop over the shapes *)
Definition add_shape (s : pslide) (sp : xel) : pslide :=
  let '(PShape n t ps x y w h _ _) := parse_shape sp in
  if is_title_shape sp then
    PSlide (sl_shapes s ++ [PShape n t ps x y w h true false])%list (sl_tables s) (Some (pshape_text (PShape n t ps x y w h true false))) (sl_body s)
  else if is_body_shape sp then
    PSlide (sl_shapes s ++ [PShape n t ps x y w h false true])%list (sl_tables s) (sl_title s)
      (sl_body s ++ filter (fun t => negb (String.eqb t "")) (map para_text ps))%list
  else PSlide (sl_shapes s ++ [PShape n t ps x y w h false false])%list (sl_tables s) (sl_title s) (sl_body s).
Definition parse_slide (xml : string) : option pslide :=
  match parse_str xml with
  | None => None
  | Some root =>
      match find_descendant "spTree" root with
      | None => Some (PSlide [] [] None [])
      | Some t =>
          let s := fold_left add_shape (find_all "sp" t) (PSlide [] [] None []) in
          Some (PSlide (sl_shapes s) (flat_map parse_table (find_all "graphicFrame" t)) (sl_title s) (sl_body s))
      end
  end.

(** presentation.rs:12-20 [PresentationInfo] and 43-47 [PresentationReader] *)
Record info := Info { i_title : option string; i_creator : option string; i_modifier : option string; i_created : option string; i_modified : option string; i_revision : option N; i_count : nat }.
Record reader := Reader { rd_package : package; rd_info : info; rd_slides : list string }.
(** presentation.rs:117-152 [parse_core_properties] *)
Definition text_of (n : string) (root : xel) : option string :=
  match find_descendant n root with Some e => let t := text_content e in if String.eqb t "" then None else Some t | None => None end.
Definition core_info (p : package) : info :=
  match bind (get_part p "docProps/core.xml") parse_str with
  | Some r => Info (text_of "title" r) (text_of "creator" r) (text_of "lastModifiedBy" r) (text_of "created" r) (text_of "modified" r)
                (bind (find_descendant "revision" r) (fun e => parse_uint u32_max (text_content e))) 0
  | None => Info None None None None None None 0
  end.
(** [sort], [sort_by]: stable sorts, written as insertion. *)
Fixpoint insert_by {A} (le : A -> A -> bool) (x : A) (l : list A) : list A :=
  match l with [] => [x] | y :: r => if le x y then x :: y :: r else y :: insert_by le x r end.
Definition sort_by {A} (le : A -> A -> bool) (l : list A) : list A := fold_right (insert_by le) [] l.
(** [id.trim_start_matches("rId").parse().unwrap_or(0)]; one step of the trim
    removes three characters, so the length is enough fuel *)
Fixpoint trim_matches (n : nat) (p s : string) : string :=
  match n with O => s | S n => match strip_prefix p s with Some r => trim_matches n p r | None => s end end.
Definition rid_number (id : string) : N := or 0%N (parse_uint u32_max (trim_matches (String.length id) "rId" id)).
(** presentation.rs:163-176: the slide relationships and their part names *)
Definition is_slide_type (t : string) : bool := contains "/slide" t && negb (contains "Layout" t) && negb (contains "Master" t).
Definition full_path (t : string) : string := match strip_prefix "/" t with Some r => r | None => "ppt/" ++ t end.
Definition slide_rel (r : xel) : list (string * string) :=
  if is_slide_type (or "" (attr_of "Type" r)) then
    match attr_of "Id" r, attr_of "Target" r with Some i, Some t => [(i, full_path t)] | _, _ => [] end
  else [].
(** presentation.rs:154-203 [parse_presentation_xml]; [keys] is what
    [part_paths] gives, in hash map order *)
Definition rels_paths (p : package) : list string :=
  match bind (get_part p "ppt/_rels/presentation.xml.rels") parse_str with
  | Some root => map snd (sort_by (fun a b => (rid_number (fst a) <=? rid_number (fst b))%N) (flat_map slide_rel (find_all "Relationship" root)))
  | None => []
  end.
Definition scanned (keys : list string) : list string :=
  sort_by String.leb (filter (fun p => starts_with "ppt/slides/slide" p && ends_with ".xml" p && negb (contains "_rels" p)) keys).
Definition slide_paths (p : package) (keys : list string) : list string :=
  match rels_paths p with [] => scanned keys | l => l end.
(** presentation.rs:51-60 [open] after the package, 105-115 [parse_structure] *)
Definition reader_open (p : package) (keys : list string) : reader :=
  let '(Info a b c d e f _) := core_info p in
  let l := slide_paths p keys in
  Reader p (Info a b c d e f (length l)) l.
(** presentation.rs:63-103 *)
Definition rd_count (r : reader) : nat := length (rd_slides r).
Definition get_slide (r : reader) (i : nat) : option pslide :=
  bind (bind (nth_error (rd_slides r) i) (get_part (rd_package r))) parse_slide.
Fixpoint opt_all {A} (l : list (option A)) : option (list A) :=
  match l with [] => Some [] | o :: l => match o, opt_all l with Some a, Some r => Some (a :: r) | _, _ => None end end.
Definition get_all_slides (r : reader) : option (list pslide) := opt_all (map (get_slide r) (seq 0 (rd_count r))).
Definition extract_all_text (r : reader) : option (list string) := option_map (flat_map slide_all_text) (get_all_slides r).
