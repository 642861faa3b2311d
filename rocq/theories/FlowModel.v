(** Model of src/cli/markdown/mermaid/types.rs and flowchart.rs: a Mermaid
    flowchart read from its text and laid out as shapes and connectors.

    Coordinates, sizes and shape numbers are [u32] and wrap as in a release
    build.  The nodes are held in a hash map, so the order in which they are
    laid out is arbitrary: [order].  Whether a text consists of alphanumeric
    characters and underscores only ([char::is_alphanumeric], Unicode) is
    arbitrary too: [wordy].  [str::to_uppercase] is the ASCII one. *)
From Coq Require Import String Ascii List Bool Arith NArith ZArith.
From Verif Require Import Str Num ColorModel TableModel ShapeModel ConnectorModel.
Import ListNotations.
Open Scope string_scope.
Open Scope N_scope.

Definition add (a b : N) : N := wadd u32_max a b.
Definition sub (a b : N) : N := wsub u32_max a b.
Definition mul (a b : N) : N := wmul u32_max a b.
(** [usize as u32] *)
Definition idx (n : nat) : N := (N.of_nat n mod (u32_max + 1))%N.

(** shapes.rs:621-657 [with_id], [with_fill], [with_line], [with_text]; the
    colours given here are upper case already *)
Definition with_id (i : N) (s : shape) : shape := Shape (sh_type s) (sh_x s) (sh_y s) (sh_w s) (sh_h s) (sh_fill s) (sh_gradient s) (sh_line s) (sh_text s) (Some i) (sh_rotation s) (sh_link s) (sh_autofit s) (sh_dark s).
Definition with_fill (c : string) (s : shape) : shape := Shape (sh_type s) (sh_x s) (sh_y s) (sh_w s) (sh_h s) (Some (Fill c None)) None (sh_line s) (sh_text s) (sh_id s) (sh_rotation s) (sh_link s) (sh_autofit s) (sh_dark s).
Definition with_line (c : string) (w : N) (s : shape) : shape := Shape (sh_type s) (sh_x s) (sh_y s) (sh_w s) (sh_h s) (sh_fill s) (sh_gradient s) (Some (Line c w)) (sh_text s) (sh_id s) (sh_rotation s) (sh_link s) (sh_autofit s) (sh_dark s).
Definition with_text (t : string) (s : shape) : shape := Shape (sh_type s) (sh_x s) (sh_y s) (sh_w s) (sh_h s) (sh_fill s) (sh_gradient s) (sh_line s) (Some t) (sh_id s) (sh_rotation s) (sh_link s) (sh_autofit s) (sh_dark s).

(** types.rs:25-82 *)
Inductive direction := LeftToRight | RightToLeft | TopToBottom | BottomToTop.
Inductive node_shape := NRect | NRound | NStadium | NDiamond | NCircle | NHexagon.
Record node := Node { n_id : string; n_label : string; n_shape : node_shape }.
Inductive arrow_style := SArrow | SOpen | SDotted | SThick.
Record edge := Edge { e_from : string; e_to : string; e_label : option string; e_style : arrow_style }.
Record subgraph := Subgraph { g_name : string; g_nodes : list string }.
Record flowchart := Flowchart { f_dir : direction; f_nodes : list node; f_edges : list edge; f_groups : list subgraph }.

(** types.rs:84-118 [DiagramBounds::from_elements] *)
Record bounds := Bounds { b_x : N; b_y : N; b_w : N; b_h : N }.
Definition box := (N * N * N * N)%type.
Definition from_elements (l : list box) : option bounds :=
  match l with
  | [] => None
  | _ =>
    let '(x0, y0, x1, y1) := fold_left (fun '(x0, y0, x1, y1) '(x, y, w, h) =>
      (N.min x0 x, N.min y0 y, N.max x1 (add x w), N.max y1 (add y h))) l (u32_max, u32_max, 0, 0) in
    Some (Bounds x0 y0 (sub x1 x0) (sub y1 y0))
  end.
(** types.rs:120-161 [DiagramElements], [from_shapes], [from_shapes_and_connectors] *)
Record drawing := Drawing { d_shapes : list shape; d_connectors : list connector; d_bounds : option bounds }.
Definition from_shapes_and_connectors (shs : list shape) (cns : list connector) : drawing :=
  Drawing shs cns (from_elements (map (fun s => (sh_x s, sh_y s, sh_w s, sh_h s)) shs)).
Definition from_shapes (shs : list shape) : drawing := from_shapes_and_connectors shs [].

(** flowchart.rs:11-22 [parse_direction] *)
Definition parse_direction (first : string) : direction :=
  let l := smap (fun c => s1 (upper c)) first in
  if contains "LR" l then LeftToRight
  else if contains "RL" l then RightToLeft
  else if contains "BT" l then BottomToTop
  else TopToBottom.

(** flowchart.rs:115-125 [split_connection]; the text after the arrow is kept
    with the arrow in front, as in the code *)
Definition split_connection (l : string) : option (string * string) :=
  fold_left (fun r a => match r with Some _ => r | None =>
    match split_once a l with Some (u, v) => Some (trim u, a ++ v) | None => None end end)
    ["==>"; "-.->"; "-->"; "---"; "->"] None.
(** flowchart.rs:127-142 [parse_arrow_and_rest] *)
Definition parse_arrow_and_rest (s : string) : arrow_style * string :=
  match strip_prefix "==>" s with Some r => (SThick, trim r) | None =>
  match strip_prefix "-.->" s with Some r => (SDotted, trim r) | None =>
  match strip_prefix "-->" s with Some r => (SArrow, trim r) | None =>
  match strip_prefix "---" s with Some r => (SOpen, trim r) | None =>
  match strip_prefix "->" s with Some r => (SArrow, trim r) | None => (SArrow, s) end end end end end.
(** flowchart.rs:144-154 [extract_arrow_label] *)
Definition extract_arrow_label (s : string) : string * option string :=
  match split_once "|" s with
  | Some (_, t) => match split_once "|" t with Some (l, r) => (trim r, Some l) | None => (s, None) end
  | None => (s, None)
  end.
(** flowchart.rs:161-168, the table of brackets *)
Definition brackets : list (string * string * node_shape) :=
  [("((", "))", NCircle); ("([", "])", NStadium); ("{{", "}}", NHexagon); ("[", "]", NRect); ("(", ")", NRound); ("{", "}", NDiamond)].

Section Flow.
Variable wordy : string -> bool.
Variable order : list node -> list node.

(** flowchart.rs:156-193 [parse_node_def] *)
Definition parse_node_def (s : string) : string * option node :=
  let s := trim s in
  match fold_left (fun r '(o, c, k) => match r with Some _ => r | None =>
    match split_once o s with
    | Some (u, v) => match split_once c v with Some (l, _) => Some (Node (trim u) l k) | None => None end
    | None => None
    end end) brackets None with
  | Some n => (n_id n, Some n)
  | None => if negb (String.eqb s "") && wordy s then (s, Some (Node s s NRect)) else (s, None)
  end.

(** The variables of the loop of [parse], flowchart.rs:29-32; [p_nodes] in the
    order of insertion *)
Record pstate := PState { p_nodes : list node; p_edges : list edge; p_groups : list subgraph; p_current : option subgraph }.
(** flowchart.rs:68-75, 81-88, 98-105: [entry(id).or_insert(node)] and the
    current subgraph *)
Definition note_node (d : string * option node) (p : pstate) : pstate :=
  match d with
  | (i, Some n) =>
    PState (if existsb (fun m => String.eqb (n_id m) i) (p_nodes p) then p_nodes p else (p_nodes p ++ [n])%list)
           (p_edges p) (p_groups p)
           (match p_current p with
            | Some g => Some (if existsb (String.eqb i) (g_nodes g) then g else Subgraph (g_name g) (g_nodes g ++ [i])%list)
            | None => None
            end)
  | (_, None) => p
  end.
(** flowchart.rs:34-107, the body of the loop *)
Definition parse_line (p : pstate) (line : string) : pstate :=
  let l := trim line in
  if String.eqb l "" || starts_with "%%" l then p
  else match strip_prefix "subgraph" l with
  | Some r => PState (p_nodes p) (p_edges p) (p_groups p) (Some (Subgraph (trim r) []))
  | None =>
    if String.eqb l "end" then
      match p_current p with Some g => PState (p_nodes p) (p_edges p) (p_groups p ++ [g])%list None | None => p end
    else match split_connection l with
    | Some (u, r) =>
      let '(st, v) := parse_arrow_and_rest r in
      let a := parse_node_def u in
      let '(v, lab) := extract_arrow_label v in
      let b := parse_node_def v in
      let p := note_node b (note_node a p) in
      PState (p_nodes p) (p_edges p ++ [Edge (fst a) (fst b) lab st])%list (p_groups p) (p_current p)
    | None => note_node (parse_node_def l) p
    end
  end.
(** flowchart.rs:24-113 [parse]; [lines().next().unwrap_or("")] *)
Definition flow_parse (code : string) : flowchart :=
  let '(first, rest) := match lines code with [] => ("", []) | f :: r => (f, r) end in
  let p := fold_left parse_line rest (PState [] [] [] None) in
  Flowchart (parse_direction first) (order (p_nodes p)) (p_edges p) (p_groups p).

(** flowchart.rs:430-433 [get_subgraph_color] *)
Definition subgraph_color (i : nat) : string := nth (i mod 6)%nat ["E3F2FD"; "F3E5F5"; "E8F5E9"; "FFF3E0"; "E0F7FA"; "FCE4EC"] "".
(** flowchart.rs:435-464 [create_node_shape] *)
Definition node_shape_type (k : node_shape) : shape_type :=
  match k with NRect => KRectangle | NRound | NStadium => KRoundedRectangle | NDiamond => KDiamond | NCircle => KEllipse | NHexagon => KHexagon end.
Definition node_fill (k : node_shape) : string := match k with NDiamond => "FFF3E0" | NCircle => "E3F2FD" | _ => "FFFFFF" end.
Definition create_node_shape (n : node) (x y w h i : N) : shape :=
  with_text (n_label n) (with_line "1565C0" 2 (with_fill (node_fill (n_shape n)) (with_id i (shape_new (node_shape_type (n_shape n)) x y w h)))).

(** The variables of [generate_elements], flowchart.rs:197-229: shapes, boxes
    that count for the bounds, positions and numbers of the nodes, and the next
    shape number.  The two hash maps are lists with the newest entry first. *)
Record lay := Lay { l_shapes : list shape; l_boxes : list box; l_pos : list (string * (N * N)); l_ids : list (string * N); l_next : N }.
Fixpoint lookup {A} (k : string) (l : list (string * A)) : option A :=
  match l with [] => None | (k', v) :: l => if String.eqb k k' then Some v else lookup k l end.
(** flowchart.rs:212-215 *)
Definition node_width : N := 1400000.
Definition node_height : N := 500000.
Definition h_spacing : N := 1800000.
Definition v_spacing : N := 900000.
(** flowchart.rs:269-275, 288-294, 324-330 *)
Definition put_node (n : node) (x y : N) (l : lay) : lay :=
  Lay (l_shapes l ++ [create_node_shape n x y node_width node_height (l_next l)])%list
      (l_boxes l ++ [(x, y, node_width, node_height)])%list
      ((n_id n, (x, y)) :: l_pos l) ((n_id n, l_next l) :: l_ids l) (add (l_next l) 1).
(** flowchart.rs:263-277, one node of a subgraph, [find] first *)
Definition put_member (nodes : list node) (sgx sgy : N) (l : lay) (ki : nat * string) : lay :=
  match find (fun n => String.eqb (n_id n) (snd ki)) nodes with
  | Some n => put_node n (add sgx 200000) (add (add (add sgy 250000) 200000) (mul (idx (fst ki)) v_spacing)) l
  | None => l
  end.
Definition numbered {A} (l : list A) : list (nat * A) := combine (seq 0 (length l)) l.
(** flowchart.rs:236-280, one subgraph; the state also holds [subgraph_x] *)
Definition put_group (nodes : list node) (s : lay * N) (kg : nat * subgraph) : lay * N :=
  let '(l, sgx) := s in
  let '(k, g) := kg in
  let w := add node_width 400000 in
  let h := add (add (mul (idx (length (g_nodes g))) v_spacing) 400000) 250000 in
  let back := with_line "757575" 1 (with_fill (subgraph_color k) (shape_new KRoundedRectangle sgx 1600000 w h)) in
  let title := with_text (g_name g) (with_id (l_next l) (shape_new KRectangle (add sgx 50000) (add 1600000 50000) (sub w 100000) 250000)) in
  let l := Lay (l_shapes l ++ [back; title])%list (l_boxes l ++ [(sgx, 1600000, w, h)])%list (l_pos l) (l_ids l) (add (l_next l) 1) in
  (fold_left (put_member nodes sgx 1600000) (numbered (g_nodes g)) l, add sgx (add w 600000)).
(** flowchart.rs:282-298, a node of no subgraph; the state also holds [orphan_y] *)
Definition put_orphan (x : N) (s : lay * N) (n : node) : lay * N :=
  let '(l, y) := s in
  match lookup (n_id n) (l_pos l) with
  | Some _ => s
  | None => (put_node n x y l, add y v_spacing)
  end.
(** flowchart.rs:217-220 *)
Definition horizontal (d : direction) : bool := match d with LeftToRight | RightToLeft => true | _ => false end.
(** flowchart.rs:300-332, the grid *)
Definition put_cell (hz : bool) (count : nat) (l : lay) (kn : nat * node) : lay :=
  let cols := if hz then Nat.min count 5 else 1%nat in
  let '(i, n) := kn in
  let col := (i mod cols)%nat in
  let row := (i / cols)%nat in
  put_node n (add 1000000 (mul (idx col) h_spacing)) (add 1800000 (mul (idx (if hz then row else i)) v_spacing)) l.
(** flowchart.rs:231-332 *)
Definition lay_nodes (f : flowchart) : lay :=
  let l0 := Lay [] [] [] [] 10 in
  match f_groups f with
  | [] => fold_left (put_cell (horizontal (f_dir f)) (length (f_nodes f))) (numbered (f_nodes f)) l0
  | _ =>
    let '(l, sgx) := fold_left (put_group (f_nodes f)) (numbered (f_groups f)) (l0, 500000) in
    fst (fold_left (put_orphan sgx) (f_nodes f) (l, 1600000))
  end.

(** [(a as i32 - b as i32).abs() < 100_000], the arithmetic wrapping; [abs] of
    the smallest number is itself in a release build *)
Definition near (a b : N) : bool :=
  let d := i32 (i32 (Z.of_N a) - i32 (Z.of_N b)) in (i32 (Z.abs d) <? 100000)%Z.
Definition style_color (s : arrow_style) : string := match s with SThick => "E65100" | SDotted => "757575" | SOpen | SArrow => "1565C0" end.
Definition style_dash (s : arrow_style) : dash := match s with SDotted => Dash | _ => Solid end.
(** flowchart.rs:334-415, one connection *)
Definition put_edge (hz : bool) (s : lay * list connector) (e : edge) : lay * list connector :=
  let '(l, cns) := s in
  match lookup (e_from e) (l_pos l), lookup (e_to e) (l_pos l) with
  | Some (fx, fy), Some (tx, ty) =>
    let '(ss, es, x1, y1, x2, y2) :=
      if hz then (Right_, Left_, add fx node_width, add fy (node_height / 2), tx, add ty (node_height / 2))
      else (Bottom, Top, add fx (node_width / 2), add fy node_height, add tx (node_width / 2), ty) in
    let t := if near x1 x2 || near y1 y2 then Straight else Elbow in
    let fi := lookup (e_from e) (l_ids l) in
    let ti := lookup (e_to e) (l_ids l) in
    let c := Connector t x1 y1 x2 y2 (style_color (e_style e)) 19050 (style_dash (e_style e)) NoArrow Triangle Medium
      fi (match fi with Some _ => Some ss | None => None end) ti (match ti with Some _ => Some es | None => None end) None in
    let l := match e_label e with
      | Some t =>
        let mx := add x1 x2 / 2 in
        let my := add y1 y2 / 2 in
        Lay (l_shapes l ++ [with_text t (with_line "757575" 1 (with_fill "FFFFFF" (with_id (l_next l)
               (shape_new KRectangle (mx - 300000) (my - 125000) 600000 250000))))])%list
            (l_boxes l ++ [(sub mx 300000, sub my 125000, 600000, 250000)])%list (l_pos l) (l_ids l) (add (l_next l) 1)
      | None => l
      end in
    (l, (cns ++ [c])%list)
  | _, _ => s
  end.
(** flowchart.rs:195-428 [generate_elements] *)
Definition flow_draw (f : flowchart) : drawing :=
  match f_nodes f with
  | [] => Drawing [] [] None
  | _ =>
    let '(l, cns) := fold_left (put_edge (horizontal (f_dir f))) (f_edges f) (lay_nodes f, []) in
    Drawing (l_shapes l) cns (from_elements (l_boxes l))
  end.
Definition flow_drawing (code : string) : drawing := flow_draw (flow_parse code).
End Flow.
