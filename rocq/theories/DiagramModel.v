(** Model of src/cli/markdown/mermaid other than flowchart.rs, and of the first
    half of [add_mermaid_diagram], src/cli/markdown/parser.rs:434-482: the other
    Mermaid diagrams read from their text and laid out, and the placement of a
    diagram on its slide.

    Numbers are [u32] and wrap as in a release build; [str::to_lowercase] of the
    first line is the ASCII one (it is only compared with ASCII words). *)
From Coq Require Import String Ascii List Bool Arith NArith ZArith.
From Verif Require Import Str Num ColorModel TableModel ShapeModel ConnectorModel FlowModel.
Import ListNotations.
Open Scope string_scope.
Open Scope N_scope.

(** [code.lines().skip(1)], each line trimmed *)
Definition rows (code : string) : list string := map trim (tl (lines code)).
(** [strip_prefix(p).unwrap_or("")] *)
Definition after_word (p s : string) : string := match strip_prefix p s with Some r => r | None => "" end.
(** [split_whitespace().next().unwrap_or("")] *)
Fixpoint until_ws (s : string) : string := match s with "" => "" | String c s => if is_ws c then "" else String c (until_ws s) end.
Definition first_word (s : string) : string := until_ws (trim_start_by is_ws s).
(** [trim_matches] *)
Definition trim_by (p : ascii -> bool) (s : string) : string := trim_end_by p (trim_start_by p s).
(** [split] on a set of characters *)
Fixpoint split_by (p : ascii -> bool) (s : string) : list string :=
  match s with
  | "" => [""]
  | String c s => if p c then "" :: split_by p s else match split_by p s with x :: l => String c x :: l | [] => [s1 c] end
  end.
Definition one_of (l : list ascii) (c : ascii) : bool := existsb (Ascii.eqb c) l.

(** ** sequence.rs *)
(** sequence.rs:8-10: the participants with their names in the order of
    [participant_ids] (every push comes with one insertion into
    [participant_names], so the two are one list) and the messages *)
Record talk := Talk { t_people : list (string * string); t_said : list (string * string * string) }.
Definition join_in (i name : string) (t : talk) : talk :=
  if existsb (fun p => String.eqb (fst p) i) (t_people t) then t else Talk (t_people t ++ [(i, name)])%list (t_said t).
(** sequence.rs:12-51 *)
Definition seq_line (t : talk) (l : string) : talk :=
  if starts_with "participant" l then
    let rest := trim (after_word "participant" l) in
    let '(i, name) := match split_once " as " rest with
      | Some (i, a) => (trim i, trim a)
      | None => let i := first_word rest in (i, i) end in
    if String.eqb i "" then t else join_in i name t
  else if contains "->>" l || contains "-->>" l then
    match split_once (if contains "-->>" l then "-->>" else "->>") l with
    | Some (u, r) =>
      match split_once ":" r with
      | Some (v, m) =>
        let t := join_in (trim v) (trim v) (join_in (trim u) (trim u) t) in
        Talk (t_people t) (t_said t ++ [(trim u, trim v, trim m)])%list
      | None => t
      end
    | None => t
    end
  else t.
(** sequence.rs:53-107, one participant; the state also holds [participant_x] *)
Definition put_person (s : list shape * list (string * N)) (kp : nat * (string * string)) : list shape * list (string * N) :=
  let '(k, (i, name)) := kp in
  let x := add 500000 (mul (idx k) 1800000) in
  let named y := with_text name (with_line "1565C0" 2 (with_fill "E3F2FD" (shape_new KRectangle x y 1400000 400000))) in
  ((fst s ++ [named 1600000;
              with_fill "757575" (shape_new KRectangle (sub (add x (1400000 / 2)) 10000) (add 1600000 400000) 20000 3000000);
              named (add (add 1600000 400000) 3000000)])%list, (i, x) :: snd s).
(** sequence.rs:109-145, one message *)
Definition put_message (xs : list (string * N)) (shs : list shape) (km : nat * (string * string * string)) : list shape :=
  let '(k, (from, to, text)) := km in
  match lookup from xs, lookup to xs with
  | Some fx, Some tx =>
    let y := add (add (add 1600000 400000) 200000) (mul (idx k) 450000) in
    let fc := add fx (1400000 / 2) in
    let tc := add tx (1400000 / 2) in
    let '(ax, aw, back) := if fc <? tc then (fc, sub tc fc, false) else (tc, sub fc tc, true) in
    (shs ++ [with_fill "1565C0" (shape_new (if back then KLeftArrow else KRightArrow) ax y aw 120000);
             with_text text (shape_new KRectangle ax (y - 180000) aw 160000)])%list
  | _, _ => shs
  end.
Definition seq_shapes (code : string) : list shape :=
  let t := fold_left seq_line (rows code) (Talk [] []) in
  let '(shs, xs) := fold_left put_person (numbered (t_people t)) ([], []) in
  fold_left (put_message xs) (numbered (t_said t)) shs.

(** ** Sections with entries: timeline.rs, gantt.rs and journey.rs keep a title,
    finished sections, and the name and entries of the current one *)
Record sect (A : Type) := Sect { s_title : string; s_done : list (string * list A); s_name : string; s_items : list A }.
Arguments Sect {A}. Arguments s_title {A}. Arguments s_done {A}. Arguments s_name {A}. Arguments s_items {A}.
Definition next_section {A} (n : string) (s : sect A) : sect A :=
  if String.eqb (s_name s) "" then Sect (s_title s) (s_done s) n (s_items s)
  else Sect (s_title s) (s_done s ++ [(s_name s, s_items s)])%list n [].
Definition add_item {A} (a : A) (s : sect A) : sect A := Sect (s_title s) (s_done s) (s_name s) (s_items s ++ [a])%list.
Definition set_title {A} (t : string) (s : sect A) : sect A := Sect t (s_done s) (s_name s) (s_items s).
Definition finished {A} (s : sect A) : list (string * list A) :=
  if String.eqb (s_name s) "" then s_done s else (s_done s ++ [(s_name s, s_items s)])%list.

(** timeline.rs:14-38 *)
Definition time_line (s : sect string) (l : string) : sect string :=
  if String.eqb l "" || starts_with "%%" l then s
  else if starts_with "title" l then set_title (trim (after_word "title" l)) s
  else match split_once ":" l with
  | Some (d, i) => let s := next_section (trim d) s in if String.eqb (trim i) "" then s else add_item (trim i) s
  | None => if String.eqb (s_name s) "" then s else add_item l s
  end.
(** timeline.rs:76-113, one event *)
Definition put_event (ke : nat * (string * list string)) : list shape :=
  let '(k, (date, items)) := ke in
  let x := add 500000 (mul (idx k) 1600000) in
  let color := nth (k mod 4)%nat ["EFEBE9"; "D7CCC8"; "BCAAA4"; "A1887F"] "" in
  [with_fill "5D4037" (shape_new KEllipse (sub (add x (1400000 / 2)) 75000) (sub 2500000 60000) 150000 150000);
   with_text date (with_fill "5D4037" (shape_new KRectangle x (sub (sub 2500000 300000) 100000) 1400000 300000));
   with_text (sjoin nl items) (with_line "5D4037" 1 (with_fill color
     (shape_new KRoundedRectangle x (add 2500000 150000) 1400000 (mul (idx (Nat.max (length items) 1)) 250000))))].
(** timeline.rs:40-116 *)
Definition time_shapes (code : string) : list shape :=
  let s := fold_left time_line (rows code) (Sect "" [] "" []) in
  let events := finished s in
  ((if String.eqb (s_title s) "" then [] else [with_text (s_title s) (shape_new KRectangle 500000 1600000 7500000 400000)])
   ++ with_fill "5D4037" (shape_new KRectangle 500000 2500000 (add (mul (idx (length events)) 1600000) 500000) 30000)
   :: flat_map put_event (numbered events))%list.

(** gantt.rs:13-44; the duration is always 3 *)
Definition gantt_line (s : sect string) (l : string) : sect string :=
  if String.eqb l "" || starts_with "%%" l then s
  else if starts_with "title" l then set_title (trim (after_word "title" l)) s
  else if starts_with "section" l then next_section (trim (after_word "section" l)) s
  else if contains ":" l && negb (starts_with "dateFormat" l) && negb (starts_with "axisFormat" l) then
    match split_once ":" l with Some (n, _) => add_item (trim n) s | None => s end
  else s.
(** gantt.rs:72-95, one task; the state is [y] and the shapes *)
Definition put_task (k : nat) (s : N * list shape) (jt : nat * string) : N * list shape :=
  let '(y, shs) := s in
  let '(j, name) := jt in
  let color := nth ((k + j) mod 5)%nat ["4472C4"; "ED7D31"; "70AD47"; "FFC000"; "5B9BD5"] "" in
  (add y 280000,
   (shs ++ [with_text name (shape_new KRectangle 500000 y 2000000 250000);
            with_fill color (shape_new KRoundedRectangle (add (add (add 500000 2000000) 100000) (mul (idx j) 200000)) y (mul 3 600000) 250000)])%list).
(** gantt.rs:64-96 *)
Definition put_gantt (s : N * list shape) (ks : nat * (string * list string)) : N * list shape :=
  let '(y, shs) := s in
  let '(k, (name, tasks)) := ks in
  fold_left (put_task k) (numbered tasks)
    (add y (add 300000 50000), (shs ++ [with_text name (with_fill "E0E0E0" (shape_new KRectangle 500000 y 7000000 300000))])%list).
(** gantt.rs:46-99 *)
Definition gantt_shapes (code : string) : list shape :=
  let s := fold_left gantt_line (rows code) (Sect "" [] "" []) in
  snd (fold_left put_gantt (numbered (finished s))
    (add 1600000 500000, if String.eqb (s_title s) "" then [] else [with_text (s_title s) (shape_new KRectangle 500000 1600000 7000000 400000)])).

(** journey.rs:12-43; [u8] scores, 3 if there is none *)
Definition journey_line (s : sect (string * N)) (l : string) : sect (string * N) :=
  if String.eqb l "" || starts_with "title" l then s
  else if starts_with "section" l then next_section (trim (after_word "section" l)) s
  else if contains ":" l then
    match split_char ":" l with
    | task :: score :: _ => add_item (trim task, match parse_uint 255 (trim score) with Some n => n | None => 3 end) s
    | _ => s
    end
  else s.
(** journey.rs:70-78 *)
Definition score_color (n : N) : string :=
  match n with 1 => "FFCDD2" | 2 => "FFE0B2" | 3 => "FFF9C4" | 4 => "C8E6C9" | 5 => "A5D6A7" | _ => "E0E0E0" end.
(** journey.rs:67-95, one entry; the state is [y] and the shapes *)
Definition put_step (x : N) (s : N * list shape) (i : string * N) : N * list shape :=
  let '(y, shs) := s in
  (add y 400000,
   (shs ++ [with_text (fst i ++ " (" ++ dec (snd i) ++ ")") (with_line "9E9E9E" 12700 (with_fill (score_color (snd i))
      (shape_new KRoundedRectangle (add x 50000) y (sub 2000000 100000) (sub 400000 50000))))])%list).
(** journey.rs:57-98 *)
Definition put_journey (s : N * list shape) (sec : string * list (string * N)) : N * list shape :=
  let '(x, shs) := s in
  (add x (add 2000000 200000),
   snd (fold_left (put_step x) (snd sec)
     (add 1800000 400000, (shs ++ [with_text (fst sec) (with_fill "7B1FA2" (shape_new KRectangle x 1800000 2000000 350000))])%list))).
(** journey.rs:6-117 *)
Definition journey_shapes (code : string) : list shape :=
  let s := fold_left journey_line (rows code) (Sect "" [] "" []) in
  match snd (fold_left put_journey (finished s) (500000, [])) with
  | [] => [with_text "User Journey Diagram" (with_line "7B1FA2" 25400 (with_fill "F3E5F5" (shape_new KRectangle 1000000 2000000 7000000 3000000)))]
  | l => l
  end.

(** ** types.rs:163-265, shapes with labels *)
Inductive label_position := Above | Right_of | Inside_of.
(** types.rs:173-222 [create_labeled_shape] *)
Definition create_labeled_shape (t : shape_type) (x y w h : N) (fill line : option string) (text : string) (p : label_position) : list shape :=
  let bg := shape_new t x y w h in
  let bg := match fill with Some c => with_fill c bg | None => bg end in
  let bg := match line with Some c => with_line c 12700 bg | None => bg end in
  let lw := N.max w 800000 in
  let '(lx, ly) := match p with
    | Above => (sub (add x (w / 2)) (lw / 2), y - (200000 + 50000))
    | Right_of => (add (add x w) 50000, sub (add y (h / 2)) (200000 / 2))
    | Inside_of => (add x 50000, add y 50000) end in
  let '(lw, lh) := match p with Inside_of => (sub w 100000, sub h 100000) | _ => (lw, 200000) end in
  [bg; with_text text (shape_new KRectangle lx ly lw lh)].
(** types.rs:224-265 [create_labeled_dot] *)
Definition create_labeled_dot (x y size : N) (fill : string) (line : option string) (text : string) (p : label_position) : list shape :=
  let dot := with_fill fill (shape_new KCircle x y size size) in
  let dot := match line with Some c => with_line c 25400 dot | None => dot end in
  dot :: match p with
         | Above => [with_text text (shape_new KRectangle (sub (add x (size / 2)) (800000 / 2)) (y - (200000 + 50000)) 800000 200000)]
         | Right_of => [with_text text (shape_new KRectangle (add (add x size) 50000) (sub (add y (size / 2)) (200000 / 2)) 800000 200000)]
         | Inside_of => []
         end.

(** ** gitgraph.rs *)
(** gitgraph.rs:9-12: commits with branch and position, branches, the current
    branch and the number of commits *)
Record git := Git { g_commits : list (string * string * N); g_branches : list string; g_current : string; g_count : N }.
Definition commit (label : string) (g : git) : git :=
  Git (g_commits g ++ [(label, g_current g, g_count g)])%list (g_branches g) (g_current g) (add (g_count g) 1).
(** gitgraph.rs:14-64 *)
Definition git_line (g : git) (l : string) : git :=
  if String.eqb l "" then g
  else if starts_with "commit" l then
    commit (match split_once "id:" l with
      | Some (_, r) => trim_by (Ascii.eqb DQ) (trim (match split_once "id:" r with Some (a, _) => a | None => r end))
      | None => "C" ++ dec (g_count g)
      end) g
  else if starts_with "branch" l then
    let b := trim (after_word "branch" l) in
    if String.eqb b "" || existsb (String.eqb b) (g_branches g) then g else Git (g_commits g) (g_branches g ++ [b])%list (g_current g) (g_count g)
  else if starts_with "checkout" l then
    let b := trim (after_word "checkout" l) in
    if String.eqb b "" then g else Git (g_commits g) (g_branches g) b (g_count g)
  else if starts_with "merge" l then commit ("Merge " ++ trim (after_word "merge" l)) g
  else g.
Definition branch_color (k : nat) : string := nth (k mod 5)%nat ["1565C0"; "2E7D32"; "7B1FA2"; "E65100"; "C2185B"] "".
(** gitgraph.rs:76-108 *)
Definition put_branch (count : N) (kb : nat * string) : list shape :=
  let '(k, b) := kb in
  let y := add 2000000 (mul (idx k) 600000) in
  [with_text b (with_fill (branch_color k) (shape_new KRoundedRectangle (sub 1000000 800000) (sub y 100000) 700000 200000));
   with_fill (branch_color k) (shape_new KRectangle 1000000 (sub y 25000) (add (mul (N.max count 1) 800000) 200000) 50000)].
(** [position(..).unwrap_or(0)] *)
Fixpoint place_of_branch (b : string) (l : list string) (k : nat) : nat :=
  match l with [] => 0%nat | x :: l => if String.eqb x b then k else place_of_branch b l (S k) end.
(** gitgraph.rs:110-126 *)
Definition put_commit (branches : list string) (c : string * string * N) : list shape :=
  let '(label, branch, pos) := c in
  let k := place_of_branch branch branches 0 in
  create_labeled_dot (add 1000000 (mul pos 800000)) (sub (add 2000000 (mul (idx k) 600000)) (300000 / 2)) 300000 "FFFFFF" (Some (branch_color k)) label Above.
(** gitgraph.rs:7-145 *)
Definition git_shapes (code : string) : list shape :=
  let g := fold_left git_line (rows code) (Git [] ["main"] "main" 0) in
  (flat_map (put_branch (g_count g)) (numbered (g_branches g)) ++ flat_map (put_commit (g_branches g)) (g_commits g)
   ++ match g_commits g with
      | [] => [with_text "Git Graph" (with_line "607D8B" 25400 (with_fill "ECEFF1" (shape_new KRectangle 1000000 2000000 7000000 3000000)))]
      | _ => []
      end)%list.

(** ** class_diagram.rs *)
(** class_diagram.rs:16-21; the kind of a relationship is not used *)
Record cls := Cls { c_classes : list (string * list string * list string); c_name : string; c_attrs : list string; c_methods : list string; c_in : bool; c_rels : list (string * string) }.
(** class_diagram.rs:23-77 *)
Definition class_line (s : cls) (l : string) : cls :=
  if String.eqb l "" || starts_with "%%" l then s
  else if starts_with "class " l && contains "{" l then
    Cls (c_classes s) (trim (match split_once "{" (after_word "class " l) with Some (a, _) => a | None => after_word "class " l end)) [] [] true (c_rels s)
  else if String.eqb l "}" && c_in s then Cls (c_classes s ++ [(c_name s, c_attrs s, c_methods s)])%list (c_name s) (c_attrs s) (c_methods s) false (c_rels s)
  else if c_in s then
    if contains "(" l then Cls (c_classes s) (c_name s) (c_attrs s) (c_methods s ++ [l])%list true (c_rels s)
    else Cls (c_classes s) (c_name s) (c_attrs s ++ [l])%list (c_methods s) true (c_rels s)
  else if contains "<|--" l || contains "-->" l || contains "--" l then
    match filter (fun p => negb (String.eqb p "")) (split_by (one_of ["<"; "|"; "-"; ">"]%char) l) with
    | a :: b :: r => Cls (c_classes s) (c_name s) (c_attrs s) (c_methods s) false (c_rels s ++ [(trim a, trim (last r b))])%list
    | _ => s
    end
  else s.
(** Positions and numbers of boxes that connectors are tied to, newest first. *)
Record anchors := Anchors { a_shapes : list shape; a_pos : list (string * (N * N)); a_ids : list (string * N); a_next : N }.
(** class_diagram.rs:92-143, one class *)
Definition put_class (a : anchors) (kc : nat * (string * list string * list string)) : anchors :=
  let '(k, (name, attrs, methods)) := kc in
  let x := add 500000 (mul (idx k mod 3) 2500000) in
  let y := add 1600000 (mul (idx k / 3) 2000000) in
  let i := a_next a in
  let ah := mul (idx (Nat.max (length attrs) 1)) 250000 in
  let mh := mul (idx (Nat.max (length methods) 1)) 250000 in
  Anchors (a_shapes a ++
    [with_text name (with_line "2F5496" 2 (with_fill "4472C4" (with_id i (shape_new KRectangle x y 2000000 350000))));
     with_text (sjoin nl attrs) (with_line "2F5496" 1 (with_fill "D6DCE5" (with_id (add i 1) (shape_new KRectangle x (add y 350000) 2000000 ah))));
     with_text (sjoin nl methods) (with_line "2F5496" 1 (with_fill "FFFFFF" (with_id (add (add i 1) 1) (shape_new KRectangle x (add (add y 350000) ah) 2000000 mh))))])%list
    ((name, (x, y)) :: a_pos a) ((name, i) :: a_ids a) (add (add (add i 1) 1) 1).
(** A connector tied to two boxes: class_diagram.rs:166-184, state_diagram.rs:112-130,
    er_diagram.rs:137-155 *)
Definition tied (color : string) (head : arrow) (x1 y1 x2 y2 : N) (ids : list (string * N)) (from to : string) (ss es : site) : connector :=
  let fi := lookup from ids in
  let ti := lookup to ids in
  Connector Elbow x1 y1 x2 y2 color 19050 Solid NoArrow head Medium
    fi (match fi with Some _ => Some ss | None => None end) ti (match ti with Some _ => Some es | None => None end) None.
(** class_diagram.rs:145-188, one relationship *)
Definition put_relation (a : anchors) (r : string * string) : list connector :=
  let '(from, to) := r in
  match lookup from (a_pos a), lookup to (a_pos a) with
  | Some (fx, fy), Some (tx, ty) =>
    let '(ss, es) := if fy <? ty then (Bottom, Top) else if ty <? fy then (Top, Bottom) else if fx <? tx then (Right_, Left_) else (Left_, Right_) in
    [tied "2F5496" Triangle (add fx (2000000 / 2)) fy (add tx (2000000 / 2)) (add ty 500000) (a_ids a) from to ss es]
  | _, _ => []
  end.
(** class_diagram.rs:11-191 [generate_elements] *)
Definition class_drawing (code : string) : drawing :=
  let s := fold_left class_line (rows code) (Cls [] "" [] [] false []) in
  let a := fold_left put_class (numbered (c_classes s)) (Anchors [] [] [] 10) in
  from_shapes_and_connectors (a_shapes a) (flat_map (put_relation a) (c_rels s)).

(** ** state_diagram.rs *)
Record states := States { st_names : list string; st_moves : list (string * string * string) }.
Definition add_state (n : string) (s : states) : states :=
  if existsb (String.eqb n) (st_names s) then s else States (st_names s ++ [n])%list (st_moves s).
(** state_diagram.rs:19-53 *)
Definition state_line (s : states) (l : string) : states :=
  if String.eqb l "" || starts_with "%%" l || starts_with "direction" l then s
  else match split_once "-->" l with
  | Some (u, r) =>
    let p := match split_once "-->" r with Some (a, _) => a | None => r end in
    let '(to, label) := match split_once ":" p with Some (t, m) => (trim t, trim m) | None => (trim p, "") end in
    let from := if String.eqb (trim u) "[*]" then "Start" else trim u in
    let to := if String.eqb to "[*]" then "End" else to in
    let s := add_state to (add_state from s) in
    States (st_names s) (st_moves s ++ [(from, to, label)])%list
  | None => s
  end.
(** state_diagram.rs:67-94, one state *)
Definition put_state (a : anchors) (ks : nat * string) : anchors :=
  let '(k, n) := ks in
  let x := add 1000000 (mul (idx k mod 3) 2200000) in
  let y := add 1800000 (mul (idx k / 3) 1200000) in
  let i := a_next a in
  let mark := String.eqb n "Start" || String.eqb n "End" in
  Anchors (a_shapes a ++ [with_text n (with_line "00838F" 2 (with_fill (if mark then "000000" else "E0F7FA") (with_id i
     (shape_new (if mark then KEllipse else KRoundedRectangle) x y 1500000 500000))))])%list
    ((n, (x, y)) :: a_pos a) ((n, i) :: a_ids a) (add i 1).
(** state_diagram.rs:100-110, er_diagram.rs:125-135 *)
Definition sites (fx fy tx ty : N) : site * site :=
  if fx <? tx then (Right_, Left_) else if tx <? fx then (Left_, Right_) else if fy <? ty then (Bottom, Top) else (Top, Bottom).
(** state_diagram.rs:132-152, er_diagram.rs:157-178: the label of a connector *)
Definition put_label (fill line : string) (w width height : N) (fx fy tx ty : N) (label : string) (a : anchors) : anchors :=
  if String.eqb label "" then a
  else
    let mx := add (add fx width) tx / 2 in
    let my := add (add fy ty) height / 2 in
    Anchors (a_shapes a ++ [with_text label (with_line line 1 (with_fill fill (with_id (a_next a)
      (shape_new KRoundedRectangle (mx - w / 2) (my - 250000 / 2) w 250000))))])%list (a_pos a) (a_ids a) (add (a_next a) 1).
(** state_diagram.rs:96-156, one transition *)
Definition put_move (s : anchors * list connector) (m : string * string * string) : anchors * list connector :=
  let '(a, cns) := s in
  let '(from, to, label) := m in
  match lookup from (a_pos a), lookup to (a_pos a) with
  | Some (fx, fy), Some (tx, ty) =>
    let '(ss, es) := sites fx fy tx ty in
    (put_label "FFFDE7" "00838F" 800000 1500000 500000 fx fy tx ty label a,
     (cns ++ [tied "00838F" Triangle (add fx 1500000) (add fy (500000 / 2)) tx (add ty (500000 / 2)) (a_ids a) from to ss es])%list)
  | _, _ => s
  end.
(** state_diagram.rs:11-159 [generate_elements] *)
Definition state_drawing (code : string) : drawing :=
  let s := fold_left state_line (rows code) (States [] []) in
  let a := fold_left put_state (numbered (st_names s)) (Anchors [] [] [] 10) in
  let '(a, cns) := fold_left put_move (st_moves s) (a, []) in
  from_shapes_and_connectors (a_shapes a) cns.

(** What the code asks of the characters and floating point numbers of a
    diagram, as arbitrary functions: whether a text has an alphabetic character;
    numbers and percentages of a pie; points on the two rings of a mind map, as
    32 bit numbers, from the number of branches and the place in it; the place
    of a point of a quadrant chart, from its two texts. *)
Section Diagram.
Variable alpha : string -> bool.
Variable num : Type.
Variable parse_f64 : string -> option num.
Variable percent : list num -> num -> string.
Variable ring1 ring2 : nat -> nat -> N * N.
Variable spot : string -> string -> N * N.
Variable wordy : string -> bool.
Variable order : list node -> list node.
Variable entity_order : list (string * list string) -> list (string * list string).

(** ** er_diagram.rs *)
(** er_diagram.rs:16-18; entities in the order of insertion *)
Record er := Er { er_entities : list (string * list string); er_rels : list (string * string * string); er_current : string }.
Definition add_entity (n : string) (s : er) : er :=
  if existsb (fun p => String.eqb (fst p) n) (er_entities s) then s else Er (er_entities s ++ [(n, [])])%list (er_rels s) (er_current s).
Definition add_attr (n l : string) (e : list (string * list string)) : list (string * list string) :=
  map (fun p => if String.eqb (fst p) n then (fst p, (snd p ++ [l])%list) else p) e.
(** er_diagram.rs:20-73 *)
Definition er_line (s : er) (l : string) : er :=
  if String.eqb l "" || starts_with "%%" l then s
  else if contains "||" l || contains "}|" l || contains "|{" l || contains "o{" l then
    let '(rel, label) := match split_once ":" l with
      | Some (a, b) => (a, trim_by (Ascii.eqb SQ) (trim_by (Ascii.eqb DQ) (trim b)))
      | None => (l, "") end in
    match filter (fun p => negb (String.eqb p "") && alpha p) (split_by (one_of ["|"; "{"; "}"; "o"; "-"]%char) rel) with
    | a :: b :: r =>
      let e1 := trim a in
      let e2 := trim (last r b) in
      let s := add_entity e2 (add_entity e1 s) in
      Er (er_entities s) (er_rels s ++ [(e1, e2, label)])%list (er_current s)
    | _ => s
    end
  else match split_once "{" l with
  | Some (a, _) => let s := add_entity (trim a) s in Er (er_entities s) (er_rels s) (trim a)
  | None =>
    if String.eqb l "}" then Er (er_entities s) (er_rels s) ""
    else if String.eqb (er_current s) "" then s else Er (add_attr (er_current s) l (er_entities s)) (er_rels s) (er_current s)
  end.
(** er_diagram.rs:88-117, one entity *)
Definition put_entity (a : anchors) (ke : nat * (string * list string)) : anchors :=
  let '(k, (name, attrs)) := ke in
  let x := add 500000 (mul (idx k mod 3) 2800000) in
  let y := add 1600000 (mul (idx k / 3) 2500000) in
  let i := a_next a in
  Anchors (a_shapes a ++
    [with_text name (with_line "880E4F" 2 (with_fill "C2185B" (with_id i (shape_new KRectangle x y 2200000 400000))));
     with_text (sjoin nl attrs) (with_line "880E4F" 1 (with_fill "FCE4EC" (with_id (add i 1) (shape_new KRectangle x (add y 400000) 2200000 (mul (idx (Nat.max (length attrs) 1)) 280000)))))])%list
    ((name, (x, y)) :: a_pos a) ((name, i) :: a_ids a) (add (add i 1) 1).
(** er_diagram.rs:119-182, one relationship *)
Definition put_er (s : anchors * list connector) (m : string * string * string) : anchors * list connector :=
  let '(a, cns) := s in
  let '(from, to, label) := m in
  match lookup from (a_pos a), lookup to (a_pos a) with
  | Some (fx, fy), Some (tx, ty) =>
    let '(ss, es) := sites fx fy tx ty in
    (put_label "FFFFFF" "880E4F" 1000000 2200000 400000 fx fy tx ty label a,
     (cns ++ [tied "880E4F" Diamond (add fx 2200000) (add fy (400000 / 2)) tx (add ty (400000 / 2)) (a_ids a) from to ss es])%list)
  | _, _ => s
  end.
(** er_diagram.rs:11-185 [generate_elements] *)
Definition er_drawing (code : string) : drawing :=
  let s := fold_left er_line (rows code) (Er [] [] "") in
  let a := fold_left put_entity (numbered (entity_order (er_entities s))) (Anchors [] [] [] 10) in
  let '(a, cns) := fold_left put_er (er_rels s) (a, []) in
  from_shapes_and_connectors (a_shapes a) cns.

(** ** pie.rs:6-22 [parse] *)
Definition pie_line (l : string) : list (string * num) :=
  if contains ":" l && negb (starts_with "title" l) then
    match split_once ":" l with
    | Some (a, b) => match parse_f64 (trim b) with Some v => [(trim_by (Ascii.eqb DQ) (trim a), v)] | None => [] end
    | None => []
    end
  else [].
Definition pie_color (k : nat) : string := nth (k mod 8)%nat ["4472C4"; "ED7D31"; "A5A5A5"; "FFC000"; "5B9BD5"; "70AD47"; "9E480E"; "997300"] "".
(** pie.rs:56-88, one entry of the legend; [percent] is pie.rs:53-62, 76 *)
Definition put_slice (values : list num) (ks : nat * (string * num)) : list shape :=
  let '(k, (label, v)) := ks in
  let y := add 2000000 (mul (idx k) 350000) in
  [with_fill (pie_color k) (shape_new KRectangle 5000000 y 200000 200000);
   with_text (label ++ " (" ++ percent values v ++ "%)") (shape_new KRectangle (add 5000000 300000) y 2500000 200000)].
(** pie.rs:24-91 [generate_shapes] *)
Definition pie_shapes (code : string) : list shape :=
  match flat_map pie_line (rows code) with
  | [] => []
  | slices =>
    with_line "FFFFFF" 2 (with_fill (pie_color 0) (shape_new KEllipse (sub 2500000 1500000) (sub 3000000 1500000) (mul 1500000 2) (mul 1500000 2)))
    :: flat_map (put_slice (map snd slices)) (numbered slices)
  end.

(** ** mindmap.rs *)
Record mind := Mind { mi_root : string; mi_level1 : list string; mi_level2 : list (nat * string) }.
(** mindmap.rs:14-43; lines with their blanks *)
Definition mind_line (m : mind) (line : string) : mind :=
  let t := trim line in
  if String.eqb t "" || starts_with "%%" t then m
  else
    let spaces := (String.length line - String.length (trim_start_by is_ws line))%nat in
    let text := trim_by (one_of ["("; ")"; "["; "]"]%char) (trim (trim_start_by (one_of ["-"; "+"; "*"]%char) t)) in
    if String.eqb text "" then m
    else if Nat.eqb spaces 0 || (String.eqb (mi_root m) "" && Nat.leb spaces 4) then
      if String.eqb (mi_root m) "" then Mind text (mi_level1 m) (mi_level2 m) else m
    else if Nat.leb spaces 8 then Mind (mi_root m) (mi_level1 m ++ [text])%list (mi_level2 m)
    else Mind (mi_root m) (mi_level1 m) (mi_level2 m ++ [((length (mi_level1 m) - 1)%nat, text)])%list.
(** mindmap.rs:76-81, 101-106 *)
Definition ring_place (p : N * N) : N * N := (sub (add 4000000 (fst p)) (1500000 / 2), sub (add 3000000 (snd p)) (400000 / 2)).
(** mindmap.rs:8-118 [generate_shapes] *)
Definition mind_shapes (code : string) : list shape :=
  let m := fold_left mind_line (tl (lines code)) (Mind "" [] []) in
  let n := length (mi_level1 m) in
  (create_labeled_shape KEllipse (sub 4000000 (2000000 / 2)) (sub 3000000 (600000 / 2)) 2000000 600000 (Some "3949AB") (Some "1A237E") (mi_root m) Inside_of
   ++ flat_map (fun '(k, text) =>
        let '(x, y) := ring_place (ring1 n k) in
        create_labeled_shape KRoundedRectangle x y 1500000 400000 (Some (nth (k mod 6)%nat ["4472C4"; "ED7D31"; "70AD47"; "FFC000"; "5B9BD5"; "9E480E"] "")) None text Inside_of)
        (numbered (mi_level1 m))
   ++ flat_map (fun '(k, text) =>
        if Nat.ltb k n then
          let '(x, y) := ring_place (ring2 n k) in
          create_labeled_shape KRoundedRectangle x y 1500000 400000 (Some "E8EAF6") (Some "3949AB") text Inside_of
        else []) (mi_level2 m))%list.

(** ** quadrant.rs:14-62; the axes and the labels of the quadrants are read but
    never used *)
Definition quad_line (l : string) : list (string * (N * N)) :=
  if String.eqb l "" || starts_with "title" l || starts_with "x-axis" l || starts_with "y-axis" l || starts_with "quadrant-" l then []
  else match split_once "[" l with
  | Some (a, b) =>
    match split_once "]" b with
    | Some (c, _) =>
      match split_char "," c with
      | [x; y] => [(trim (trim_end_by (Ascii.eqb ":") a), spot (trim x) (trim y))]
      | _ => []
      end
    | None => []
    end
  | None => []
  end.
(** quadrant.rs:124-143 *)
Definition put_point (p : string * (N * N)) : list shape :=
  let '(label, (x, y)) := p in
  create_labeled_dot (add 1000000 (x - 300000 / 2)) (add 1800000 (y - 300000 / 2)) 300000 "1565C0" None label Right_of.
(** quadrant.rs:7-161 [generate_shapes] *)
Definition quad_shapes (code : string) : list shape :=
  let points := flat_map quad_line (rows code) in
  let back x y c := with_line "9E9E9E" 12700 (with_fill c (shape_new KRectangle x y (6000000 / 2) (4000000 / 2))) in
  ([back (add 1000000 (6000000 / 2)) 1800000 "C8E6C9"; back 1000000 1800000 "BBDEFB";
    back 1000000 (add 1800000 (4000000 / 2)) "FFECB3"; back (add 1000000 (6000000 / 2)) (add 1800000 (4000000 / 2)) "FFCDD2"]
   ++ flat_map put_point points
   ++ match points with
      | [] => [with_text "Quadrant Chart" (with_fill "FFFFFF" (shape_new KRectangle (sub (add 1000000 (6000000 / 2)) 1500000) (sub (add 1800000 (4000000 / 2)) 200000) 3000000 400000))]
      | _ => []
      end)%list.

(** ** mod.rs:36-69 [detect_type] *)
Inductive mermaid_type := MFlowchart | MSequence | MPie | MGantt | MClass | MState | MEr | MMindmap | MTimeline | MJourney | MQuadrant | MGit | MUnknown.
Definition first_line (code : string) : string := match lines code with [] => "" | l :: _ => l end.
Definition detect_type (code : string) : mermaid_type :=
  let l := lowercase (trim (first_line code)) in
  if starts_with "graph" l || starts_with "flowchart" l then MFlowchart
  else if starts_with "sequencediagram" l || starts_with "sequence" l then MSequence
  else if starts_with "pie" l then MPie
  else if starts_with "gantt" l then MGantt
  else if starts_with "classdiagram" l || starts_with "class" l then MClass
  else if starts_with "statediagram" l || starts_with "state" l then MState
  else if starts_with "erdiagram" l || starts_with "er" l then MEr
  else if starts_with "mindmap" l then MMindmap
  else if starts_with "timeline" l then MTimeline
  else if starts_with "journey" l then MJourney
  else if starts_with "quadrantchart" l || starts_with "quadrant" l then MQuadrant
  else if starts_with "gitgraph" l || starts_with "git" l then MGit
  else MUnknown.
(** mod.rs:71-116 [create_diagram_elements] *)
Definition create_diagram_elements (code : string) : drawing :=
  match detect_type code with
  | MFlowchart => flow_drawing wordy order code
  | MPie => from_shapes (pie_shapes code)
  | MSequence => from_shapes (seq_shapes code)
  | MGantt => from_shapes (gantt_shapes code)
  | MClass => class_drawing code
  | MState => state_drawing code
  | MEr => er_drawing code
  | MMindmap => from_shapes (mind_shapes code)
  | MTimeline => from_shapes (time_shapes code)
  | MJourney => from_shapes (journey_shapes code)
  | MQuadrant => from_shapes (quad_shapes code)
  | MGit => from_shapes (git_shapes code)
  | MUnknown => from_shapes [with_text ("Diagram: " ++ match lines code with [] => "Unknown" | l :: _ => l end)
      (with_line "757575" 1 (with_fill "F5F5F5" (shape_new KRectangle 1000000 2000000 7000000 3000000)))]
  end.
(** mod.rs:118-138 [get_diagram_style], the title *)
Definition diagram_title (t : mermaid_type) : string :=
  match t with
  | MFlowchart => "Flowchart" | MSequence => "Sequence Diagram" | MPie => "Pie Chart" | MGantt => "Gantt Chart" | MClass => "Class Diagram"
  | MState => "State Diagram" | MEr => "ER Diagram" | MMindmap => "Mind Map" | MTimeline => "Timeline" | MJourney => "User Journey"
  | MQuadrant => "Quadrant Chart" | MGit => "Git Graph" | MUnknown => "Diagram"
  end.
(** parser.rs:444-463, the offsets *)
Definition offsets (b : option bounds) : Z * Z :=
  match b with
  | Some b =>
    let cx := (9144000 - b_w b) / 2 in
    let cy := add 1200000 ((sub 6858000 1200000 - b_h b) / 2) in
    (i32 (Z.of_N (cx - b_x b)), i32 (Z.of_N (cy - b_y b)))
  | None => (0, 0)%Z
  end.
(** parser.rs:470-471: [(v as i32 + offset).max(0) as u32] *)
Definition shift (off : Z) (v : N) : N := Z.to_N (Z.max 0 (i32 (i32 (Z.of_N v) + off))).
Definition move_shape (o : Z * Z) (s : shape) : shape :=
  Shape (sh_type s) (shift (fst o) (sh_x s)) (shift (snd o) (sh_y s)) (sh_w s) (sh_h s) (sh_fill s) (sh_gradient s) (sh_line s) (sh_text s) (sh_id s) (sh_rotation s) (sh_link s) (sh_autofit s) (sh_dark s).
Definition move_connector (o : Z * Z) (c : connector) : connector :=
  Connector (ctype c) (shift (fst o) (start_x c)) (shift (snd o) (start_y c)) (shift (fst o) (end_x c)) (shift (snd o) (end_y c))
    (line_color c) (line_width c) (line_dash c) (start_arrow c) (end_arrow c) (a_size c) (start_shape c) (start_site c) (end_shape c) (end_site c) (label c).
(** parser.rs:434-482 *)
Definition diagram (code : string) : list shape * list connector * string :=
  let d := create_diagram_elements code in
  let o := offsets (d_bounds d) in
  (map (move_shape o) (d_shapes d), map (move_connector o) (d_connectors d), diagram_title (detect_type code)).
End Diagram.

(** The functions above in one record. *)
Record outside := Outside {
  o_alpha : string -> bool; o_num : Type; o_f64 : string -> option o_num; o_percent : list o_num -> o_num -> string;
  o_ring1 : nat -> nat -> N * N; o_ring2 : nat -> nat -> N * N; o_spot : string -> string -> N * N;
  o_wordy : string -> bool; o_order : list node -> list node; o_entities : list (string * list string) -> list (string * list string) }.
(** mod.rs:71-116 [create_diagram_elements] *)
Definition draw (o : outside) (code : string) : drawing :=
  create_diagram_elements (o_alpha o) (o_num o) (o_f64 o) (o_percent o) (o_ring1 o) (o_ring2 o) (o_spot o) (o_wordy o) (o_order o) (o_entities o) code.
(** parser.rs:434-482 *)
Definition place (o : outside) (code : string) : list shape * list connector * string :=
  diagram (o_alpha o) (o_num o) (o_f64 o) (o_percent o) (o_ring1 o) (o_ring2 o) (o_spot o) (o_wordy o) (o_order o) (o_entities o) code.
