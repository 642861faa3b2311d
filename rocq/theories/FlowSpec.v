(** What a Mermaid flowchart says, how it is written, and what a drawing of it
    shows. *)
From Coq Require Import String Ascii List Bool Arith NArith Permutation.
From Verif Require Import Str ShapeModel ConnectorModel.
Import ListNotations.
Open Scope string_scope.

(** A node is mentioned by its name, alone or with an outline and a caption:
    [A], [A[Start]], [B(Go on)], ... *)
Inductive look := Box | Round | Stadium | Rhombus | Circle | Hexagon.
Record mention := Mention { m_id : string; m_look : option (look * string) }.
(** Two nodes are joined by one of four kinds of line, perhaps with a label. *)
Inductive link := Pointed | Open | Dotted | Thick.
Inductive stmt := Only (m : mention) | Join (a : mention) (k : link) (t : option string) (b : mention).
(** A flowchart is a list of statements, some of them in named groups. *)
Inductive item := Remark (t : string) | Blank | Say (s : stmt) | Group (name : string) (body : list stmt).
Inductive way := LR | RL | TB | TD | BT.

(** ** Its text *)
Definition bracketed (k : look) (t : string) : string :=
  match k with
  | Box => "[" ++ t ++ "]" | Round => "(" ++ t ++ ")" | Stadium => "([" ++ t ++ "])"
  | Rhombus => "{" ++ t ++ "}" | Circle => "((" ++ t ++ "))" | Hexagon => "{{" ++ t ++ "}}"
  end.
Definition mention_text (m : mention) : string := m_id m ++ match m_look m with Some (k, t) => bracketed k t | None => "" end.
Definition link_text (k : link) : string := match k with Pointed => "-->" | Open => "---" | Dotted => "-.->" | Thick => "==>" end.
Definition stmt_text (s : stmt) : string :=
  match s with
  | Only m => mention_text m
  | Join a k t b => mention_text a ++ " " ++ link_text k ++ match t with Some t => "|" ++ t ++ "|" | None => "" end ++ " " ++ mention_text b
  end.
Definition item_lines (i : item) : list string :=
  match i with
  | Remark t => ["%%" ++ t]
  | Blank => [""]
  | Say s => [stmt_text s]
  | Group n b => ("subgraph " ++ n) :: (map stmt_text b ++ ["end"])%list
  end.
Definition way_text (w : way) : string := match w with LR => "LR" | RL => "RL" | TB => "TB" | TD => "TD" | BT => "BT" end.
Definition header (w : way) : string := "flowchart " ++ way_text w.
(** [code] is the chart written line by line; the lines may be indented. *)
Definition written (w : way) (doc : list item) (code : string) : Prop :=
  exists rest, lines code = header w :: rest /\ map trim rest = flat_map item_lines doc.

(** ** What can be written: names of letters, digits and underscores that are
    not key words, captions without brackets, bars, ">" and "---", and group
    names without blanks around them *)
Definition special (c : ascii) : bool := existsb (Ascii.eqb c) ["["; "]"; "("; ")"; "{"; "}"; "|"; ">"]%char.
Definition caption_ok (t : string) : bool := sforall (fun c => negb (special c)) t && negb (contains "---" t).
Definition id_ok (wordy : string -> bool) (i : string) : bool :=
  wordy i && negb (String.eqb i "") && negb (String.eqb i "end") && negb (starts_with "subgraph" i)
  && sforall (fun c => negb (special c) && negb (is_ws c) && negb (Ascii.eqb c "%") && negb (Ascii.eqb c "-")) i.
Definition mention_ok wordy (m : mention) : bool :=
  id_ok wordy (m_id m) && match m_look m with Some (_, t) => caption_ok t | None => true end.
Definition stmt_ok wordy (s : stmt) : bool :=
  match s with
  | Only m => mention_ok wordy m
  | Join a _ t b => mention_ok wordy a && mention_ok wordy b && match t with Some t => caption_ok t | None => true end
  end.
Definition item_ok wordy (i : item) : bool :=
  match i with
  | Remark _ | Blank => true
  | Say s => stmt_ok wordy s
  | Group n b => String.eqb (trim n) n && forallb (stmt_ok wordy) b
  end.
Definition doc_ok wordy (doc : list item) : bool := forallb (item_ok wordy) doc.

(** ** What is said *)
Definition said (s : stmt) : list mention := match s with Only m => [m] | Join a _ _ b => [a; b] end.
Definition stmts (i : item) : list stmt := match i with Say s => [s] | Group _ b => b | _ => [] end.
Definition mentions (doc : list item) : list mention := flat_map said (flat_map stmts doc).
(** The first mention of a node decides how it looks. *)
Fixpoint firsts (seen : list string) (l : list mention) : list mention :=
  match l with
  | [] => []
  | m :: l => if existsb (String.eqb (m_id m)) seen then firsts seen l else m :: firsts (m_id m :: seen) l
  end.
Definition nodes (doc : list item) : list mention := firsts [] (mentions doc).
Definition caption (m : mention) : string := match m_look m with Some (_, t) => t | None => m_id m end.
Definition outline (m : mention) : string :=
  match m_look m with
  | None | Some (Box, _) => "rect" | Some (Round, _) | Some (Stadium, _) => "roundRect" | Some (Rhombus, _) => "diamond"
  | Some (Circle, _) => "ellipse" | Some (Hexagon, _) => "hexagon"
  end.
Record joined := Joined { j_from : string; j_to : string; j_kind : link; j_label : option string }.
Definition joins (doc : list item) : list joined :=
  flat_map (fun s => match s with Join a k t b => [Joined (m_id a) (m_id b) k t] | Only _ => [] end) (flat_map stmts doc).
(** The groups, each with the nodes mentioned in it. *)
Definition groups (doc : list item) : list (string * list string) :=
  flat_map (fun i => match i with Group n b => [(n, map m_id (firsts [] (flat_map said b)))] | _ => [] end) doc.
(** No node is mentioned in two groups. *)
Definition apart (doc : list item) : Prop := NoDup (flat_map snd (groups doc)).

(** ** What is shown *)
Definition some_list {A} (o : option A) : list A := match o with Some x => [x] | None => [] end.
Definition shown_as (m : mention) (s : shape) : Prop := sh_text s = Some (caption m) /\ preset (sh_type s) = outline m.
Definition link_look (k : link) : string * string := match k with Pointed | Open => ("1565C0", "solid") | Dotted => ("757575", "dash") | Thick => ("E65100", "solid") end.
(** A connector stands for a line between two nodes: it is tied to the boxes of
    the two and drawn in the manner of the line. *)
Definition joins_boxes (place : list (mention * shape)) (j : joined) (c : connector) : Prop :=
  exists m1 s1 m2 s2, In (m1, s1) place /\ m_id m1 = j_from j /\ In (m2, s2) place /\ m_id m2 = j_to j
    /\ (exists n, sh_id s1 = Some n /\ start_shape c = Some n) /\ (exists n, sh_id s2 = Some n /\ end_shape c = Some n)
    /\ (line_color c, dash_value (line_dash c)) = link_look (j_kind j) /\ arrow_value (end_arrow c) = "triangle".
(** The shapes of a drawing are one box for every node, a frame and a title for
    every group and one label for every labelled line; its connectors stand for
    the lines, in order. *)
Record drawn (doc : list item) (shapes : list shape) (connectors : list connector)
  (place : list (mention * shape)) (frames titles labels : list shape) : Prop := {
  all_shapes : Permutation shapes (frames ++ titles ++ map snd place ++ labels);
  one_box_each : Permutation (map fst place) (nodes doc);
  looks : Forall (fun p => shown_as (fst p) (snd p)) place;
  one_frame_each : length frames = length (groups doc) /\ Forall (fun s => sh_text s = None) frames;
  titled : map sh_text titles = map (fun g => Some (fst g)) (groups doc);
  labelled : map sh_text labels = map Some (flat_map (fun j => some_list (j_label j)) (joins doc));
  joined_up : Forall2 (joins_boxes place) (joins doc) connectors }.

(** ** Where it is shown *)
Open Scope N_scope.
Definition beside (s t : shape) : Prop :=
  sh_x s + sh_w s < sh_x t \/ sh_x t + sh_w t < sh_x s \/ sh_y s + sh_h s < sh_y t \/ sh_y t + sh_h t < sh_y s.
Definition inside (s t : shape) : Prop :=
  sh_x t <= sh_x s /\ sh_x s + sh_w s <= sh_x t + sh_w t /\ sh_y t <= sh_y s /\ sh_y s + sh_h s <= sh_y t + sh_h t.
(** A line leaves the first box and reaches the second in the middle of a side. *)
Definition touches (w : way) (c : connector) (a b : shape) : Prop :=
  match w with
  | LR | RL => start_x c = sh_x a + sh_w a /\ start_y c = sh_y a + sh_h a / 2 /\ end_x c = sh_x b /\ end_y c = sh_y b + sh_h b / 2
  | _ => start_x c = sh_x a + sh_w a / 2 /\ start_y c = sh_y a + sh_h a /\ end_x c = sh_x b + sh_w b / 2 /\ end_y c = sh_y b
  end.
Record laid_out (w : way) (doc : list item) (shapes : list shape) (connectors : list connector)
  (place : list (mention * shape)) (frames titles labels : list shape) : Prop := {
  numbers : NoDup (flat_map (fun s => some_list (sh_id s)) shapes);
  boxes_apart : ForallOrdPairs (fun p q => beside (snd p) (snd q)) place;
  grouped : Forall2 (fun g f => forall m s, In (m, s) place -> if existsb (String.eqb (m_id m)) (snd g) then inside s f else beside s f) (groups doc) frames;
  frames_apart : ForallOrdPairs beside frames;
  titles_in : Forall2 (fun t f => inside t f) titles frames;
  ends_touch : Forall2 (fun j c => exists m1 s1 m2 s2, In (m1, s1) place /\ m_id m1 = j_from j /\ In (m2, s2) place /\ m_id m2 = j_to j /\ touches w c s1 s2) (joins doc) connectors }.
(** Small enough for the numbers in use. *)
Definition small (doc : list item) : Prop := (length (nodes doc) + length (groups doc) + length (joins doc) <= 800)%nat.
