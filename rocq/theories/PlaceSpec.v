(** Which diagram a heading announces, where a diagram is put on the slide, and
    what mind maps and quadrant charts show. *)
From Coq Require Import String Ascii List Bool Arith NArith Permutation.
From Verif Require Import Str ShapeModel ConnectorModel FlowSpec DiagramSpec.
Import ListNotations.
Open Scope string_scope.

(** ** Headings, as in the manual of Mermaid, and the titles of the slides *)
Definition kinds : list (string * string) :=
  [("graph", "Flowchart"); ("flowchart", "Flowchart"); ("sequenceDiagram", "Sequence Diagram"); ("pie", "Pie Chart"); ("gantt", "Gantt Chart"); ("classDiagram", "Class Diagram");
   ("stateDiagram", "State Diagram"); ("stateDiagram-v2", "State Diagram"); ("erDiagram", "ER Diagram"); ("mindmap", "Mind Map"); ("timeline", "Timeline"); ("journey", "User Journey");
   ("quadrantChart", "Quadrant Chart"); ("gitGraph", "Git Graph")].
(** [h] is [word], maybe indented and in other letters, and anything after it. *)
Definition heads (word h : string) : Prop := exists rest, lowercase (trim h) = (lowercase word ++ rest)%string.
Definition announces (title h : string) : Prop := exists word, In (word, title) kinds /\ heads word h.
(** Beginnings that are taken for one of them. *)
Definition beginnings : list string := ["graph"; "flowchart"; "sequence"; "pie"; "gantt"; "class"; "state"; "er"; "mindmap"; "timeline"; "journey"; "quadrant"; "git"].

(** ** Moving *)
Open Scope N_scope.
Definition mv (dx dy : N) (s : shape) : shape :=
  Shape (sh_type s) (sh_x s + dx) (sh_y s + dy) (sh_w s) (sh_h s) (sh_fill s) (sh_gradient s) (sh_line s) (sh_text s) (sh_id s) (sh_rotation s) (sh_link s) (sh_autofit s) (sh_dark s).
Definition mvc (dx dy : N) (c : connector) : connector :=
  Connector (ctype c) (start_x c + dx) (start_y c + dy) (end_x c + dx) (end_y c + dy)
    (line_color c) (line_width c) (line_dash c) (start_arrow c) (end_arrow c) (a_size c) (start_shape c) (start_site c) (end_shape c) (end_site c) (label c).
(** Nothing reaches as far as two thousand million. *)
Definition small (shapes : list shape) (lines : list connector) : Prop :=
  Forall (fun s => right_of s <= 2000000000 /\ bottom_of s <= 2000000000) shapes
  /\ Forall (fun c => start_x c <= 2000000000 /\ start_y c <= 2000000000 /\ end_x c <= 2000000000 /\ end_y c <= 2000000000) lines.
(** The shapes reach from [lo] to [hi]. *)
Definition spans (near far : shape -> N) (l : list shape) (lo hi : N) : Prop :=
  (exists s, In s l /\ near s = lo) /\ (forall s, In s l -> lo <= near s) /\ (exists s, In s l /\ far s = hi) /\ (forall s, In s l -> far s <= hi).
(** The slide is 9144000 wide and 6858000 high; the title takes 1200000. *)
Definition slide_width : N := 9144000.
Definition slide_height : N := 6858000.
Definition title_height : N := 1200000.
(** As far from one edge as from the other, give or take one. *)
Definition centred (from to lo hi : N) : Prop := from + to - 1 <= lo + hi <= from + to.
Open Scope nat_scope.

(** ** Mind maps: a text in the middle, branches and their leaves *)
Inductive dress := Bare | Round | Square | Disc.
Definition dressed (d : dress) (t : string) : string := match d with Bare => t | Round => "(" ++ t ++ ")" | Square => "[" ++ t ++ "]" | Disc => "((" ++ t ++ "))" end.
Fixpoint blanks (n : nat) : string := match n with 0 => "" | S n => String " " (blanks n) end.
Definition mind_text (t : string) : bool := tidy t && without ["("; ")"; "["; "]"]%char t && not_word ["%%"; "-"; "+"; "*"] t.
(** Levels go by blanks: branches have up to eight, leaves more. *)
Definition indented (level : nat) (n : nat) : Prop := match level with 0 => n <= 4 | 1 => 1 <= n <= 8 | _ => 9 <= n end.
Definition mind_doc : Type := string * list (string * list string).
Definition mind_rows (d : mind_doc) : list (nat * string) := (0, fst d) :: flat_map (fun b => (1, fst b) :: map (fun l => (2, l)) (snd b)) (snd d).
Definition remark (l : string) : bool := String.eqb (trim l) "" || starts_with "%%" (trim l).
Definition writes_mind (d : mind_doc) (code : string) : Prop :=
  exists rest, lines code = "mindmap" :: rest /\
  Forall2 (fun r l => exists n k dr, indented (fst r) n /\ l = blanks n ++ dressed dr (snd r) ++ blanks k) (mind_rows d) (List.filter (fun l => negb (remark l)) rest).
Definition branches_of (d : mind_doc) : list string := map fst (snd d).
Definition leaves_of (d : mind_doc) : list (nat * string) := flat_map (fun kb => map (fun l => (fst kb, l)) (snd (snd kb))) (combine (seq 0 (length (snd d))) (snd d)).
(** [t] lies inside of [s]. *)
Definition inside (s t : shape) : Prop := (sh_x s <= sh_x t /\ right_of t <= right_of s /\ sh_y s <= sh_y t /\ bottom_of t <= bottom_of s)%N.
Section Mind.
(** Points on the inner and outer ring, by the number of branches and the branch *)
Variables ring1 ring2 : nat -> nat -> N * N.
Definition at_place (p : N * N) (s : shape) : Prop := (middle s = 4000000 + fst p /\ centre s = 3000000 + snd p)%N.
Record mind_drawn (d : mind_doc) (shapes boxes labels : list shape) : Prop := {
  md_all : Permutation shapes (boxes ++ labels);
  md_texts : map sh_text labels = map Some (fst d :: branches_of d ++ map snd (leaves_of d))%list;
  md_inside : Forall2 inside boxes labels;
  md_places : exists root bs ls, boxes = (root :: bs ++ ls)%list /\ at_place (0, 0)%N root
    /\ Forall2 (fun k s => at_place (ring1 (length (snd d)) k) s) (seq 0 (length (snd d))) bs
    /\ Forall2 (fun l s => at_place (ring2 (length (snd d)) (fst l)) s) (leaves_of d) ls }.
End Mind.

(** ** Quadrant charts *)
Inductive quad_item := Point (name x y : string) | QAside (t : string).
Definition quad_text (it : quad_item) : string := match it with Point n x y => n ++ ":[" ++ x ++ ", " ++ y ++ "]" | QAside t => t end.
Definition quad_ok (it : quad_item) : bool :=
  match it with
  | Point n x y => tidy n && without ["["]%char n && negb (ends_with ":" n) && not_word ["title"; "x-axis"; "y-axis"; "quadrant-"] n
      && tidy x && tidy y && without [","; "]"]%char x && without [","; "]"]%char y
  | QAside t => existsb (fun w => starts_with w t) ["title"; "x-axis"; "y-axis"; "quadrant-"] || negb (contains "[" t)
  end.
Definition marks (doc : list quad_item) : list (string * (string * string)) := flat_map (fun it => match it with Point n x y => [(n, (x, y))] | QAside _ => [] end) doc.
Section Quad.
Variable spot : string -> string -> N * N.
(** Far enough from the left and upper edge for the dot, and inside of the chart *)
Definition spot_fits (m : string * (string * string)) : Prop :=
  (150000 <= fst (spot (fst (snd m)) (snd (snd m))) <= 6000000 /\ 150000 <= snd (spot (fst (snd m)) (snd (snd m))) <= 4000000)%N.
(** Four tiles of the same size around the middle of the chart, then a dot and a text right of it for every point *)
Record quad_drawn (doc : list quad_item) (shapes tiles dots notes : list shape) : Prop := {
  qd_all : Permutation shapes (tiles ++ dots ++ notes);
  qd_tiles : map (fun s => (sh_x s, sh_y s, right_of s, bottom_of s)) tiles
    = [(4000000, 1800000, 7000000, 3800000); (1000000, 1800000, 4000000, 3800000); (1000000, 3800000, 4000000, 5800000); (4000000, 3800000, 7000000, 5800000)]%N;
  qd_colours : NoDup (map sh_fill tiles);
  qd_dots : Forall2 (fun m s => preset (sh_type s) = "ellipse" /\ middle s = 1000000 + fst (spot (fst (snd m)) (snd (snd m))) /\ centre s = 1800000 + snd (spot (fst (snd m)) (snd (snd m))))%N (marks doc) dots;
  qd_texts : map sh_text notes = map (fun m => Some (fst m)) (marks doc);
  qd_beside : Forall2 (fun d n => left_to d n /\ (sh_x n < right_of d + 100000)%N /\ centre n = centre d) dots notes }.
End Quad.
