(** What Mermaid diagrams say, how they are written, and what drawings of them
    show: sequence diagrams, time lines, Gantt charts, journeys, git graphs and
    pies. *)
From Coq Require Import String Ascii List Bool Arith NArith Permutation.
From Verif Require Import Str ShapeModel ConnectorModel FlowSpec.
Import ListNotations.
Open Scope string_scope.

(** ** Texts *)
(** [code] is a heading and the lines of a diagram, which may be indented. *)
Definition writes (head : string) (body : list string) (code : string) : Prop :=
  exists rest, lines code = head :: rest /\ map trim rest = body.
(** A text that is not empty and has no blanks around it. *)
Definition tidy (s : string) : bool := String.eqb (trim s) s && negb (String.eqb s "").
Definition without (l : list ascii) (s : string) : bool := sforall (fun c => negb (existsb (Ascii.eqb c) l)) s.
Definition not_word (l : list string) (s : string) : bool := forallb (fun w => negb (starts_with w s)) l.
(** The first entry of each name. *)
Fixpoint earliest {A} (key : A -> string) (seen : list string) (l : list A) : list A :=
  match l with
  | [] => []
  | a :: l => if existsb (String.eqb (key a)) seen then earliest key seen l else a :: earliest key (key a :: seen) l
  end.

(** ** Places *)
Open Scope N_scope.
Definition right_of (s : shape) : N := sh_x s + sh_w s.
Definition bottom_of (s : shape) : N := sh_y s + sh_h s.
Definition left_to (s t : shape) : Prop := right_of s <= sh_x t.
Definition over (s t : shape) : Prop := bottom_of s <= sh_y t.
(** Two shapes do not overlap. *)
Definition clear (s t : shape) : Prop := left_to s t \/ left_to t s \/ over s t \/ over t s.
Definition middle (s : shape) : N := sh_x s + sh_w s / 2.
Definition centre (s : shape) : N := sh_y s + sh_h s / 2.
Open Scope nat_scope.

(** ** Sequence diagrams: participants, with or without another name, and messages *)
Inductive seq_item := Person (i : string) (alias : option string) | Message (from : string) (dashed : bool) (to text : string) | Aside (t : string).
Definition seq_text (it : seq_item) : string :=
  match it with
  | Person i None => "participant " ++ i
  | Person i (Some a) => "participant " ++ i ++ " as " ++ a
  | Message f d t x => f ++ (if d then "-->>" else "->>") ++ t ++ ": " ++ x
  | Aside t => t
  end.
Definition person_ok (i : string) : bool := negb (String.eqb i "") && sforall (fun c => negb (is_ws c)) i && without ["-"; ">"; ":"]%char i && not_word ["participant"] i.
Definition seq_ok (it : seq_item) : bool :=
  match it with
  | Person i None => person_ok i
  | Person i (Some a) => person_ok i && tidy a
  | Message f _ t x => person_ok f && person_ok t && tidy x && negb (contains "-->>" x)
  | Aside t => not_word ["participant"] t && negb (contains "->>" t)
  end.
(** Everybody who takes part, with the name given at first. *)
Definition people (doc : list seq_item) : list (string * string) :=
  earliest fst [] (flat_map (fun it => match it with
    | Person i a => [(i, match a with Some a => a | None => i end)] | Message f _ t _ => [(f, f); (t, t)] | Aside _ => [] end) doc).
Definition messages (doc : list seq_item) : list (string * string * string) :=
  flat_map (fun it => match it with Message f _ t x => [(f, t, x)] | _ => [] end) doc.
(** An arrow from the middle of one box to the middle of another. *)
Definition points (a from to : shape) : Prop :=
  if (middle from <? middle to)%N then preset (sh_type a) = "rightArrow" /\ sh_x a = middle from /\ right_of a = middle to
  else preset (sh_type a) = "leftArrow" /\ sh_x a = middle to /\ right_of a = middle from.
Record seq_drawn (doc : list seq_item) (shapes heads lifes feet arrows notes : list shape) : Prop := {
  sq_all : Permutation shapes (heads ++ lifes ++ feet ++ arrows ++ notes);
  sq_heads : map sh_text heads = map (fun p => Some (snd p)) (people doc);
  sq_feet : map sh_text feet = map (fun p => Some (snd p)) (people doc);
  sq_notes : map sh_text notes = map (fun m => Some (snd m)) (messages doc);
  sq_bare : Forall (fun s => sh_text s = None) (lifes ++ arrows);
  (** Each life line joins the box above and the box below, in the middle. *)
  sq_lifes : Forall2 (fun h l => middle h = middle l /\ bottom_of h = sh_y l) heads lifes;
  sq_feet_at : Forall2 (fun l f => middle l = middle f /\ bottom_of l = sh_y f) lifes feet;
  (** From left to right *)
  sq_columns : ForallOrdPairs left_to heads /\ ForallOrdPairs left_to feet;
  (** Every message has its arrow, *)
  sq_arrows : Forall2 (fun m a => exists i j from to nf nt,
    nth_error (people doc) i = Some (fst (fst m), nf) /\ nth_error heads i = Some from
    /\ nth_error (people doc) j = Some (snd (fst m), nt) /\ nth_error heads j = Some to /\ points a from to) (messages doc) arrows;
  (** one under the other, with its text over it *)
  sq_downward : ForallOrdPairs over arrows;
  sq_notes_at : Forall2 (fun a n => sh_x n = sh_x a /\ sh_w n = sh_w a /\ over n a) arrows notes;
  (** and beside the life lines, if there are at most six. *)
  sq_beside : length (messages doc) <= 6 -> Forall (fun a => Forall (fun l => (sh_y l <= sh_y a)%N /\ (bottom_of a <= bottom_of l)%N) lifes) arrows }.

(** ** Time lines: a title, dates and what happened *)
Inductive time_item := TTitle (t : string) | TEvent (date first : string) (more : list string) | TAside (t : string).
Definition time_text (it : time_item) : list string :=
  match it with
  | TTitle t => ["title " ++ t]
  | TEvent d x m => (d ++ " : " ++ x) :: m
  | TAside t => [t]
  end.
Definition time_ok (it : time_item) : bool :=
  match it with
  | TTitle t => tidy t
  | TEvent d x m => tidy d && without [":"]%char d && not_word ["title"; "%%"] d && tidy x
      && forallb (fun i => tidy i && without [":"]%char i && not_word ["title"; "%%"] i) m
  | TAside t => String.eqb t "" || starts_with "%%" t
  end.
Definition last_title (l : list string) : string := last l "".
Definition time_title (doc : list time_item) : string := last_title (flat_map (fun it => match it with TTitle t => [t] | _ => [] end) doc).
Definition events (doc : list time_item) : list (string * list string) := flat_map (fun it => match it with TEvent d x m => [(d, x :: m)] | _ => [] end) doc.
Definition titled_with (t : string) (titles : list shape) : Prop :=
  match titles with [] => t = "" | [s] => t <> "" /\ sh_text s = Some t | _ => False end.
Record time_drawn (doc : list time_item) (shapes titles dates boxes marks : list shape) (axis : shape) : Prop := {
  ti_all : Permutation shapes (titles ++ axis :: dates ++ boxes ++ marks);
  ti_title : titled_with (time_title doc) titles;
  ti_dates : map sh_text dates = map (fun e => Some (fst e)) (events doc);
  ti_boxes : map sh_text boxes = map (fun e => Some (sjoin nl (snd e))) (events doc);
  ti_bare : Forall (fun s => sh_text s = None) (axis :: marks);
  (** In order, over and under the line, each date over its box and its mark on the line *)
  ti_order : ForallOrdPairs left_to dates /\ ForallOrdPairs left_to boxes;
  ti_columns : Forall2 (fun d b => sh_x d = sh_x b /\ sh_w d = sh_w b) dates boxes;
  ti_marks : Forall2 (fun d m => middle m = middle d /\ centre m = centre axis) dates marks;
  ti_line : Forall (fun d => over d axis /\ (sh_x axis <= sh_x d)%N /\ (right_of d <= right_of axis)%N) dates /\ Forall (fun b => over axis b) boxes;
  ti_title_at : Forall (fun t => Forall (over t) dates) titles }.

(** ** Gantt charts: sections of tasks *)
Inductive gantt_item := GTitle (t : string) | GSection (n : string) (tasks : list (string * string)) | GAside (t : string).
Definition gantt_text (it : gantt_item) : list string :=
  match it with
  | GTitle t => ["title " ++ t]
  | GSection n l => ("section " ++ n) :: map (fun p => fst p ++ " :" ++ snd p) l
  | GAside t => [t]
  end.
Definition gantt_ok (it : gantt_item) : bool :=
  match it with
  | GTitle t => tidy t
  | GSection n l => tidy n && forallb (fun p => tidy (fst p) && without [":"]%char (fst p) && not_word ["title"; "section"; "dateFormat"; "axisFormat"; "%%"] (fst p)) l
  | GAside t => String.eqb t "" || starts_with "%%" t || starts_with "dateFormat" t || starts_with "axisFormat" t
  end.
Definition gantt_title (doc : list gantt_item) : string := last_title (flat_map (fun it => match it with GTitle t => [t] | _ => [] end) doc).
Definition gantt_sections (doc : list gantt_item) : list (string * list string) := flat_map (fun it => match it with GSection n l => [(n, map fst l)] | _ => [] end) doc.
(** The rows of the chart from top to bottom: headings and tasks. *)
Inductive grow := GHead (n : string) | GTask (n : string).
Definition gantt_rows (doc : list gantt_item) : list grow := flat_map (fun s => GHead (fst s) :: map GTask (snd s)) (gantt_sections doc).
Definition row_shows (r : grow) (l : list shape) : Prop :=
  match r, l with
  | GHead n, [s] => sh_text s = Some n
  | GTask n, [s; b] => sh_text s = Some n /\ sh_text b = None /\ sh_y b = sh_y s /\ sh_h b = sh_h s /\ left_to s b /\ (0 < sh_w b)%N
  | _, _ => False
  end.
Record gantt_drawn (doc : list gantt_item) (shapes titles : list shape) (lines : list (list shape)) : Prop := {
  ga_all : shapes = (titles ++ concat lines)%list;
  ga_title : titled_with (gantt_title doc) titles;
  ga_rows : Forall2 row_shows (gantt_rows doc) lines;
  ga_down : ForallOrdPairs (fun k l => Forall (fun s => Forall (over s) l) k) (titles :: lines) }.

(** ** Journeys: sections of steps with a score *)
Inductive way_item := JSection (n : string) (steps : list (string * N * option string)) | JAside (t : string).
Definition step_text (p : string * N * option string) : string :=
  fst (fst p) ++ ": " ++ dec (snd (fst p)) ++ match snd p with Some a => ": " ++ a | None => "" end.
Definition way_text_lines (it : way_item) : list string :=
  match it with
  | JSection n l => ("section " ++ n) :: map step_text l
  | JAside t => [t]
  end.
Definition way_ok (it : way_item) : bool :=
  match it with
  | JSection n l => tidy n && forallb (fun p => tidy (fst (fst p)) && without [":"]%char (fst (fst p)) && not_word ["title"; "section"] (fst (fst p))
      && (snd (fst p) <=? 255)%N && match snd p with Some a => tidy a | None => true end) l
  | JAside t => String.eqb t "" || starts_with "title" t || (not_word ["section"] t && without [":"]%char t)
  end.
Definition way_sections (doc : list way_item) : list (string * list (string * N)) := flat_map (fun it => match it with JSection n l => [(n, map fst l)] | _ => [] end) doc.
(** How content a score is: red, orange, yellow, light green, green; grey outside. *)
Definition mood (n : N) : string := nth (N.to_nat n) ["E0E0E0"; "FFCDD2"; "FFE0B2"; "FFF9C4"; "C8E6C9"; "A5D6A7"] "E0E0E0".
Definition filled (s : shape) : option string := option_map fl_color (sh_fill s).
Record way_drawn (doc : list way_item) (shapes heads : list shape) (columns : list (list shape)) : Prop := {
  jo_all : Permutation shapes (heads ++ concat columns);
  jo_heads : map sh_text heads = map (fun s => Some (fst s)) (way_sections doc);
  jo_steps : Forall2 (fun s c => map (fun b => (sh_text b, filled b)) c = map (fun i => (Some (fst i ++ " (" ++ dec (snd i) ++ ")"), Some (mood (snd i)))) (snd s)) (way_sections doc) columns;
  (** The sections from left to right, the steps of each under its heading from top to bottom *)
  jo_across : ForallOrdPairs left_to heads;
  jo_under : Forall2 (fun h c => Forall (fun b => over h b /\ (sh_x h <= sh_x b)%N /\ (right_of b <= right_of h)%N) c /\ ForallOrdPairs over c) heads columns }.

(** ** Git graphs *)
Inductive git_item := Commit (label : option string) | Branch (b : string) | Checkout (b : string) | MergeOf (b : string) | GitBlank.
Definition git_text (it : git_item) : string :=
  match it with
  | Commit None => "commit" | Commit (Some t) => "commit id: """ ++ t ++ """"
  | Branch b => "branch " ++ b | Checkout b => "checkout " ++ b | MergeOf b => "merge " ++ b | GitBlank => ""
  end.
Definition git_ok (it : git_item) : bool :=
  match it with
  | Commit (Some t) => negb (contains "id:" t) && negb (starts_with """" t) && negb (ends_with """" t)
  | Branch b | Checkout b | MergeOf b => tidy b
  | _ => true
  end.
(** The branches in the order in which they are first named, after [main]. *)
Definition branches (doc : list git_item) : list string := "main" :: earliest (fun b => b) ["main"] (flat_map (fun it => match it with Branch b => [b] | _ => [] end) doc).
(** The commits, each with its label and the branch it is made on. *)
Fixpoint commits (n : nat) (cur : string) (doc : list git_item) : list (string * string) :=
  match doc with
  | [] => []
  | Commit t :: doc => (match t with Some t => t | None => "C" ++ decn n end, cur) :: commits (S n) cur doc
  | MergeOf b :: doc => ("Merge " ++ b, cur) :: commits (S n) cur doc
  | Checkout b :: doc => commits n b doc
  | _ :: doc => commits n cur doc
  end.
(** Only branches that exist somewhere are checked out. *)
Definition known (doc : list git_item) : Prop := Forall (fun it => match it with Checkout b => In b (branches doc) | _ => True end) doc.
Record git_drawn (doc : list git_item) (shapes names tracks dots notes : list shape) : Prop := {
  gi_all : Permutation shapes (names ++ tracks ++ dots ++ notes);
  gi_names : map sh_text names = map Some (branches doc);
  gi_notes : map sh_text notes = map (fun c => Some (fst c)) (commits 0 "main" doc);
  gi_bare : Forall (fun s => sh_text s = None) (tracks ++ dots);
  (** Each branch is a track with its name in front, one under the other *)
  gi_tracks : Forall2 (fun n t => left_to n t /\ centre n = centre t) names tracks;
  gi_down : ForallOrdPairs over names /\ ForallOrdPairs over tracks;
  (** and each commit a dot on the track of its branch, later ones further right, with its label over it *)
  gi_dots : Forall2 (fun c d => exists k t, nth_error (branches doc) k = Some (snd c) /\ nth_error tracks k = Some t
     /\ centre d = centre t /\ (sh_x t <= sh_x d)%N /\ (right_of d <= right_of t)%N) (commits 0 "main" doc) dots;
  gi_order : ForallOrdPairs left_to dots;
  gi_over : Forall2 (fun d n => over n d /\ middle n = middle d) dots notes;
  gi_clear : ForallOrdPairs clear notes /\ Forall (fun n => Forall (clear n) (names ++ tracks ++ dots)) notes }.

(** ** Pies: labels and numbers *)
Inductive pie_item := Slice (t value : string) | PTitle (t : string) | PAside (t : string).
Definition pie_text (it : pie_item) : string :=
  match it with Slice t v => """" ++ t ++ """ : " ++ v | PTitle t => "title " ++ t | PAside t => t end.
Definition pie_ok {A} (number : string -> option A) (it : pie_item) : bool :=
  match it with
  | Slice t v => without [":"; """"]%char t && tidy v && match number v with Some _ => true | None => false end
  | PTitle _ => true
  | PAside t => without [":"]%char t
  end.
Definition slices {A} (number : string -> option A) (doc : list pie_item) : list (string * A) :=
  flat_map (fun it => match it with Slice t v => match number v with Some a => [(t, a)] | None => [] end | _ => [] end) doc.
Definition pie_colors : list string := ["4472C4"; "ED7D31"; "A5A5A5"; "FFC000"; "5B9BD5"; "70AD47"; "9E480E"; "997300"].
Record pie_drawn {A} (number : string -> option A) (percent : list A -> A -> string) (doc : list pie_item) (shapes keys notes : list shape) (disc : shape) : Prop := {
  pi_all : Permutation shapes (disc :: keys ++ notes);
  pi_disc : preset (sh_type disc) = "ellipse" /\ sh_w disc = sh_h disc /\ sh_text disc = None;
  pi_notes : map sh_text notes = map (fun s => Some (fst s ++ " (" ++ percent (map snd (slices number doc)) (snd s) ++ "%)")) (slices number doc);
  pi_keys : Forall (fun s => sh_text s = None) keys;
  (** Up to eight keys have different colours. *)
  pi_colors : length (slices number doc) <= 8 -> NoDup (map filled keys);
  pi_rows : Forall2 (fun k n => sh_y k = sh_y n /\ left_to k n) keys notes;
  pi_down : ForallOrdPairs over keys /\ ForallOrdPairs over notes;
  pi_clear : Forall (clear disc) (keys ++ notes) }.

(** Few enough for 32 bit numbers. *)
Definition few {A} (l : list A) : Prop := length l <= 1000.
