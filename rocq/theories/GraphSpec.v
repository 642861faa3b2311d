(** What Mermaid state, class and entity diagrams say, how they are written, and
    what drawings of them show. *)
From Coq Require Import String Ascii List Bool Arith NArith Permutation.
From Verif Require Import Str ShapeModel ConnectorModel FlowSpec DiagramSpec.
Import ListNotations.
Open Scope string_scope.

(** A line between two shapes: it is tied to both, at sides that face each
    other, ends in [head] and starts bare. *)
Definition facing (from to : shape) (s e : site) : Prop :=
  (s = Right_ /\ e = Left_ /\ (sh_x from < sh_x to)%N) \/ (s = Left_ /\ e = Right_ /\ (sh_x to < sh_x from)%N)
  \/ (s = Bottom /\ e = Top /\ (sh_y from < sh_y to)%N) \/ (s = Top /\ e = Bottom /\ (sh_y to < sh_y from)%N)
  \/ from = to.
Definition ties (head : arrow) (c : connector) (from to : shape) : Prop :=
  sh_id from <> None /\ start_shape c = sh_id from /\ sh_id to <> None /\ end_shape c = sh_id to
  /\ start_arrow c = NoArrow /\ end_arrow c = head
  /\ exists s e, start_site c = Some s /\ end_site c = Some e /\ facing from to s e.
(** From the middle of the right side of one to the middle of the left side of the other. *)
Definition across (c : connector) (from to : shape) : Prop :=
  start_x c = right_of from /\ start_y c = centre from /\ end_x c = sh_x to /\ end_y c = centre to.
(** Each of [links] is a line between the boxes of the two names. *)
Definition linked {A} (R : connector -> shape -> shape -> Prop) (ends : A -> string * string) (names : list string) (boxes : list shape) (links : list A) (lines : list connector) : Prop :=
  Forall2 (fun l c => exists i j a b, nth_error names i = Some (fst (ends l)) /\ nth_error boxes i = Some a
    /\ nth_error names j = Some (snd (ends l)) /\ nth_error boxes j = Some b /\ R c a b) links lines.
(** Every label is in the middle of its line. *)
Definition labelled {A} (links : list (A * option string)) (lines : list connector) (labels : list shape) : Prop :=
  Forall2 (fun xc s => sh_text s = Some (fst xc) /\ middle s = ((start_x (snd xc) + end_x (snd xc)) / 2)%N /\ centre s = ((start_y (snd xc) + end_y (snd xc)) / 2)%N)
    (flat_map (fun mc => match snd (fst mc) with Some x => [(x, snd mc)] | None => [] end) (combine links lines)) labels.
(** Every shape has a number of its own. *)
Definition own_numbers (l : list shape) : Prop := NoDup (map sh_id l) /\ Forall (fun s => sh_id s <> None) l.
(** [b] is drawn directly below [a], of the same width. *)
Definition stacked (a b : shape) : Prop := sh_x b = sh_x a /\ sh_w b = sh_w a /\ sh_y b = bottom_of a.

(** ** State diagrams *)
Inductive spot := At (n : string) | Edge.
Inductive state_item := Move (from to : spot) (label : option string) | SAside (t : string).
Definition spot_text (s : spot) : string := match s with At n => n | Edge => "[*]" end.
Definition state_text (it : state_item) : string :=
  match it with
  | Move f t l => spot_text f ++ " --> " ++ spot_text t ++ match l with Some x => " : " ++ x | None => "" end
  | SAside t => t
  end.
Definition spot_ok (s : spot) : bool :=
  match s with
  | At n => tidy n && without ["-"; ":"]%char n && not_word ["%%"; "direction"] n && negb (existsb (String.eqb n) ["[*]"; "Start"; "End"])
  | Edge => true
  end.
Definition state_ok (it : state_item) : bool :=
  match it with
  | Move f t l => spot_ok f && spot_ok t && match l with Some x => tidy x && negb (contains "-->" x) | None => true end
  | SAside t => starts_with "%%" t || starts_with "direction" t || negb (contains "-->" t)
  end.
(** [[*]] is the start in front of an arrow and the end behind one. *)
Definition from_name (s : spot) : string := match s with At n => n | Edge => "Start" end.
Definition to_name (s : spot) : string := match s with At n => n | Edge => "End" end.
Definition state_names (doc : list state_item) : list string :=
  earliest (fun n => n) [] (flat_map (fun it => match it with Move f t _ => [from_name f; to_name t] | SAside _ => [] end) doc).
Definition moves (doc : list state_item) : list (string * string * option string) :=
  flat_map (fun it => match it with Move f t l => [(from_name f, to_name t, l)] | SAside _ => [] end) doc.
Record state_drawn (doc : list state_item) (shapes : list shape) (lines : list connector) (boxes labels : list shape) : Prop := {
  sd_all : shapes = (boxes ++ labels)%list;
  sd_boxes : map (fun b => (sh_text b, preset (sh_type b))) boxes
    = map (fun n => (Some n, if String.eqb n "Start" || String.eqb n "End" then "ellipse" else "roundRect")) (state_names doc);
  sd_lines : linked (fun c a b => ties Triangle c a b /\ across c a b) fst (state_names doc) boxes (moves doc) lines;
  sd_labels : labelled (moves doc) lines labels;
  sd_numbers : own_numbers shapes;
  sd_apart : ForallOrdPairs clear boxes }.

(** ** Class diagrams *)
Inductive class_item := Class (n : string) (members : list string) | Related (a arrow b : string) | CAside (t : string).
Definition class_text (it : class_item) : list string :=
  match it with
  | Class n l => (("class " ++ n ++ " {")%string :: l ++ ["}"])%list
  | Related a r b => [a ++ " " ++ r ++ " " ++ b]
  | CAside t => [t]
  end.
Definition class_name (n : string) : bool := tidy n && without ["<"; "|"; "-"; ">"; "{"]%char n && not_word ["%%"; "class "] n.
Definition class_ok (it : class_item) : bool :=
  match it with
  | Class n l => class_name n && forallb (fun m => tidy m && not_word ["%%"; "class "] m && negb (String.eqb m "}")) l
  | Related a r b => class_name a && class_name b && sforall (fun c => existsb (Ascii.eqb c) ["<"; "|"; "-"; ">"]%char) r && contains "--" r
  | CAside t => String.eqb t "" || starts_with "%%" t || (not_word ["class "] t && negb (contains "--" t))
  end.
Definition is_method (m : string) : bool := contains "(" m.
Definition classes (doc : list class_item) : list (string * list string) := flat_map (fun it => match it with Class n l => [(n, l)] | _ => [] end) doc.
Definition class_names (doc : list class_item) : list string := map fst (classes doc).
(** The relations between classes that have a body *)
Definition relations (doc : list class_item) : list (string * string) :=
  List.filter (fun r => existsb (String.eqb (fst r)) (class_names doc) && existsb (String.eqb (snd r)) (class_names doc))
    (flat_map (fun it => match it with Related a _ b => [(a, b)] | _ => [] end) doc).
(** At most six lines, where an empty part takes one *)
Definition short_class (c : string * list string) : Prop :=
  Nat.max 1 (length (List.filter (fun m => negb (is_method m)) (snd c))) + Nat.max 1 (length (List.filter is_method (snd c))) <= 6.
Record class_drawn (doc : list class_item) (shapes : list shape) (lines : list connector) (heads attributes methods : list shape) : Prop := {
  cd_all : Permutation shapes (heads ++ attributes ++ methods);
  cd_heads : map sh_text heads = map Some (class_names doc);
  cd_attributes : map sh_text attributes = map (fun c => Some (sjoin nl (List.filter (fun m => negb (is_method m)) (snd c)))) (classes doc);
  cd_methods : map sh_text methods = map (fun c => Some (sjoin nl (List.filter is_method (snd c)))) (classes doc);
  cd_below : Forall2 stacked heads attributes /\ Forall2 stacked attributes methods;
  cd_numbers : own_numbers shapes;
  cd_lines : linked (ties Triangle) (fun r => r) (class_names doc) heads (relations doc) lines;
  cd_apart : Forall short_class (classes doc) -> ForallOrdPairs clear shapes }.

(** ** Entity diagrams *)
Inductive er_item := Entity (n : string) (attrs : list string) | Bond (a card b : string) (label : option string) | EAside (t : string).
Definition er_text (it : er_item) : list string :=
  match it with
  | Entity n l => ((n ++ " {")%string :: l ++ ["}"])%list
  | Bond a c b l => [a ++ " " ++ c ++ " " ++ b ++ match l with Some x => " : " ++ x | None => "" end]
  | EAside t => [t]
  end.
(** How many on each side. *)
Definition cards : list string := ["||--||"; "||--o{"; "||--|{"; "}|--||"; "}o--||"; "}|--|{"; "}o--o{"; "}|--o{"; "}o--|{"; "|o--o{"; "||--o|"; "|o--||"].
Section Er.
Variable alpha : string -> bool.
Definition er_name (n : string) : bool := tidy n && without ["|"; "{"; "}"; "o"; "-"; ":"]%char n && not_word ["%%"] n && alpha (n ++ " ") && alpha (" " ++ n) && alpha (" " ++ n ++ " ").
Definition er_marks : list string := ["||"; "}|"; "|{"; "o{"].
Definition er_ok (it : er_item) : bool :=
  match it with
  | Entity n l => er_name n && forallb (fun a => tidy a && without ["{"]%char a && not_word ["%%"] a && forallb (fun m => negb (contains m a)) er_marks && negb (String.eqb a "}")) l
  | Bond a c b l => er_name a && er_name b && existsb (String.eqb c) cards && match l with Some x => tidy x && without [""""; "'"]%char x | None => true end
  | EAside t => String.eqb t "" || starts_with "%%" t
  end.
End Er.
Definition er_mentions (doc : list er_item) : list string := flat_map (fun it => match it with Entity n _ => [n] | Bond a _ b _ => [a; b] | EAside _ => [] end) doc.
(** Every entity once, with the attributes of all its bodies *)
Definition entities (doc : list er_item) : list (string * list string) :=
  map (fun n => (n, flat_map (fun it => match it with Entity m l => if String.eqb m n then l else [] | _ => [] end) doc)) (earliest (fun n => n) [] (er_mentions doc)).
Definition bonds (doc : list er_item) : list (string * string * option string) := flat_map (fun it => match it with Bond a _ b l => [(a, b, l)] | _ => [] end) doc.
Record er_drawn (doc : list er_item) (shapes : list shape) (lines : list connector) (es : list (string * list string)) (heads bodies labels : list shape) : Prop := {
  ed_entities : Permutation es (entities doc);
  ed_all : Permutation shapes (heads ++ bodies ++ labels);
  ed_heads : map sh_text heads = map (fun e => Some (fst e)) es;
  ed_bodies : map sh_text bodies = map (fun e => Some (sjoin nl (snd e))) es;
  ed_below : Forall2 stacked heads bodies;
  ed_numbers : own_numbers shapes;
  ed_lines : linked (fun c a b => ties Diamond c a b /\ across c a b) fst (map fst es) heads (bonds doc) lines;
  ed_labels : labelled (bonds doc) lines labels;
  (** with at most seven attributes each *)
  ed_apart : Forall (fun e => length (snd e) <= 7) (entities doc) -> ForallOrdPairs clear (heads ++ bodies) }.
