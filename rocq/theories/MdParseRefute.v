(** Markdown documents whose text the parser loses or garbles. *)
From Coq Require Import String Ascii List Bool Arith NArith ZArith.
From Verif Require Import Str Num ColorModel TableModel ConnectorModel ShapeModel SlideModel ValidSpec MdParseModel MdParseSpec MdParseProofs.
Import ListNotations.
Open Scope nat_scope.
Open Scope string_scope.

(** Titles and lines of the slides read from a stream of events, where no picture
    can be loaded. *)
Definition shown (l : list event) : outcome (option (list (string * list string * option string))) :=
  match parse (Str.trim) (fun _ => None) (fun _ => ([], [], "Diagram")) (fun _ => 10%N) l with
  | Ret o => Ret (option_map (map (fun s => (s_title s, s_content s, s_notes s))) o)
  | Panic => Panic
  end.
Definition h1 : list event := [StartHeading 1; Text "T"; EndHeading 1].
Definition para (t : string) : list event := [StartParagraph; Text t; EndParagraph].

(** "- a" with a nested "- b": the item "a" is lost. *)
Definition nested_events : list event :=
  (h1 ++ [StartList; StartItem; Text "a"; StartList; StartItem; Text "b"; EndItem; EndList; EndItem; EndList])%list.
Lemma nested_list_refuted : shown nested_events = Ret (Some [("T", ["b"], None)]).
Proof. vm_compute. reflexivity. Qed.
(** An item of two paragraphs, and a quotation of two: run together. *)
Lemma item_paragraphs_refuted :
  shown (h1 ++ [StartList; StartItem] ++ para "one" ++ para "two" ++ [EndItem; EndList] ++ [StartQuote] ++ para "red" ++ para "blue" ++ [EndQuote])%list
  = Ret (Some [("T", ["onetwo"], Some "redblue")]).
Proof. vm_compute. reflexivity. Qed.
(** A picture in a level-1 heading gets a slide of its own, or is lost. *)
Lemma heading_image_refuted :
  shown [StartHeading 1; Text "T"; StartImage "u" "t"; Text "alt"; EndImage; EndHeading 1] = Ret (Some [("Talt", [], None)])
  /\ forall l, parse (Str.trim) (fun _ => None) (fun _ => ([], [], "Diagram")) (fun _ => 10%N) [StartHeading 1; Text "T"; StartImage "u" "t"; Text "alt"; EndImage; EndHeading 1] = Ret (Some l) -> flat_map s_shapes l = [].
Proof. split; [vm_compute; reflexivity|]. intros l H. vm_compute in H. injection H as <-. reflexivity. Qed.
(** "**a⏎b**" *)
Lemma bold_break_refuted :
  shown (h1 ++ [StartParagraph; StartStrong; Text "a"; Break; Text "b"; EndStrong; EndParagraph])%list = Ret (Some [("T", ["**a**** ****b**"], None)]).
Proof. vm_compute. reflexivity. Qed.
(** "**a __b__ c**": "c" is not bold any more. *)
Lemma nested_bold_refuted :
  shown (h1 ++ [StartParagraph; StartStrong; Text "a"; StartStrong; Text "b"; EndStrong; Text "c"; EndStrong; EndParagraph])%list = Ret (Some [("T", ["**a****b**c"], None)]).
Proof. vm_compute. reflexivity. Qed.
(** An HTML comment that stops the program. *)
Lemma html_panic_refuted : shown (h1 ++ [StartParagraph; InlineHtml "<!-- </<mark> -->"; EndParagraph])%list = Panic.
Proof. vm_compute. reflexivity. Qed.
(** A level-2 heading before the first slide. *)
Lemma early_heading_refuted : shown ([StartHeading 2; Text "early"; EndHeading 2] ++ h1)%list = Ret (Some [("T", [], None)]).
Proof. vm_compute. reflexivity. Qed.
(** A level-1 heading within a quotation: its text is lost. *)
Lemma quoted_heading_refuted : shown [StartQuote; StartHeading 1; Text "quoted"; EndHeading 1; EndQuote] = Ret (Some [("", [], Some "quoted")]).
Proof. vm_compute. reflexivity. Qed.
(** A heading that follows a rule leaves an empty continuation slide before it. *)
Lemma rule_heading_refuted : shown (h1 ++ [Rule] ++ h1)%list = Ret (Some [("T", [], None); ("T (continued)", [], None); ("T", [], None)]).
Proof. vm_compute. reflexivity. Qed.
(** The second of two tables on a slide replaces the first. *)
Lemma two_tables_refuted :
  let table t := [StartTable; StartHead; StartCell; Text t; EndCell; EndHead; EndTable] in
  parse (Str.trim) (fun _ => None) (fun _ => ([], [], "Diagram")) (fun _ => 10%N) (h1 ++ table "first" ++ table "second")%list
  = parse (Str.trim) (fun _ => None) (fun _ => ([], [], "Diagram")) (fun _ => 10%N) (h1 ++ table "second")%list.
Proof. vm_compute. reflexivity. Qed.
(** The addresses of links and the ticks of task lists are lost: these give the
    same slides as plain text. *)
Lemma link_task_refuted d :
  let plain := (h1 ++ [StartList; StartItem; Text "done"; EndItem; EndList; StartParagraph; Text "here"; EndParagraph])%list in
  shown ((h1 ++ [StartList; StartItem; Other; Text "done"; EndItem; EndList; StartParagraph; Other; Text "here"; Other; EndParagraph]) ++ d)%list = shown (plain ++ d)%list.
Proof.
  intros plain. unfold shown, parse. rewrite !handle_app. unfold plain.
  match goal with |- match match ?x with _ => _ end with _ => _ end = match match ?y with _ => _ end with _ => _ end => assert (E : x = y) by (vm_compute; reflexivity); now rewrite E end.
Qed.
