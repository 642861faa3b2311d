(** What is lost between a page and its slides, and examples. *)
From Coq Require Import String Ascii List Bool Arith NArith Lia.
From Verif Require Import Str StrRefl XmlSpec Num SlideModel WebModel WebSpec WebRead WebSlides WebThms.
Import ListNotations.
Open Scope nat_scope.
Open Scope string_scope.

(** ** Reading *)
Lemma loose_text c depth a t : walk_element c depth (Elem "div" a [Text t]) = [].
Proof. cbn [walk_element flat_map]. destruct (skipped "div" a); reflexivity. Qed.
Lemma picture_lost c depth a k : Forall (fun b => wb_kind b = WPara) (walk_element c depth (Elem "p" a k)).
Proof.
  cbn [walk_element]. destruct (skipped "p" a); [constructor|]. cbn [one_among no_recurse_tags existsb String.eqb Ascii.eqb Bool.eqb orb]. rewrite app_nil_r. unfold own_block.
  cbn [String.eqb Ascii.eqb Bool.eqb one_among existsb orb]. cbv zeta. destruct (Nat.leb 10 _); repeat constructor.
Qed.
Lemma short_lost c depth k : String.length (clean_text (Elem "p" [] k)) < 10 -> walk_element c depth (Elem "p" [] k) = [].
Proof. intros L. cbn [walk_element skipped]. unfold own_block. cbn. apply Nat.leb_gt in L. cbn in L. rewrite L. reflexivity. Qed.
Definition nested : dom := Elem "ul" [] [Elem "li" [] [Text "fruit"; Elem "ul" [] [Elem "li" [] [Text "apple"]; Elem "li" [] [Text "pear"]]]].
Lemma nested_merged c : map wb_text (walk_element c 0 nested) = ["fruitapplepear"].
Proof. reflexivity. Qed.
Definition menu : dom := Elem "body" [] [Elem "nav" [] [Elem "ul" [] [Elem "li" [] [Text "Home"]; Elem "li" [] [Text "About us"]]]].
Lemma menu_read c : map wb_text (walk_element c 0 menu) = ["Home"; "About us"].
Proof. reflexivity. Qed.
Definition twice : dom := Elem "table" [] [Elem "tr" [] [Elem "td" [] [Elem "table" [] [Elem "tr" [] [Elem "td" [] [Text "x"]]]]]].
Lemma table_twice : map wb_kind (walk_element config_default 0 twice) = [WTable [["x"; "x"]; ["x"]]].
Proof. vm_compute. reflexivity. Qed.

(** ** Slides *)
Definition para (t : string) : block := Block WPara t 0.
Definition point (t : string) : block := Block WItem t 0.
Definition heading (t : string) : block := Block (WHeading 2) t 0.
Definition as_pages (l : list slide) : list page := map (fun s => (s_title s, s_content s)) l.
Definition plainly : options := Options None false.
(** The second item of two, one to a slide *)
Lemma items_lost : as_pages (build_slides (Config 9 1 true true true false) (Content "T" "u" None [heading "H"; point "one"; point "two"]) plainly) = [("T", []); ("H", ["• one"])].
Proof. vm_compute. reflexivity. Qed.
(** A quote before any heading *)
Lemma quote_lost : as_pages (build_slides (Config 9 6 true true true false) (Content "T" "u" None [Block WQuote "said" 0; para "a paragraph"]) plainly) = [("T", []); ("Overview", ["a paragraph"])].
Proof. vm_compute. reflexivity. Qed.
(** Code, tables and images without headings, although they are wanted *)
Lemma code_lost : as_pages (build_slides config_default (Content "T" "u" None [Block WCode "x = 1" 0; Block (WTable [["a"]]) "" 0; Block (WImage "s" "alt") "" 0]) plainly) = [("T", [])].
Proof. vm_compute. reflexivity. Qed.
(** No bullets on a slide is not what happens *)
Lemma none_allowed : as_pages (build_slides (Config 9 0 true true true true) (Content "T" "u" None [heading "H"; para "a paragraph"]) plainly) = [("T", []); ("H", []); ("H (cont.)", ["a paragraph"])].
Proof. vm_compute. reflexivity. Qed.
(** A heading alone *)
Lemma heading_lost : as_pages (build_slides config_default (Content "T" "u" None [heading "H"; heading "I"; para "a paragraph"]) plainly) = [("T", []); ("I", ["a paragraph"])].
Proof. vm_compute. reflexivity. Qed.

(** ** A page *)
Definition sample_main : dom :=
  Elem "main" [("class", "wide")] [Text "
  "; Elem "div" [] [Elem "h1" [] [Text "  The  "; Elem "em" [] [Text "great"]; Text " page"]; Silent; Elem "p" [] [Text "It says something, "; Elem "b" [] [Text "at length"]; Text ", about what it is about and about more than that."]];
    Elem "script" [] [Text "var x = 1;"]; Elem "div" [("class", "Ad-Container")] [Elem "p" [] [Text "buy this now, only today"]];
    Elem "ul" [] [Elem "li" [] [Text "one"]; Elem "li" [] [Text "two"]];
    Elem "table" [] [Elem "tbody" [] [Elem "tr" [] [Elem "th" [] [Text "a"]; Elem "th" [] [Text "b"]]; Elem "tr" [] [Elem "td" [] [Text "1"]; Elem "td" [] [Text "2"]]]]].
Definition sample_found (s : string) : option dom :=
  if String.eqb s "main" then Some sample_main else if String.eqb s "title" then Some (Elem "title" [] [Text " Great "]) else if String.eqb s "article" then Some (Elem "article" [] [Text "short"]) else None.
Definition sample_items : list item := [Head 1 "The great page"; Para "It says something, at length, about what it is about and about more than that."; Point "one"; Point "two"; Grid [["a"; "b"]; ["1"; "2"]]].
Lemma sample_main_part : main_part sample_found sample_main.
Proof.
  exists ["main article"; "article"], "main", ["[role='main']"; ".content"; ".post-content"; ".article-content"; ".entry-content"; ".markdown-body"; ".prose"; "#content"; "#main"; "#article"; ".article"; "body"].
  split; [reflexivity|]. split; [reflexivity|]. split; [apply Nat.ltb_lt; vm_compute; reflexivity|]. intros p d [<-|[<-|[]]]; [discriminate|]. intros [= <-]. apply Nat.le_ngt, Nat.leb_le. vm_compute. reflexivity.
Qed.
(** Words of a text, one way to split it *)
Lemma spaced_some s : exists ws, spaced s ws.
Proof.
  induction s as [|c s (ws & S)]; [exists []; now apply spaced_end|]. destruct (is_ws c) eqn:C.
  - exists ws. inversion S as [g G|g w rest ws' G W R S']; subst.
    + apply spaced_end. unfold gap in *. cbn. now rewrite C.
    + change (String c (g ++ w ++ rest)) with (String c g ++ w ++ rest). apply spaced_word; try assumption. unfold gap in *. cbn. now rewrite C.
  - destruct s as [|d s]; [exists [s1 c]; change (String c "") with ("" ++ s1 c ++ "") at 1; apply spaced_word; [reflexivity|split; [discriminate|cbn; now rewrite C]|exact I|now apply spaced_end]|].
    destruct (is_ws d) eqn:D; [exists (s1 c :: ws); change (String c (String d s)) with ("" ++ s1 c ++ String d s); apply spaced_word; [reflexivity|split; [discriminate|cbn; now rewrite C]|exact D|exact S]|].
    inversion S as [g G E|g w rest ws' G W R S' E]; subst.
    + unfold gap in G. cbn in G. rewrite D in G. discriminate.
    + destruct g as [|x g]; [|cbn in E; injection E as -> _; unfold gap in G; cbn in G; rewrite D in G; discriminate].
      exists (String c w :: ws'). rewrite <- ?E. change (String c ("" ++ w ++ rest)) with ("" ++ String c w ++ rest). apply spaced_word; [reflexivity| |exact R|exact S']. split; [discriminate|]. destruct W as [_ W]. cbn. now rewrite C, W.
Qed.
Lemma spaced_all s : spaced s (words_of s).
Proof. destruct (spaced_some s) as (ws & A). now rewrite (spaced_words _ _ A). Qed.
Lemma says_words d : says d (sjoin " " (words_of (text_of d))).
Proof. eexists. split; [apply spaced_all|reflexivity]. Qed.
Ltac says_this := match goal with |- says ?d ?t => replace t with (sjoin " " (words_of (text_of d))) by (vm_compute; reflexivity); apply says_words end.
Lemma sample_on_page : on_page sample_main sample_items.
Proof.
  unfold sample_main. change sample_items with (concat [[]; [Head 1 "The great page"; Para "It says something, at length, about what it is about and about more than that."]; []; []; [Point "one"; Point "two"]; [Grid [["a"; "b"]; ["1"; "2"]]]]).
  apply page_box; [vm_compute; reflexivity|vm_compute; intuition discriminate|vm_compute; intuition discriminate|].
  constructor; [apply page_blank; vm_compute; reflexivity|]. constructor; [|constructor; [|constructor; [|constructor; [|constructor; [|constructor]]]]].
  - change [Head 1 "The great page"; Para "It says something, at length, about what it is about and about more than that."] with (concat [[Head 1 "The great page"]; []; [Para "It says something, at length, about what it is about and about more than that."]]).
    apply page_box; [vm_compute; reflexivity|vm_compute; intuition discriminate|vm_compute; intuition discriminate|].
    constructor; [apply page_item; [reflexivity|apply holds_head; [now left|says_this|discriminate|cbn; lia]]|]. constructor; [apply page_silent|]. constructor; [|constructor].
    apply page_item; [reflexivity|apply holds_para; [says_this|cbn; lia]].
  - apply page_machinery. now left.
  - apply page_noise. vm_compute. reflexivity.
  - change [Point "one"; Point "two"] with (concat [[Point "one"]; [Point "two"]]). apply page_box; [vm_compute; reflexivity|vm_compute; intuition discriminate|vm_compute; intuition discriminate|].
    constructor; [|constructor; [|constructor]]; (apply page_item; [reflexivity|apply holds_point; [says_this|discriminate|cbn; lia]]).
  - apply page_item; [reflexivity|]. apply (holds_grid _ _ [[["a"; "b"]; ["1"; "2"]]]); [|reflexivity|discriminate|cbn; lia]. constructor; [|constructor].
    change [["a"; "b"]; ["1"; "2"]] with (concat [[["a"; "b"]]; [["1"; "2"]]]). apply rows_box; [discriminate|].
    constructor; [|constructor; [|constructor]].
    + change ["a"; "b"] with (concat [["a"]; ["b"]]). apply rows_row. constructor; [|constructor; [|constructor]]; (apply cells_cell; [cbn; tauto|constructor; constructor; [split; [reflexivity|constructor]|constructor]|says_this]).
    + change ["1"; "2"] with (concat [["1"]; ["2"]]). apply rows_row. constructor; [|constructor; [|constructor]]; (apply cells_cell; [cbn; tauto|constructor; constructor; [split; [reflexivity|constructor]|constructor]|says_this]).
Qed.
Definition sample_content : content :=
  Content "Great" "https://example.org" (Some "about it") [para "An opening paragraph"; heading "First"; point "one"; point "two"; Block WCode "x = 1" 0; heading "Empty"; heading "Last"; Block WQuote "said" 0].
Definition sample_config : config := Config 4 3 true true true true.
Lemma sample_outline : outline (w_blocks sample_content) [para "An opening paragraph"] [(heading "First", [point "one"; point "two"; Block WCode "x = 1" 0]); (heading "Empty", []); (heading "Last", [Block WQuote "said" 0])].
Proof. split; [reflexivity|]. split; repeat (constructor; try reflexivity). Qed.
Lemma sample_pages : as_pages (build_slides sample_config sample_content (Options None true))
  = [("Great", ["about it"; "Source: https://example.org"]); ("First", ["An opening paragraph"; "• one"; "• two"]); ("First (cont.)", ["[Code] x = 1"]); ("Last", [s1 DQ ++ "said" ++ s1 DQ])].
Proof. vm_compute. reflexivity. Qed.
Definition sample_linear : config := Config 9 1 true true true false.
Definition linear_content : content := Content "Great" "u" None [para "An opening paragraph"; para "and another one"; heading "First"; point "one"].
Lemma linear_hyps : outline (w_blocks linear_content) [para "An opening paragraph"; para "and another one"] [(heading "First", [point "one"])]
  /\ opens [para "An opening paragraph"; para "and another one"] = true /\ Forall (flows 1) [[para "An opening paragraph"; para "and another one"]; [point "one"]].
Proof. split; [split; [reflexivity|split; repeat (constructor; try reflexivity)]|]. split; [reflexivity|]. constructor; [left; repeat (constructor; [split; discriminate|]); constructor|]. constructor; [right; cbn; lia|constructor]. Qed.
Lemma linear_pages : as_pages (build_slides sample_linear linear_content plainly) = [("Great", []); ("Overview", ["An opening paragraph"]); ("Overview (cont.)", ["and another one"]); ("First", ["• one"])].
Proof. vm_compute. reflexivity. Qed.
