(** From the text of a page to its slides. *)
From Coq Require Import String Ascii List Bool Arith NArith ZArith Lia.
From Verif Require Import Str Num ColorModel TableModel ConnectorModel ShapeModel SlideModel ValidSpec ValidProofs MdParseModel HtmlInModel HtmlInSpec HtmlInProofs HtmlInMore HtmlInTokens HtmlInDoc.
Import ListNotations.
Open Scope nat_scope.
Open Scope string_scope.

Section E.
Context (trim lower upper : string -> string) (alnum : string -> bool) (font_size : string -> option N) (load_image : string -> option image) (options : html_in).
Notation parse_html := (parse_html trim lower upper alnum font_size load_image options).
Lemma parse_ends html : parse_html html <> None.
Proof. unfold HtmlInModel.parse_html. assert (H := tokenize_ends trim lower alnum html). destruct (tokenize trim lower alnum html); [discriminate|congruence]. Qed.
Lemma html_limit html out : parse_html html = Some (Ret (Some out)) -> length out <= max_slides options.
Proof. unfold HtmlInModel.parse_html. destruct (tokenize trim lower alnum html) as [l|]; [|discriminate]. cbn [option_map]. intros H. assert (E : parse_events trim lower upper font_size load_image options l = Ret (Some out)) by congruence. exact (parse_limit _ _ _ _ _ _ _ _ E). Qed.
Lemma html_lines html out : parse_html html = Some (Ret (Some out)) ->
  forall s i line, In s out -> Nat.max 1 (max_bullets options) <= i -> nth_error (s_content s) i = Some line -> exists u, line = "**" ++ u ++ "**".
Proof.
  unfold HtmlInModel.parse_html. destruct (tokenize trim lower alnum html) as [l|]; [|discriminate]. cbn [option_map]. intros H s i line I L NT. assert (E : parse_events trim lower upper font_size load_image options l = Ret (Some out)) by congruence. assert (F := line_limit _ _ _ _ _ _ _ _ E). rewrite Forall_forall in F. exact (F s I i line NT L).
Qed.
Lemma html_no_panic html events : (forall s, exists a b, s = a ++ trim s ++ b) -> tokenize trim lower alnum html = Some events -> (N.of_nat (length events) <= u32_max)%N ->
  (forall name attrs v, In (Open name attrs) events -> In ("style", v) attrs -> ascii_text v = true) -> parse_html html <> Some Panic.
Proof.
  intros T E L A. unfold HtmlInModel.parse_html. rewrite E. cbn [option_map]. intros H. assert (P : parse_events trim lower upper font_size load_image options events = Panic) by congruence. revert P. apply parse_no_panic; [exact L|].
  intros m attrs v I V. apply style_ascii; [exact T|]. apply (A m attrs v I). unfold assoc in V. destruct (find _ attrs) as [[k w]|] eqn:F; [|discriminate]. apply find_some in F as [F K]. apply String.eqb_eq in K. subst k. cbn in V. injection V as <-. exact F.
Qed.
Lemma page_deck d page : (forall c, ascii_char c = true -> alnum (s1 c) = letter_or_digit c) -> (forall n, sforall name_letter n = true -> lower n = n) -> trim "" = "" ->
  Forall (piece_ok trim) page -> apart page -> flat_map piece_event page = hdoc_events d -> hdoc_ok d ->
  parse_html (chars (write_html page)) = Some (Ret (match html_deck trim load_image options d with [] => None | l => Some (firstn (max_slides options) l) end)).
Proof. intros AL LO TE F A E OK. unfold HtmlInModel.parse_html. rewrite tokenize_write by assumption. cbn [option_map]. rewrite E. now rewrite doc_deck. Qed.
(** ** Titles *)
Lemma parts_titles l : ~ In Cut l -> let '(els, ps) := parts_of l in
  map (fun p => match fst p with Some t => if filled t then t else "Slide" | None => "" end) ps = flat_map (fun e => match e with Title t => [if filled t then t else "Slide"] | _ => [] end) l /\ Forall (fun p => fst p <> None) ps.
Proof.
  induction l as [|e l IH]; intros N; cbn [parts_of]; [split; constructor|]. assert (N2 : ~ In Cut l) by (intros I; apply N; now right). specialize (IH N2). destruct (parts_of l) as [els ps]. destruct IH as [IH F].
  destruct e; cbn [flat_map map app fst]; try (split; [exact IH|exact F]); [|exfalso; apply N; now left]. split; [now f_equal|constructor; [discriminate|exact F]].
Qed.
Lemma part_titles ps : Forall (fun p => fst p <> None) ps -> forall pt, map s_title (part_slides options pt ps) = map (fun p => match fst p with Some t => if filled t then t else "Slide" | None => "" end) ps.
Proof. induction 1 as [|[[t|] els] ps N F IH]; intros pt; cbn in *; [reflexivity| |congruence]. now rewrite IH. Qed.
Lemma untitled_short l : forall pt, length (untitled_part options pt l) <= 1.
Proof. induction l as [|e l IH]; intros pt; cbn [untitled_part]; [cbn; lia|]. destruct e; cbn; try lia; apply IH. Qed.
Lemma content_titles d : no_rules d -> ~ In Cut (content trim load_image options d) /\ flat_map (fun e => match e with Title t => [if filled t then t else "Slide"] | _ => [] end) (content trim load_image options d) = html_titles trim d.
Proof.
  induction d as [|a IHa b IHb|n attrs d IH|n attrs x|n attrs x|o xs|rs|c s|p s|src alt|n s|]; intros NR; cbn [content html_titles]; cbn [no_rules] in NR.
  - now split.
  - destruct NR as [N1 N2]. destruct (IHa N1) as [A1 A2], (IHb N2) as [B1 B2]. split; [intros I; apply in_app_or in I as [I|I]; contradiction|]. now rewrite flat_map_app, A2, B2.
  - now apply IH.
  - assert (K : forall (l : list item), match l with [] | [Sub _] => True | _ => False end -> ~ In Cut l /\ flat_map (fun e => match e with Title t => [if filled t then t else "Slide"] | _ => [] end) l = []) by (intros [|[] [|? ?]] K; try contradiction; split; try reflexivity; intros [I|[]] || intros []; discriminate).
    destruct n as [|[|n]]; [apply K; now destruct (filled _)| |apply K; now destruct (filled _)]. split; [|reflexivity]. intros [I|[]]. discriminate.
  - destruct (filled _); cbn; split; try reflexivity; intros [I|[]] || intros []; discriminate.
  - destruct (filter _ _); cbn; split; try reflexivity; intros [I|[]] || intros []; discriminate.
  - destruct (filter _ _); [|destruct (with_tables options)]; cbn; split; try reflexivity; intros [I|[]] || intros []; discriminate.
  - destruct (_ && _); cbn; split; try reflexivity; intros [I|[]] || intros []; discriminate.
  - destruct (filled _); cbn; split; try reflexivity; intros [I|[]] || intros []; discriminate.
  - destruct (_ && _); [destruct (load_image src)|]; cbn; split; try reflexivity; intros [I|[]] || intros []; discriminate.
  - now split.
  - contradiction.
Qed.
Lemma deck_titles d : no_rules d -> exists before, length before <= 1 /\ map s_title (html_deck trim load_image options d) = (before ++ html_titles trim d)%list.
Proof.
  intros NR. destruct (content_titles d NR) as [NC T]. unfold html_deck. assert (P := parts_titles _ NC). destruct (parts_of (content trim load_image options d)) as [els ps]. destruct P as [P F]. cbn [part_slides].
  exists (map s_title (untitled_part options None els)). rewrite map_length. split; [apply untitled_short|]. now rewrite map_app, part_titles, P, T by exact F.
Qed.
End E.
(** ** Used by the examples *)
Lemma split_least p a b : exists x y, split_once p (a ++ p ++ b) = Some (x, y) /\ String.length x <= String.length a.
Proof.
  induction a as [|c a IH].
  - exists "", b. split; [|cbn; lia]. cbn [append]. assert (S : strip_prefix p (p ++ b) = Some b) by apply strip_prefix_app. destruct (p ++ b) as [|d r]; cbn [split_once]; rewrite S; reflexivity.
  - destruct IH as (x & y & E & L). cbn [append split_once]. destruct (strip_prefix p (String c (a ++ p ++ b))) as [r|]; [exists "", r; split; [reflexivity|cbn; lia]|]. rewrite E. exists (String c x), y. split; [reflexivity|cbn; lia].
Qed.
Lemma comment_once s a b : s ++ "-->" = a ++ "-->" ++ b -> split_once "-->" (s ++ "-->") = Some (s, "") -> b = "".
Proof.
  intros E S. destruct (split_least "-->" a b) as (x & y & X & L). rewrite <- E, S in X. assert (x = s) by congruence. subst x. apply (f_equal String.length) in E. rewrite !app_len in E. cbn in E. destruct b; [reflexivity|cbn in E; lia].
Qed.
Lemma trim_start_within p s : exists a, s = a ++ trim_start_by p s.
Proof. induction s as [|c s (a & IH)]; [now exists ""|]. cbn [trim_start_by]. destruct (p c); [exists (String c a); cbn; now f_equal|now exists ""]. Qed.
Lemma trim_within s : exists a b, s = a ++ Str.trim s ++ b.
Proof.
  unfold Str.trim, trim_end_by. destruct (trim_start_within is_ws s) as (a & A). set (m := trim_start_by is_ws s) in *. destruct (trim_start_within is_ws (srev m)) as (b & B). exists a, (srev b). rewrite A at 1. f_equal. rewrite <- (srev_involutive m) at 1. rewrite B at 1. now rewrite srev_sapp.
Qed.
Lemma lowercase_name n : sforall name_letter n = true -> lowercase n = n.
Proof.
  unfold lowercase. induction n as [|c n IH]; intros F; [reflexivity|]. cbn [sforall] in F. apply andb_prop in F as [A B]. cbn [smap]. rewrite IH by exact B. replace (s1 (ShapeModel.lower c)) with (s1 c); [reflexivity|]. destruct c as [[] [] [] [] [] [] [] []]; vm_compute in A; try discriminate; reflexivity.
Qed.
