(** Proofs about the markdown parser. *)
From Coq Require Import String Ascii List Bool Arith NArith ZArith Lia.
From Verif Require Import Str Num ColorModel TableModel ConnectorModel ShapeModel SlideModel ValidSpec ValidProofs MdParseModel MdParseSpec.
Import ListNotations.
Open Scope nat_scope.
Open Scope string_scope.

Section P.
Context (trim : string -> string) (load_image : string -> option image) (diagram : string -> list shape * list connector * string) (fit : string -> N).
Notation handle_all := (handle_all trim load_image diagram fit).
Notation handle_event := (handle_event trim load_image diagram fit).
Notation elements := (elements trim).
Notation slide_with := (slide_with trim load_image diagram fit).
Notation untitled := (untitled trim load_image diagram fit).
Notation reads := (reads trim).

(** ** Elements onto the current slide *)
Definition grown (title : string) (f : slide -> slide) (c : option slide) : option slide := Some (f (match c with Some s => s | None => slide_new title end)).
Definition put (c : option slide) (e : element) : option slide :=
  match e with
  | Line s => grown "Slide" (add_bullet s) c
  | SubHeading s => option_map (add_bullet ("**" ++ s ++ "**")) c
  | TableOf rs => match table_from_string_rows rs true with Ret t => grown "Data Table" (with_table t) c | Panic => c end
  | CodeOf l code => if is_diagram l then grown (snd (diagram code)) (with_drawing (fst (fst (diagram code))) (snd (fst (diagram code)))) c
                     else grown "Code" (with_code (Code (trim code) l 500000 1800000 8000000 4000000)) c
  | Picture u t => match load_image u with Some i => grown "Image" (with_image i) c | None => grown "Image" (with_drawing [placeholder fit u t] []) c end
  | NotesOf s => option_map (with_notes s) c
  end.
Definition puts (els : list element) (c : option slide) : option slide := fold_left put els c.
Definition good_element (e : element) : Prop := match e with TableOf rs => table_from_string_rows rs true <> Panic | _ => True end.
Lemma put_on t els e : good_element e -> put (Some (slide_with t els)) e = Some (slide_with t (els ++ [e])).
Proof.
  intros G. unfold MdParseSpec.slide_with, lines_in, table_in, notes_in, code_in, images_in, shapes_in, connectors_in. rewrite !flat_map_app, !fold_left_app, !map_app. cbn [flat_map fold_left].
  destruct e; cbn [put]; try destruct (table_from_string_rows rows true) eqn:T; try (cbn in G; congruence); try destruct (is_diagram lang); try destruct (load_image url);
    unfold grown; cbn [option_map]; unfold add_bullet, with_table, with_drawing, with_code, with_image, with_notes; cbn [option_map add_bullet with_table with_drawing with_code with_image with_notes s_title s_content s_bullets s_style s_tsize s_csize s_tbold s_cbold s_titalic s_citalic s_tunder s_tcolor s_ccolor s_layout s_transition s_table s_shapes s_images s_notes s_connectors s_charts s_code s_ink app map]; rewrite ?app_nil_r; f_equal; f_equal; cbn [app map]; rewrite ?app_nil_r; reflexivity.
Qed.
Lemma puts_on t els2 : forall els, Forall good_element els2 -> puts els2 (Some (slide_with t els)) = Some (slide_with t (els ++ els2)).
Proof.
  induction els2 as [|e l IH]; intros els G; [now rewrite app_nil_r|]. inversion_clear G. unfold puts in *. cbn [fold_left]. rewrite put_on by assumption. rewrite IH by assumption. now rewrite <- app_assoc.
Qed.
Lemma puts_app a b c : puts (a ++ b) c = puts b (puts a c).
Proof. apply fold_left_app. Qed.
Lemma slide_with_nil t : slide_new t = slide_with t [].
Proof. reflexivity. Qed.
Lemma put_none e : good_element e -> put None e = option_map (fun t => slide_with t [e]) (opens diagram e).
Proof.
  intros G. destruct e; cbn [put opens option_map]; try destruct (table_from_string_rows rows true) eqn:T; try (cbn in G; congruence); try destruct (is_diagram lang) eqn:D; try destruct (load_image url) eqn:L;
    try reflexivity; unfold grown; rewrite slide_with_nil; unfold MdParseSpec.slide_with, lines_in, table_in, notes_in, code_in, images_in, shapes_in, connectors_in; cbn [flat_map fold_left app map]; rewrite ?T, ?D, ?L; cbn; rewrite ?app_nil_r; reflexivity.
Qed.
Lemma puts_none els : Forall good_element els -> puts els None = match untitled els with s :: _ => Some s | [] => None end.
Proof.
  induction els as [|e l IH]; intros G; [reflexivity|]. inversion_clear G. unfold puts in *. cbn [fold_left MdParseSpec.untitled]. rewrite put_none by assumption. destruct (opens diagram e) as [t|]; cbn [option_map]; [|now apply IH].
  assert (P := puts_on t l [e] H0). exact P.
Qed.
Lemma untitled_one els : untitled els = match untitled els with s :: _ => [s] | [] => [] end.
Proof. induction els as [|e l IH]; [reflexivity|]. cbn [MdParseSpec.untitled]. destruct (opens diagram e); [reflexivity|exact IH]. Qed.

(** ** Text *)
Definition append_text (t : string) (s : state) : state :=
  if in_table s then set_cell (tcell s ++ t) s else if in_quote s then set_quote true (quote s ++ t) s else set_txt (txt s ++ t) s.
Lemma push_append t s : in_code s = false -> push_text t s = append_text (in_marks (bold s) (italic s) (strike s) t) s.
Proof. destruct s as [? ? ? ? ? ? ? ? ? ? [] [] [] ? ? ? ? ?]; cbn; now intros ->. Qed.
Lemma append_empty s : append_text "" s = s.
Proof. destruct s as [? ? ? ? ? [] ? ? ? ? ? ? ? ? ? [] ? ?]; unfold append_text; cbn; now rewrite sapp_nil_r. Qed.
Lemma append_append a b s : append_text b (append_text a s) = append_text (a ++ b) s.
Proof. destruct s as [? ? ? ? ? [] ? ? ? ? ? ? ? ? ? [] ? ?]; unfold append_text; cbn; now rewrite sapp_assoc. Qed.
Lemma handle_app s l1 l2 : handle_all s (l1 ++ l2) = match handle_all s l1 with Ret s' => handle_all s' l2 | Panic => Panic end.
Proof. revert s. induction l1 as [|e l IH]; intros s; [reflexivity|]. cbn [app MdParseModel.handle_all]. destruct (handle_event s e); [apply IH|reflexivity]. Qed.
Lemma handle_one s e : handle_all s [e] = handle_event s e.
Proof. cbn. now destruct (handle_event s e). Qed.
Definition said (x : inl) (s : state) : state := append_text (says (bold s) (italic s) (strike s) x) (set_cur (puts (pics x) (cur s)) s).
Lemma said_nopic x s : pictures x = [] -> said x s = append_text (says (bold s) (italic s) (strike s) x) s.
Proof. intros P. unfold said, pics. rewrite P. cbn. now destruct s. Qed.
Lemma quiet h s : quiet_html h -> inline_html h s = Ret s.
Proof.
  intros [A|(M & I & B & P)]; unfold inline_html.
  - assert (E : between h = Ret None) by (apply split_once_none in A; unfold between; rewrite A; now destruct (split_once ">" h) as [[? ?]|]). rewrite E. now destruct (contains "<mark>" h || contains "<ins>" h), (contains "<sub>" h), (contains "<sup>" h).
  - apply split_once_none in M, I, B, P. unfold contains. now rewrite M, I, B, P.
Qed.
Lemma inline x : forall s, in_code s = false -> (pictures x = [] \/ pending s = None) -> plain_inl (bold s) (italic s) (strike s) x -> handle_all s (inl_events x) = Ret (said x s).
Proof.
  induction x as [|a IHa b IHb|t|t| |x IH|x IH|x IH|x IH|url title alt IH|h|]; intros s C P PL; cbn [inl_events].
  - rewrite said_nopic by reflexivity. cbn [says]. now rewrite append_empty.
  - destruct PL as [PA PB]. assert (NP : (pictures a = [] \/ pending s = None) /\ (pictures b = [] \/ pending s = None)).
    { cbn in P. destruct P as [P|P]; [apply app_eq_nil in P as [? ?]; auto|auto]. } destruct NP as [NA NB].
    rewrite handle_app, IHa by assumption. rewrite IHb.
    + f_equal. unfold said. cbn [says pictures]. unfold pics. cbn [pictures]. rewrite map_app. unfold puts. rewrite fold_left_app. rewrite <- append_append.
      destruct s as [? ? ? ? ? [] ? ? ? ? ? ? ? ? ? [] ? ?]; reflexivity.
    + destruct s as [? ? ? ? ? [] ? ? ? ? ? ? ? ? ? [] ? ?]; exact C.
    + destruct s as [? ? ? ? ? [] ? ? ? ? ? ? ? ? ? [] ? ?]; exact NB.
    + destruct s as [? ? ? ? ? [] ? ? ? ? ? ? ? ? ? [] ? ?]; exact PB.
  - rewrite handle_one, said_nopic by reflexivity. cbn [MdParseModel.handle_event]. now rewrite push_append.
  - rewrite handle_one, said_nopic by reflexivity. cbn [MdParseModel.handle_event]. now rewrite push_append.
  - rewrite handle_one, said_nopic by reflexivity. cbn [MdParseModel.handle_event]. now rewrite push_append.
  - destruct PL as [B PL]. cbn [MdParseModel.handle_all MdParseModel.handle_event]. rewrite handle_app, IH by (destruct s; cbn in *; auto). rewrite handle_one. cbn [MdParseModel.handle_event]. f_equal.
    destruct s as [? ? ? ? ? [] ? ? ? ? ? ? ? ? ? [] ? ?]; cbn in *; subst; reflexivity.
  - destruct PL as [B PL]. cbn [MdParseModel.handle_all MdParseModel.handle_event]. rewrite handle_app, IH by (destruct s; cbn in *; auto). rewrite handle_one. cbn [MdParseModel.handle_event]. f_equal.
    destruct s as [? ? ? ? ? [] ? ? ? ? ? ? ? ? ? [] ? ?]; cbn in *; subst; reflexivity.
  - destruct PL as [B PL]. cbn [MdParseModel.handle_all MdParseModel.handle_event]. rewrite handle_app, IH by (destruct s; cbn in *; auto). rewrite handle_one. cbn [MdParseModel.handle_event]. f_equal.
    destruct s as [? ? ? ? ? [] ? ? ? ? ? ? ? ? ? [] ? ?]; cbn in *; subst; reflexivity.
  - cbn [MdParseModel.handle_all MdParseModel.handle_event]. rewrite handle_app, IH by assumption. rewrite handle_one. cbn [MdParseModel.handle_event]. reflexivity.
  - destruct PL as [NP PL]. destruct P as [P|P]; [discriminate|]. cbn [MdParseModel.handle_all MdParseModel.handle_event]. rewrite handle_app, IH by (destruct s; cbn in *; auto). rewrite handle_one, said_nopic by exact NP.
    destruct s as [? ? ? ? ? [] ? ? ? ? ? ? ? ? ? [] ? ?]; cbn in P; subst; cbn [MdParseModel.handle_event]; unfold append_text, said, append_text, pics, puts, add_image, on_slide; cbn; destruct (load_image url); reflexivity.
  - rewrite handle_one, said_nopic by reflexivity. cbn [MdParseModel.handle_event says]. rewrite append_empty. now apply quiet.
  - rewrite said_nopic by reflexivity. cbn. now rewrite append_empty.
Qed.

(** ** Blocks *)
Definition resting (s : state) : Prop :=
  in_list s = false /\ items s = [] /\ in_table s = false /\ in_code s = false /\ bold s = false /\ italic s = false /\ strike s = false /\ in_quote s = false /\ pending s = None.
Definition closed (s : state) : list slide := (slides s ++ match cur s with Some sl => [sl] | None => [] end)%list.
Ltac st s := destruct s as [sls c tx il its it rs rw ce ic co la b i k iq q pe].
Ltac rest R := unfold resting in R; cbn in R; destruct R as (-> & -> & -> & -> & -> & -> & -> & -> & ->).
Lemma h1_block x s : resting s -> plain x -> pictures x = [] ->
  exists s', handle_all s (block_events (Heading 1 x)) = Ret s' /\ resting s' /\ slides s' = closed s /\ cur s' = Some (slide_new (reads x)).
Proof.
  intros R PL NP. cbn [block_events MdParseModel.handle_all]. cbn [MdParseModel.handle_event Nat.eqb].
  st s. rest R. unfold finalize, flush_list_items. cbn [items].
  assert (R2 : forall sls' c', resting (set_txt "" (State sls' c' tx false [] false rs rw ce false co la false false false false q None))) by (intros; now repeat split).
  destruct c as [sl|]; cbn [cur]; rewrite handle_app, inline; try (now apply R2); try (now right); try exact PL; rewrite said_nopic by exact NP; rewrite handle_one; cbn [MdParseModel.handle_event Nat.eqb]; eexists; (split; [reflexivity|]);
    (split; [now repeat split|]); (split; [|reflexivity]); unfold closed; cbn; now rewrite ?app_nil_r.
Qed.
Lemma rule_block s : resting s ->
  exists s', handle_all s (block_events HorizontalRule) = Ret s' /\ resting s' /\ slides s' = closed s
  /\ cur s' = match rev (closed s) with last :: _ => Some (slide_new (s_title last ++ " (continued)")) | [] => None end.
Proof.
  intros R. cbn [block_events]. rewrite handle_one. cbn [MdParseModel.handle_event]. st s. rest R. unfold finalize, flush_list_items, closed. cbn [items cur slides].
  destruct c as [sl|]; cbn [cur slides set_cur set_slides].
  - rewrite rev_unit. eexists. split; [reflexivity|]. now repeat split.
  - rewrite app_nil_r. destruct (rev sls) as [|last l] eqn:E; eexists; (split; [reflexivity|]); now repeat split.
Qed.
Lemma sub_block l x s : resting s -> plain x -> Nat.eqb l 1 = false ->
  exists s', handle_all s (block_events (Heading l x)) = Ret s' /\ resting s' /\ slides s' = slides s /\ cur s' = puts (elements (Heading l x)) (cur s).
Proof.
  intros R PL L. cbn [block_events MdParseModel.handle_all MdParseSpec.elements]. cbn [MdParseModel.handle_event]. rewrite L. st s. rest R.
  rewrite handle_app, inline; try (now right); try exact PL; [|reflexivity]. rewrite handle_one. cbn [MdParseModel.handle_event]. rewrite L. eexists. split; [reflexivity|]. split; [now repeat split|]. split; [reflexivity|].
  unfold puts. rewrite fold_left_app. reflexivity.
Qed.
Lemma paragraph_block x s : resting s -> plain x ->
  exists s', handle_all s (block_events (Paragraph x)) = Ret s' /\ resting s' /\ slides s' = slides s /\ cur s' = puts (elements (Paragraph x)) (cur s).
Proof.
  intros R PL. cbn [block_events MdParseModel.handle_all MdParseSpec.elements]. cbn [MdParseModel.handle_event]. st s. rest R. unfold outside at 1. cbn [in_list in_table in_quote in_code negb andb].
  rewrite handle_app, inline; try (now right); try exact PL; [|reflexivity]. rewrite handle_one. cbn [MdParseModel.handle_event]. unfold said, append_text, outside. cbn.
  unfold line_of. change (trim (says false false false x)) with (reads x). unfold puts. rewrite fold_left_app. destruct (String.eqb (reads x) "") eqn:E; eexists; (split; [reflexivity|]); (split; [now repeat split|]); split; reflexivity.
Qed.
(** Within a list. *)
Lemma one_item loose x s : in_list s = true -> in_table s = false -> in_code s = false -> bold s = false -> italic s = false -> strike s = false -> in_quote s = false -> pending s = None -> plain x ->
  exists t, handle_all s (item_events loose x) = Ret (set_txt t (set_cur (puts (pics x) (cur s)) (set_list true (items s ++ (if String.eqb (reads x) "" then [] else [reads x]))%list s))).
Proof.
  intros H1 H2 H3 H4 H5 H6 H7 H8 PL. st s. cbn in *. subst. unfold item_events. cbn [MdParseModel.handle_all]. cbn [MdParseModel.handle_event].
  set (s0 := set_txt "" _). assert (H : handle_all s0 (if loose then StartParagraph :: inl_events x ++ [EndParagraph] else inl_events x) = Ret (said x s0)).
  { destruct loose; [|apply inline; [reflexivity|now right|exact PL]]. cbn [MdParseModel.handle_all]. cbn [MdParseModel.handle_event]. unfold outside. cbn [in_list s0 set_txt negb andb]. fold s0. rewrite handle_app, inline; [|reflexivity|now right|exact PL].
    rewrite handle_one. cbn [MdParseModel.handle_event]. reflexivity. }
  rewrite handle_app, H, handle_one. cbn [MdParseModel.handle_event]. unfold said, append_text. cbn. change (trim (says false false false x)) with (reads x). destruct (String.eqb (reads x) ""); [rewrite app_nil_r|]; eexists; reflexivity.
Qed.
Definition item_texts (xs : list inl) : list string := flat_map (fun x => if String.eqb (reads x) "" then [] else [reads x]) xs.
Lemma all_items loose xs : forall s, in_list s = true -> in_table s = false -> in_code s = false -> bold s = false -> italic s = false -> strike s = false -> in_quote s = false -> pending s = None -> Forall plain xs ->
  exists t, handle_all s (flat_map (item_events loose) xs) = Ret (set_txt t (set_cur (puts (flat_map pics xs) (cur s)) (set_list true (items s ++ item_texts xs)%list s))).
Proof.
  induction xs as [|x xs IH]; intros s H1 H2 H3 H4 H5 H6 H7 H8 PL.
  - exists (txt s). cbn. rewrite app_nil_r. st s. cbn in *. now subst.
  - inversion_clear PL. cbn [flat_map]. rewrite handle_app. destruct (one_item loose x s H1 H2 H3 H4 H5 H6 H7 H8 H) as (t & ->). set (s1 := set_txt t _).
    destruct (IH s1) as (t2 & ->); try (st s; cbn in *; assumption); [st s; reflexivity|]. exists t2. f_equal. unfold item_texts. cbn [flat_map]. fold (item_texts xs). unfold puts. rewrite fold_left_app. st s. cbn in *. subst. now rewrite app_assoc.
Qed.
Lemma bullets_puts l : forall c, puts (map Line l) c = match l with [] => c | _ => grown "Slide" (fun sl => fold_left (fun sl i => add_bullet i sl) l sl) c end.
Proof.
  assert (H : forall l sl, puts (map Line l) (Some sl) = Some (fold_left (fun sl i => add_bullet i sl) l sl)).
  { induction l0 as [|x l0 IH]; intros sl; [reflexivity|]. cbn [map puts fold_left put grown]. unfold puts in IH. apply IH. }
  intros c. destruct l as [|x l]; [reflexivity|]. unfold puts in *. cbn [map fold_left put]. unfold grown at 1. rewrite H. reflexivity.
Qed.
Lemma list_block loose xs s : resting s -> Forall plain xs ->
  exists s', handle_all s (block_events (FlatList loose xs)) = Ret s' /\ resting s' /\ slides s' = slides s /\ cur s' = puts (elements (FlatList loose xs)) (cur s).
Proof.
  intros R PL. cbn [block_events MdParseModel.handle_all MdParseSpec.elements]. cbn [MdParseModel.handle_event]. rewrite handle_app.
  destruct (all_items loose xs (set_list true [] s)) as (t & ->); try (st s; rest R; reflexivity); [exact PL|]. rewrite handle_one. cbn [MdParseModel.handle_event].
  assert (E : flat_map (line_of trim) xs = map Line (item_texts xs)).
  { clear. induction xs as [|x xs IH]; [reflexivity|]. unfold item_texts. cbn [flat_map]. rewrite map_app. fold (item_texts xs). rewrite IH. unfold line_of. now destruct (String.eqb (reads x) ""). }
  rewrite puts_app, E.
  eexists. split; [reflexivity|]. st s. rest R. unfold flush_list_items. cbn [app items set_txt set_cur set_list]. rewrite bullets_puts. destruct (item_texts xs) as [|y l]; (split; [now repeat split|]); split; reflexivity.
Qed.
(** Within a table. *)
Definition tabling (s : state) : Prop := in_table s = true /\ in_list s = false /\ items s = [] /\ in_code s = false /\ bold s = false /\ italic s = false /\ strike s = false /\ in_quote s = false /\ pending s = None.
Ltac tab R := unfold tabling in R; cbn in R; destruct R as (-> & -> & -> & -> & -> & -> & -> & -> & ->).
Lemma one_cell x s : tabling s -> plain x -> exists t, handle_all s (cell_events x) = Ret (set_cell t (set_row (trow s ++ [reads x])%list (set_cur (puts (pics x) (cur s)) s))).
Proof.
  intros R PL. st s. tab R. unfold cell_events. cbn [MdParseModel.handle_all]. cbn [MdParseModel.handle_event]. rewrite handle_app, inline; [|reflexivity|now right|exact PL]. rewrite handle_one. cbn [MdParseModel.handle_event]. eexists. reflexivity.
Qed.
Lemma all_cells xs : forall s, tabling s -> Forall plain xs -> exists t, handle_all s (flat_map cell_events xs) = Ret (set_cell t (set_row (trow s ++ map reads xs)%list (set_cur (puts (flat_map pics xs) (cur s)) s))).
Proof.
  induction xs as [|x xs IH]; intros s R PL.
  - exists (tcell s). cbn. rewrite app_nil_r. now st s.
  - inversion_clear PL. cbn [flat_map map]. rewrite handle_app. destruct (one_cell x s R H) as (t & ->). set (s1 := set_cell t _). destruct (IH s1) as (t2 & ->); [st s; exact R|assumption|]. exists t2. f_equal. rewrite puts_app. st s. cbn. now rewrite <- app_assoc.
Qed.
Definition grid_row (r : list inl) : list (list string) := row_of trim r.
Lemma one_row (S E : event) r s : (S = StartHead /\ E = EndHead) \/ (S = StartRow /\ E = EndRow) -> tabling s -> Forall plain r ->
  exists s', handle_all s (S :: flat_map cell_events r ++ [E]) = Ret s' /\ tabling s' /\ slides s' = slides s /\ cur s' = puts (flat_map pics r) (cur s) /\ trows s' = (trows s ++ grid_row r)%list.
Proof.
  intros SE R PL. assert (H : handle_all s (S :: flat_map cell_events r ++ [E]) = match handle_all (set_row [] s) (flat_map cell_events r) with Ret s' => Ret (push_row s') | Panic => Panic end).
  { destruct SE as [[-> ->]|[-> ->]]; cbn [MdParseModel.handle_all]; cbn [MdParseModel.handle_event]; rewrite handle_app; destruct (handle_all (set_row [] s) (flat_map cell_events r)); reflexivity. }
  rewrite H. destruct (all_cells r (set_row [] s)) as (t & ->); [st s; exact R|exact PL|]. eexists. split; [reflexivity|]. unfold push_row, grid_row, row_of. st s. tab R. cbn [trow set_cell set_row set_cur app]. destruct r as [|x r]; cbn [map]; (split; [now repeat split|]); (split; [reflexivity|]); (split; [reflexivity|]); cbn; now rewrite ?app_nil_r.
Qed.
Lemma all_rows rs : forall s, tabling s -> Forall (Forall plain) rs ->
  exists s', handle_all s (flat_map (fun r => StartRow :: flat_map cell_events r ++ [EndRow])%list rs) = Ret s' /\ tabling s' /\ slides s' = slides s /\ cur s' = puts (flat_map (flat_map pics) rs) (cur s) /\ trows s' = (trows s ++ flat_map grid_row rs)%list.
Proof.
  induction rs as [|r rs IH]; intros s R PL.
  - exists s. cbn. rewrite app_nil_r. repeat split; apply R.
  - inversion_clear PL. cbn [flat_map]. rewrite handle_app. destruct (one_row StartRow EndRow r s (or_intror (conj eq_refl eq_refl)) R H) as (s1 & E1 & R1 & S1 & C1 & T1). rewrite E1.
    destruct (IH s1 R1 H0) as (s2 & E2 & R2 & S2 & C2 & T2). exists s2. rewrite E2, S2, C2, T2, S1, C1, T1, puts_app, app_assoc. repeat split; apply R2.
Qed.
Lemma col_max l : (forall n, In n l -> 1 <= n /\ (N.of_nat n <= u32_max)%N) -> l <> [] -> 1 <= fold_right Nat.max 0 l /\ (N.of_nat (fold_right Nat.max 0%nat l) <= u32_max)%N.
Proof.
  induction l as [|n l IH]; intros H NE; [congruence|]. cbn [fold_right]. destruct (H n (or_introl eq_refl)) as [A B]. destruct l as [|m l].
  - cbn [fold_right]. rewrite Nat.max_0_r. auto.
  - destruct IH as [C D]; [intros k K; apply H; now right|discriminate|]. split; [lia|]. destruct (Nat.max_spec n (fold_right Nat.max 0 (m :: l))) as [[_ ->]|[_ ->]]; assumption.
Qed.
Lemma table_made rs : rs <> [] -> (forall r, In r rs -> r <> [] /\ (N.of_nat (length r) <= u32_max)%N) -> table_from_string_rows rs true <> Panic.
Proof.
  intros NE H. unfold table_from_string_rows. set (cols := match map _ rs with [] => _ | _ => _ end).
  assert (B : 1 <= cols /\ (N.of_nat cols <= u32_max)%N).
  { unfold cols. destruct (map (@length string) rs) as [|n l] eqn:E; [destruct rs; [congruence|discriminate]|]. apply col_max; [|discriminate]. rewrite <- E. intros k K. apply in_map_iff in K as (r & <- & I). destruct (H r I) as [NR L]. split; [|exact L]. destruct r; [congruence|cbn; lia]. }
  destruct B as [B1 B2]. assert (M : (N.of_nat cols mod (u32_max + 1))%N = N.of_nat cols) by (apply N.mod_small; lia). rewrite M. destruct (N.eqb_spec (N.of_nat cols) 0); [lia|discriminate].
Qed.
Lemma rows_in l r : In r (flat_map grid_row l) -> Forall (fun x => Forall plain x /\ (N.of_nat (length x) <= u32_max)%N) l -> r <> [] /\ (N.of_nat (length r) <= u32_max)%N.
Proof.
  intros I F. apply in_flat_map in I as (x & X & I). rewrite Forall_forall in F. destruct (F x X) as [_ B]. unfold grid_row, row_of in I. destruct x as [|y x]; [contradiction|]. destruct I as [<-|[]]. split; [discriminate|]. rewrite map_length. exact B.
Qed.
Lemma grid_block head rows s : resting s -> plain_block (Grid head rows) ->
  exists s', handle_all s (block_events (Grid head rows)) = Ret s' /\ resting s' /\ slides s' = slides s /\ cur s' = puts (elements (Grid head rows)) (cur s).
Proof.
  intros R PL. cbn [plain_block] in PL. assert (PL2 : Forall (Forall plain) (head :: rows)) by (eapply Forall_impl; [|exact PL]; now intros x [? _]). inversion_clear PL2.
  set (hd := (StartHead :: flat_map cell_events head ++ [EndHead])%list). set (bd := flat_map (fun r => StartRow :: flat_map cell_events r ++ [EndRow])%list rows).
  change (block_events (Grid head rows)) with ([StartTable] ++ hd ++ bd ++ [EndTable])%list. rewrite handle_app, handle_one. cbn [MdParseModel.handle_event].
  assert (T0 : tabling (set_table true [] s)) by (st s; rest R; now repeat split).
  destruct (one_row StartHead EndHead head _ (or_introl (conj eq_refl eq_refl)) T0 H) as (s1 & E1 & R1 & S1 & C1 & T1). fold hd in E1. rewrite handle_app, E1.
  destruct (all_rows rows s1 R1 H0) as (s2 & E2 & R2 & S2 & C2 & T2). fold bd in E2. rewrite handle_app, E2. rewrite handle_one. cbn [MdParseModel.handle_event]. cbn [MdParseSpec.elements].
  assert (TR : trows s2 = flat_map grid_row (head :: rows)). { rewrite T2, T1. destruct s; reflexivity. }
  assert (CU : cur s2 = puts (flat_map (flat_map pics) (head :: rows)) (cur s)). { rewrite C2, C1. cbn [flat_map]. rewrite puts_app. destruct s; reflexivity. }
  assert (SL : slides s2 = slides s). { rewrite S2, S1. destruct s; reflexivity. }
  rewrite puts_app, <- CU. change (row_of trim) with grid_row. rewrite <- TR.
  assert (RE : resting (set_table false (trows s2) s2)). { st s2. tab R2. now repeat split. }
  unfold flush_table. cbn [trows set_table]. destruct (trows s2) as [|r rs] eqn:E.
  - eexists. split; [reflexivity|]. split; [exact RE|]. split; [destruct s2; exact SL|]. destruct s2; reflexivity.
  - assert (TM : table_from_string_rows (r :: rs) true <> Panic). { apply table_made; [discriminate|]. intros x X. rewrite TR in X. apply (rows_in (head :: rows)); assumption. }
    destruct (table_from_string_rows (r :: rs) true) as [t|] eqn:TT; [|congruence]. eexists. split; [reflexivity|]. split; [|split].
    + destruct s2. exact RE.
    + destruct s2; exact SL.
    + unfold puts. cbn [fold_left put]. rewrite TT. destruct s2. reflexivity.
Qed.
Lemma listing_text ls : forall s, in_code s = true -> handle_all s (map Text ls) = Ret (set_code true (code s ++ sconcat ls) (lang s) s).
Proof.
  induction ls as [|l ls IH]; intros s C; cbn [map MdParseModel.handle_all].
  - cbn. rewrite sapp_nil_r. st s. cbn in C. now subst.
  - cbn [MdParseModel.handle_event]. unfold push_text. rewrite C. rewrite IH by (destruct s; exact C || reflexivity). st s. cbn. now rewrite sapp_assoc.
Qed.
Lemma listing_block info ls s : resting s ->
  exists s', handle_all s (block_events (Listing info ls)) = Ret s' /\ resting s' /\ slides s' = slides s /\ cur s' = puts (elements (Listing info ls)) (cur s).
Proof.
  intros R. cbn [block_events MdParseModel.handle_all]. cbn [MdParseModel.handle_event]. rewrite handle_app, listing_text by (destruct s; reflexivity). rewrite handle_one. cbn [MdParseModel.handle_event]. cbn [MdParseSpec.elements].
  st s. rest R. unfold flush_code_block. cbn [code set_code append lang in_code]. destruct (String.eqb (sconcat ls) "") eqn:E.
  - eexists. split; [reflexivity|]. now repeat split.
  - set (l := match info with Some l => _ | None => _ end) at 2. replace (match info with Some l0 => if String.eqb l0 "" then "text" else l0 | None => "text" end) with (match l with Some l0 => l0 | None => "text" end) by (subst l; destruct info as [l0|]; [destruct (String.eqb l0 "")|]; reflexivity).
    eexists. split; [reflexivity|]. unfold puts. cbn [fold_left put]. unfold is_diagram. destruct (diagram (sconcat ls)) as [[shs cns] ti]. destruct (String.eqb _ "mermaid"); (split; [now repeat split|]); split; reflexivity.
Qed.
Lemma quote_block x s : resting s -> plain x ->
  exists s', handle_all s (block_events (Quote x)) = Ret s' /\ resting s' /\ slides s' = slides s /\ cur s' = puts (elements (Quote x)) (cur s).
Proof.
  intros R PL. cbn [block_events MdParseModel.handle_all]. cbn [MdParseModel.handle_event]. st s. rest R. unfold outside at 1. cbn [set_quote in_list in_table in_quote in_code negb andb].
  rewrite handle_app, inline; [|reflexivity|now right|exact PL]. cbn [MdParseModel.handle_all]. cbn [MdParseModel.handle_event]. unfold said, append_text, outside, flush_blockquote. cbn -[puts]. cbn [MdParseSpec.elements].
  rewrite puts_app. destruct (String.eqb (says false false false x) ""); eexists; (split; [reflexivity|]); (split; [now repeat split|]); split; reflexivity.
Qed.
Lemma elements_good b : plain_block b -> Forall good_element (elements b).
Proof.
  assert (PG : forall x, Forall good_element (pics x)) by (intros x; unfold pics; apply Forall_forall; intros e I; apply in_map_iff in I as ([u t] & <- & _); exact I).
  assert (PL : forall xs, Forall good_element (flat_map pics xs)) by (induction xs; [constructor|cbn; apply Forall_app; auto]).
  assert (LG : forall x, Forall good_element (line_of trim x)) by (intros x; unfold line_of; destruct (String.eqb _ ""); repeat constructor).
  destruct b; cbn [MdParseSpec.elements plain_block]; intros H; rewrite ?Forall_app; auto.
  - destruct (Nat.eqb level 1); [constructor|]. apply Forall_app. split; [apply PG|repeat constructor].
  - split; [apply PL|]. induction xs; [constructor|cbn; apply Forall_app; auto]. split; [apply LG|]. apply IHxs. now inversion H.
  - split; [|]. { change (Forall good_element (flat_map (flat_map pics) (head :: rows))). generalize (head :: rows). induction l; [constructor|cbn; apply Forall_app; auto]. }
    change (Forall good_element (match flat_map grid_row (head :: rows) with [] => [] | rs => [TableOf rs] end)). destruct (flat_map grid_row (head :: rows)) as [|r rs] eqn:E; [constructor|]. constructor; [|constructor]. cbn [good_element].
    apply table_made; [discriminate|]. intros x X. rewrite <- E in X. exact (rows_in _ _ X H).
  - destruct (String.eqb _ ""); repeat constructor.
  - split; [apply PG|]. destruct (String.eqb _ ""); repeat constructor.
Qed.
(** ** Documents *)
Lemma finalized s : resting s -> slides (finalize s) = closed s.
Proof. intros R. st s. rest R. unfold finalize, flush_list_items, closed. cbn. destruct c; cbn; now rewrite ?app_nil_r. Qed.
Notation slides_from := (slides_from trim load_image diagram fit).
Definition last_title (l : list slide) : option string := match rev l with s :: _ => Some (s_title s) | [] => None end.
Definition one (c : option slide) : list slide := match c with Some s => [s] | None => [] end.
Lemma last_title_app l c : last_title (l ++ one c) = match one c with s :: _ => Some (s_title s) | [] => last_title l end.
Proof. destruct c; cbn [one]; [unfold last_title; now rewrite rev_unit|now rewrite app_nil_r]. Qed.
(** The slide begun when the text is done with the first piece. *)
Definition begun (h prev : option string) : option slide := match h, prev with Some t, _ => Some (slide_new t) | None, Some p => Some (slide_new (p ++ " (continued)")) | None, None => None end.
Lemma made_puts h prev els : Forall good_element els ->
  match h, prev with Some t, _ => [slide_with t els] | None, Some p => [slide_with (p ++ " (continued)") els] | None, None => untitled els end = one (puts els (begun h prev)).
Proof.
  intros G. destruct h as [t|]; cbn [begun]; [now rewrite slide_with_nil, puts_on|]. destruct prev as [p|]; cbn [begun]; [now rewrite slide_with_nil, puts_on|].
  rewrite puts_none by exact G. rewrite untitled_one. now destruct (untitled els).
Qed.
Lemma split_good d : Forall plain_block d -> Forall good_element (fst (split_doc trim d)) /\ Forall (fun p => Forall good_element (snd p)) (snd (split_doc trim d)).
Proof.
  induction 1 as [|b d P H [IH1 IH2]]; [now split; constructor|]. cbn [split_doc]. destruct (split_doc trim d) as [els ps]. cbn [fst snd] in *. apply elements_good in P.
  destruct b as [[|[|l]] x|x|loose xs|head rows|info ls|x|]; cbn [fst snd]; split; auto; try constructor; auto; apply Forall_app; auto.
Qed.
Lemma run_doc d : Forall plain_block d -> forall s, resting s ->
  exists s', handle_all s (flat_map block_events d) = Ret s' /\ resting s' /\
    closed s' = (slides s ++ one (puts (fst (split_doc trim d)) (cur s)) ++ slides_from (last_title (slides s ++ one (puts (fst (split_doc trim d)) (cur s)))) (snd (split_doc trim d)))%list.
Proof.
  induction 1 as [|b d P F IH]; intros s R.
  - exists s. split; [reflexivity|]. split; [exact R|]. cbn. now rewrite app_nil_r.
  - cbn [flat_map]. assert (SG := split_good d F). cbn [split_doc]. destruct (split_doc trim d) as [els ps] eqn:SD. cbn [fst snd] in IH, SG. destruct SG as [SG _].
    assert (STEP : (exists s1, handle_all s (block_events b) = Ret s1 /\ resting s1 /\ slides s1 = slides s /\ cur s1 = puts (elements b) (cur s)) ->
      exists s', handle_all s (block_events b ++ flat_map block_events d) = Ret s' /\ resting s' /\ closed s' = (slides s ++ one (puts (elements b ++ els) (cur s)) ++ slides_from (last_title (slides s ++ one (puts (elements b ++ els) (cur s)))) ps)%list).
    { intros (s1 & E1 & R1 & S1 & C1). rewrite handle_app, E1. destruct (IH s1 R1) as (s2 & E2 & R2 & C2). exists s2. split; [exact E2|]. split; [exact R2|]. rewrite C2, S1, C1, puts_app. reflexivity. }
    assert (BREAK : forall h, (exists s1, handle_all s (block_events b) = Ret s1 /\ resting s1 /\ slides s1 = closed s /\ cur s1 = begun h (last_title (closed s))) ->
      exists s', handle_all s (block_events b ++ flat_map block_events d) = Ret s' /\ resting s' /\ closed s' = (slides s ++ one (puts [] (cur s)) ++ slides_from (last_title (slides s ++ one (puts [] (cur s)))) ((h, els) :: ps))%list).
    { intros h (s1 & E1 & R1 & S1 & C1). rewrite handle_app, E1. destruct (IH s1 R1) as (s2 & E2 & R2 & C2). exists s2. split; [exact E2|]. split; [exact R2|]. rewrite C2, S1, C1.
      cbn [puts fold_left MdParseSpec.slides_from]. change (slides s ++ one (cur s))%list with (closed s). rewrite made_puts by exact SG. unfold closed. rewrite last_title_app, <- !app_assoc. reflexivity. }
    destruct b as [[|[|l]] x|x|loose xs|head rows|info ls|x|]; cbn [plain_block] in P.
    + apply STEP, sub_block; [exact R|apply P|reflexivity].
    + apply (BREAK (Some (reads x))). destruct P as [P1 P2]. exact (h1_block x s R P1 (P2 eq_refl)).
    + apply STEP, sub_block; [exact R|apply P|reflexivity].
    + now apply STEP, paragraph_block.
    + now apply STEP, list_block.
    + now apply STEP, grid_block.
    + now apply STEP, listing_block.
    + now apply STEP, quote_block.
    + apply (BREAK None). destruct (rule_block s R) as (s1 & E1 & R1 & S1 & C1). exists s1. rewrite E1, S1, C1. split; [reflexivity|]. split; [exact R1|]. split; [reflexivity|]. unfold last_title. now destruct (rev (closed s)).
Qed.
Theorem parse_deck d : Forall plain_block d ->
  parse trim load_image diagram fit (flat_map block_events d) = Ret (match deck trim load_image diagram fit d with [] => None | l => Some l end).
Proof.
  intros F. unfold parse. destruct (run_doc d F state0) as (s & E & R & C); [now repeat split|]. rewrite E. rewrite finalized by exact R. rewrite C. cbn [slides cur state0 app]. unfold deck.
  assert (G := split_good d F). destruct (split_doc trim d) as [els ps]. cbn [fst snd] in *. cbn [MdParseSpec.slides_from]. rewrite (made_puts None None els) by apply G. cbn [begun]. destruct (puts els None); cbn; [reflexivity|]. unfold last_title. cbn. now destruct (MdParseSpec.slides_from trim load_image diagram fit None ps).
Qed.
End P.
