(** Diagrams with sections: time lines, Gantt charts and journeys. *)
From Coq Require Import String Ascii List Bool Arith NArith ZArith Permutation Lia.
From Verif Require Import Str Num ColorModel TableModel ShapeModel ConnectorModel ValidSpec ValidProofs FlowModel FlowSpec FlowText FlowDraw FlowThms DiagramModel DiagramSpec DiagramCommon.
Import ListNotations.
Open Scope nat_scope.
Open Scope string_scope.

(** ** Sections *)
Section Sections.
Context {A : Type}.
Definition open_section (n : string) (l : list A) (s : sect A) : sect A := fold_left (fun s a => add_item a s) l (next_section n s).
Definition proper (s : sect A) : Prop := s_name s = "" -> s_items s = [].
Lemma items_added l : forall s : sect A, fold_left (fun s a => add_item a s) l s = Sect (s_title s) (s_done s) (s_name s) (s_items s ++ l)%list.
Proof. induction l as [|a l IH]; intros s; [cbn; rewrite app_nil_r; now destruct s|]. cbn [fold_left]. rewrite IH. cbn. now rewrite <- app_assoc. Qed.
Lemma section_opened n l (s : sect A) : proper s -> n <> "" ->
  let s' := open_section n l s in proper s' /\ finished s' = (finished s ++ [(n, l)])%list /\ s_title s' = s_title s /\ s_name s' = n.
Proof.
  intros P N. unfold open_section. rewrite items_added. unfold next_section, finished, proper in *. destruct (String.eqb_spec (s_name s) "") as [E|E]; cbn.
  - rewrite (P E). destruct (String.eqb_spec n ""); [congruence|]. repeat split; auto. intros ->. congruence.
  - destruct (String.eqb_spec n ""); [congruence|]. repeat split; auto. intros ->. congruence.
Qed.
(** Items that set the title, open a section or do nothing. *)
Inductive deed := Titled (t : string) | Opened (n : string) (l : list A) | Nothing.
Definition deed_effect (s : sect A) (d : deed) : sect A := match d with Titled t => set_title t s | Opened n l => open_section n l s | Nothing => s end.
Lemma deeds ds : (forall n l, In (Opened n l) ds -> n <> "") -> forall s, proper s ->
  let s' := fold_left deed_effect ds s in proper s' /\ finished s' = (finished s ++ flat_map (fun d => match d with Opened n l => [(n, l)] | _ => [] end) ds)%list
  /\ s_title s' = last (flat_map (fun d => match d with Titled t => [t] | _ => [] end) ds) (s_title s).
Proof.
  induction ds as [|d ds IH]; intros N s P; [cbn; rewrite app_nil_r; auto|]. cbn [fold_left flat_map]. specialize (IH (fun n l I => N n l (or_intror I))). destruct d as [t|n l|]; cbn [deed_effect].
  - destruct (IH (set_title t s) P) as (A1 & A2 & A3). split; [exact A1|]. split; [exact A2|]. rewrite A3. cbn [set_title s_title app].
    assert (LL : forall (m : list string) x y, last (x :: m) y = last m x). { clear. induction m as [|z m IH]; intros x y; [reflexivity|]. change (last (x :: z :: m) y) with (last (z :: m) y). now rewrite !IH. }
    now rewrite LL.
  - destruct (section_opened n l s P (N n l (or_introl eq_refl))) as (B1 & B2 & B3 & _). destruct (IH _ B1) as (A1 & A2 & A3). split; [exact A1|]. split; [rewrite A2, B2, <- app_assoc; reflexivity|]. now rewrite A3, B3.
  - now apply IH.
Qed.
End Sections.
Arguments deed : clear implicits.

(** ** Reading time lines *)
Lemma line_solid a b c : solid a -> solid c -> String.eqb (a ++ b ++ c) "" = false.
Proof. intros A C. apply solid_some. now apply solid_app. Qed.
Definition time_deed (it : time_item) : deed string := match it with TTitle t => Titled t | TEvent d x m => Opened d (x :: m) | TAside _ => Nothing end.
Lemma time_items m : forallb (fun i => tidy i && without [":"]%char i && not_word ["title"; "%%"] i) m = true ->
  forall s, s_name s <> "" -> fold_left time_line m s = fold_left (fun s a => add_item a s) m s.
Proof.
  induction m as [|i m IH]; intros H s N; [reflexivity|]. cbn [forallb] in H. apply andb_prop in H as [I H]. cbn [fold_left].
  apply andb_prop in I as [I NW]. apply andb_prop in I as [T C].
  assert (E : time_line s i = add_item i s).
  { unfold time_line. rewrite (tidy_some i T), (not_starts _ "%%" i NW), (not_starts _ "title" i NW) by (cbn; auto). cbn [orb].
    rewrite (split_free ":" "") by (now apply (not_free i _ ":" C)). destruct (String.eqb_spec (s_name s) ""); [congruence|reflexivity]. }
  rewrite E. apply IH; [exact H|exact N].
Qed.
Lemma time_read_item s it : time_ok it = true -> fold_left time_line (time_text it) s = deed_effect s (time_deed it).
Proof.
  destruct it as [t|d x m|t]; cbn [time_ok time_text time_deed deed_effect fold_left]; intros H.
  - unfold time_line. change (String.eqb ("title " ++ t) "") with false. change (starts_with "%%" ("title " ++ t)) with false. cbn [orb].
    change ("title " ++ t) with ("title" ++ (" " ++ t)). rewrite starts_with_app. unfold after_word. rewrite strip_prefix_app. now rewrite tidy_before.
  - apply andb_prop in H as [H M]. apply andb_prop in H as [H X]. apply andb_prop in H as [H NW]. apply andb_prop in H as [D C]. pose proof (tidy_solid d D) as SD. pose proof (tidy_solid x X) as SX.
    assert (E : time_line s (d ++ " : " ++ x) = add_item x (next_section d s)).
    { unfold time_line. rewrite line_solid by assumption. change (" : " ++ x) with (String " " (": " ++ x)). rewrite !not_start; try reflexivity; try (apply (not_starts ["title"; "%%"]); [exact NW|cbn; auto]). cbn [orb].
      replace (d ++ String " " (": " ++ x)) with ((d ++ " ") ++ ":" ++ (" " ++ x)) by (now rewrite sapp_assoc). rewrite (split_after ":" "").
      - rewrite trim_after by exact SD. rewrite (tidy_before x X). now rewrite (tidy_some x X).
      - rewrite sforall_app. rewrite (not_free d _ ":" C) by reflexivity. reflexivity. }
    rewrite E. rewrite time_items.
    + unfold open_section. reflexivity.
    + exact M.
    + assert (NE : d <> "") by (intros ->; discriminate). unfold next_section. destruct (String.eqb_spec (s_name s) ""); exact NE.
  - unfold time_line. now rewrite H.
Qed.
Lemma deeds_map {A I} (f : I -> deed A) doc : forall s, fold_left (fun s i => deed_effect s (f i)) doc s = fold_left deed_effect (map f doc) s.
Proof. induction doc as [|i doc IH]; intros s; [reflexivity|]. cbn. apply IH. Qed.
Lemma flat_map_map {A B C} (f : A -> B) (g : B -> list C) l : flat_map g (map f l) = flat_map (fun a => g (f a)) l.
Proof. induction l as [|a l IH]; [reflexivity|]. cbn. now rewrite IH. Qed.
Lemma time_read doc : forallb time_ok doc = true ->
  let s := fold_left time_line (flat_map time_text doc) (Sect "" [] "" []) in finished s = events doc /\ s_title s = time_title doc.
Proof.
  intros H. cbn zeta. rewrite (fold_items time_line time_text (fun s i => deed_effect s (time_deed i)) time_ok); [|intros; now apply time_read_item|exact H]. rewrite deeds_map.
  destruct (deeds (map time_deed doc)) with (s := Sect (A := string) "" [] "" []) as (_ & F & T).
  - intros n l I. apply in_map_iff in I as (it & E & I). rewrite forallb_forall in H. specialize (H it I). destruct it as [t|d x m|t]; try discriminate. injection E as -> <-. cbn in H. intros ->. discriminate.
  - intros _. reflexivity.
  - rewrite F, T. cbn [finished s_name s_title s_done String.eqb app]. rewrite !flat_map_map. split.
    + unfold events. apply flat_map_ext. intros []; reflexivity.
    + unfold time_title, last_title. f_equal. apply flat_map_ext. intros []; reflexivity.
Qed.

(** ** Drawing time lines *)
Definition ex (k : nat) : N := add 500000 (mul (idx k) 1600000).
Definition mark_of (ke : nat * (string * list string)) : shape := with_fill "5D4037" (shape_new KEllipse (sub (add (ex (fst ke)) (1400000 / 2)) 75000) (sub 2500000 60000) 150000 150000).
Definition date_of (ke : nat * (string * list string)) : shape := with_text (fst (snd ke)) (with_fill "5D4037" (shape_new KRectangle (ex (fst ke)) (sub (sub 2500000 300000) 100000) 1400000 300000)).
Definition ebox_of (ke : nat * (string * list string)) : shape :=
  with_text (sjoin nl (snd (snd ke))) (with_line "5D4037" 1 (with_fill (nth (fst ke mod 4)%nat ["EFEBE9"; "D7CCC8"; "BCAAA4"; "A1887F"] "")
     (shape_new KRoundedRectangle (ex (fst ke)) (add 2500000 150000) 1400000 (mul (idx (Nat.max (length (snd (snd ke))) 1)) 250000)))).
Lemma put_event_is ke : put_event ke = [mark_of ke; date_of ke; ebox_of ke].
Proof. destruct ke as [k [d l]]. reflexivity. Qed.
Lemma title_fits t w h : titled_with t (if String.eqb t "" then [] else [with_text t (shape_new KRectangle 500000 1600000 w h)]).
Proof. destruct (String.eqb_spec t ""); cbn; auto. Qed.
Lemma time_all o doc code : forallb time_ok doc = true -> few (events doc) -> writes "timeline" (flat_map time_text doc) code ->
  d_connectors (draw o code) = [] /\ exists titles dates boxes marks axis, time_drawn doc (d_shapes (draw o code)) titles dates boxes marks axis.
Proof.
  intros H F W. apply rows_written in W as [R L]. unfold draw, create_diagram_elements, detect_type. rewrite L. cbn -[time_shapes]. split; [reflexivity|].
  unfold time_shapes. rewrite R. destruct (time_read doc H) as [-> ->]. rewrite (flat_map_ext put_event (fun ke => [mark_of ke; date_of ke; ebox_of ke]) put_event_is).
  set (E := events doc) in *. assert (LE : length E <= 1000) by exact F.
  set (titles := if String.eqb (time_title doc) "" then _ else _). set (axis := with_fill "5D4037" (shape_new KRectangle 500000 2500000 _ 30000)).
  exists titles, (map date_of (numbered E)), (map ebox_of (numbered E)), (map mark_of (numbered E)), axis.
  assert (EX : forall k, k < length E -> ex k = (500000 + N.of_nat k * 1600000)%N). { intros k K. unfold ex. rewrite idxe by lia. rewrite mul_exact by lia. apply add_exact. lia. }
  constructor.
  - apply Permutation_app_head. apply perm_skip. etransitivity; [apply flat3|]. rewrite app_assoc. apply Permutation_trans with ((map date_of (numbered E) ++ map mark_of (numbered E)) ++ map ebox_of (numbered E))%list.
    + apply Permutation_app_tail, Permutation_app_comm.
    + rewrite <- app_assoc. apply Permutation_app_head, Permutation_app_comm.
  - apply title_fits.
  - rewrite map_map. apply (num_map (fun e => Some (fst e)) E).
  - rewrite map_map. apply (num_map (fun e => Some (sjoin nl (snd e))) E).
  - constructor; [reflexivity|]. apply Forall_map, Forall_forall. intros [k e] _. reflexivity.
  - split; apply pairs_map, num_pairs; intros i j a b K _ _; unfold left_to, right_of, date_of, ebox_of; cbn [sh_x sh_w with_text with_line with_fill shape_new fst snd]; rewrite !EX by lia; lia.
  - apply both_map, num_forall. intros k e K _. split; reflexivity.
  - apply both_map, num_forall. intros k e K _. unfold middle, centre, mark_of, date_of, axis. cbn [sh_x sh_y sh_w sh_h with_text with_line with_fill shape_new fst snd]. rewrite EX by exact K. split; [|reflexivity].
    change (1400000 / 2)%N with 700000%N. change (150000 / 2)%N with 75000%N. rewrite add_exact by lia. rewrite sub_exact by lia. lia.
  - split; apply Forall_map, num_forall; intros k e K _.
    + unfold over, bottom_of, right_of, date_of, axis. cbn [sh_x sh_y sh_w sh_h with_text with_line with_fill shape_new fst snd]. rewrite EX by exact K. change (sub (sub 2500000 300000) 100000) with 2100000%N.
      rewrite idxe by lia. rewrite mul_exact by lia. rewrite add_exact by lia. lia.
    + unfold over, bottom_of, ebox_of, axis. cbn [sh_x sh_y sh_w sh_h with_text with_line with_fill shape_new fst snd]. change (add 2500000 150000) with 2650000%N. lia.
  - unfold titles. destruct (String.eqb (time_title doc) ""); constructor; [|constructor]. apply Forall_map, Forall_forall. intros [k e] _. unfold over, bottom_of. cbn [sh_y sh_h with_text shape_new date_of with_fill]. change (sub (sub 2500000 300000) 100000) with 2100000%N. lia.
Qed.

(** ** Reading Gantt charts *)
Definition gantt_deed (it : gantt_item) : deed string := match it with GTitle t => Titled t | GSection n l => Opened n (map fst l) | GAside _ => Nothing end.
Lemma gantt_tasks l : forallb (fun p => tidy (fst p) && without [":"]%char (fst p) && not_word ["title"; "section"; "dateFormat"; "axisFormat"; "%%"] (fst p)) l = true ->
  forall s, fold_left gantt_line (map (fun p : string * string => fst p ++ " :" ++ snd p) l) s = fold_left (fun s a => add_item a s) (map fst l) s.
Proof.
  induction l as [|[n r] l IH]; intros H s; [reflexivity|]. cbn [forallb fst snd] in H. apply andb_prop in H as [I H]. cbn [map fold_left fst snd].
  apply andb_prop in I as [I NW]. apply andb_prop in I as [T C].
  assert (SP : split_once ":" (n ++ " :" ++ r) = Some (n ++ " ", r)).
  { replace (n ++ " :" ++ r) with ((n ++ " ") ++ ":" ++ r) by (now rewrite sapp_assoc). apply (split_after ":" ""). rewrite sforall_app. rewrite (not_free n _ ":" C) by reflexivity. reflexivity. }
  assert (E : gantt_line s (n ++ " :" ++ r) = add_item n s).
  { unfold gantt_line. rewrite contains_split, SP. rewrite trim_after by (now apply tidy_solid).
    assert (NE : String.eqb (n ++ " :" ++ r) "" = false). { destruct (tidy_solid n T) as [(c & x & -> & _) _]. reflexivity. }
    rewrite NE. change (" :" ++ r) with (String " " (":" ++ r)).
    rewrite !not_start; try reflexivity; apply (not_starts ["title"; "section"; "dateFormat"; "axisFormat"; "%%"]); try exact NW; cbn; auto 6. }
  rewrite E. apply IH; exact H.
Qed.
Lemma gantt_read_item s it : gantt_ok it = true -> fold_left gantt_line (gantt_text it) s = deed_effect s (gantt_deed it).
Proof.
  destruct it as [t|n l|t]; cbn [gantt_ok gantt_text gantt_deed deed_effect fold_left]; intros H.
  - unfold gantt_line. change (String.eqb ("title " ++ t) "") with false. change (starts_with "%%" ("title " ++ t)) with false. cbn [orb].
    change ("title " ++ t) with ("title" ++ (" " ++ t)). rewrite starts_with_app. unfold after_word. rewrite strip_prefix_app. now rewrite tidy_before.
  - apply andb_prop in H as [N M]. assert (E : gantt_line s ("section " ++ n) = next_section n s).
    { unfold gantt_line. change (String.eqb ("section " ++ n) "") with false. change (starts_with "%%" ("section " ++ n)) with false. change (starts_with "title" ("section " ++ n)) with false. cbn [orb].
      change ("section " ++ n) with ("section" ++ (" " ++ n)). rewrite starts_with_app. unfold after_word. rewrite strip_prefix_app. now rewrite tidy_before. }
    rewrite E. now rewrite gantt_tasks.
  - unfold gantt_line. destruct (String.eqb t "") eqn:E1; [reflexivity|]. destruct (starts_with "%%" t) eqn:E2; [reflexivity|]. cbn [orb] in *.
    assert (NT : starts_with "title" t = false /\ starts_with "section" t = false).
    { apply orb_prop in H as [H|H]; apply starts_with_iff in H as [u ->]; split; reflexivity. }
    destruct NT as [-> ->]. destruct (contains ":" t); [|reflexivity]. cbn [andb]. destruct (starts_with "dateFormat" t); [reflexivity|]. destruct (starts_with "axisFormat" t); [reflexivity|discriminate].
Qed.
Lemma gantt_read doc : forallb gantt_ok doc = true ->
  let s := fold_left gantt_line (flat_map gantt_text doc) (Sect "" [] "" []) in finished s = gantt_sections doc /\ s_title s = gantt_title doc.
Proof.
  intros H. cbn zeta. rewrite (fold_items gantt_line gantt_text (fun s i => deed_effect s (gantt_deed i)) gantt_ok); [|intros; now apply gantt_read_item|exact H]. rewrite deeds_map.
  destruct (deeds (map gantt_deed doc)) with (s := Sect (A := string) "" [] "" []) as (_ & F & T).
  - intros n l I. apply in_map_iff in I as (it & E & I). rewrite forallb_forall in H. specialize (H it I). destruct it as [t|d x|t]; try discriminate. injection E as -> <-. cbn in H. intros ->. discriminate.
  - intros _. reflexivity.
  - rewrite F, T. cbn [finished s_name s_title s_done String.eqb app]. rewrite !flat_map_map. split.
    + unfold gantt_sections. apply flat_map_ext. intros []; reflexivity.
    + unfold gantt_title, last_title. f_equal. apply flat_map_ext. intros []; reflexivity.
Qed.

(** ** Drawing Gantt charts: rows between two heights *)
Definition stack (lo hi : N) (ls : list (list shape)) : Prop :=
  Forall (Forall (fun s => lo <= sh_y s /\ bottom_of s <= hi)%N) ls /\ ForallOrdPairs (fun k l => Forall (fun s => Forall (over s) l) k) ls.
Lemma stack_app lo mid hi a b : (lo <= mid)%N -> (mid <= hi)%N -> stack lo mid a -> stack mid hi b -> stack lo hi (a ++ b).
Proof.
  intros L1 L2 [A1 A2] [B1 B2]. split.
  - apply Forall_app. split; [revert A1|revert B1]; apply Forall_impl; intros l; apply Forall_impl; intros s; lia.
  - clear - A1 A2 B1 B2. induction A2 as [|k a F _ IH]; [exact B2|]. inversion_clear A1 as [|? ? K A]. cbn [app]. constructor; [|now apply IH].
    apply Forall_app. split; [exact F|]. revert B1. apply Forall_impl. intros l M. revert K. apply Forall_impl. intros s S. revert M. apply Forall_impl. intros t T. unfold over. lia.
Qed.
Lemma stack_one lo hi l : Forall (fun s => lo <= sh_y s /\ bottom_of s <= hi)%N l -> stack lo hi [l].
Proof. intros H. split; [now constructor|]. constructor; constructor. Qed.
Lemma tasks_put k l : forall j y shs, (y + N.of_nat (length l) * 280000 <= 4000000000)%N -> (N.of_nat (j + length l) <= 10000)%N ->
  exists ls, fold_left (put_task k) (combine (seq j (length l)) l) (y, shs) = ((y + N.of_nat (length l) * 280000)%N, (shs ++ concat ls)%list)
    /\ Forall2 row_shows (map GTask l) ls /\ stack y (y + N.of_nat (length l) * 280000)%N ls.
Proof.
  induction l as [|n l IH]; intros j y shs B J.
  - exists []. split; [cbn; rewrite app_nil_r; f_equal; lia|]. split; [constructor|]. split; constructor.
  - cbn [length] in *. cbn [seq combine fold_left put_task].
    set (t := with_text n (shape_new KRectangle 500000 y 2000000 250000)). set (b := with_fill _ (shape_new KRoundedRectangle _ y (mul 3 600000) 250000)).
    rewrite (add_exact y 280000) by lia. destruct (IH (S j) (y + 280000)%N (shs ++ [t; b])%list) as (ls & E & R & ST); [lia|lia|].
    exists ([t; b] :: ls). rewrite E. split; [f_equal; [lia|cbn [concat]; rewrite <- app_assoc; reflexivity]|]. split.
    + constructor; [|exact R]. cbn [row_shows]. do 4 (split; [reflexivity|]). split; [|reflexivity]. unfold left_to, right_of, t, b. cbn [sh_x sh_w with_text with_fill shape_new]. rewrite idxe by lia. change (add (add 500000 2000000) 100000) with 2600000%N.
      rewrite mul_exact by lia. rewrite add_exact by lia. lia.
    + replace ([t; b] :: ls) with ([[t; b]] ++ ls)%list by reflexivity. apply stack_app with (y + 280000)%N; [lia|lia| |].
      * apply stack_one. repeat constructor; unfold bottom_of, t, b; cbn [sh_y sh_h with_text with_fill shape_new]; lia.
      * replace (y + N.of_nat (S (length l)) * 280000)%N with (y + 280000 + N.of_nat (length l) * 280000)%N by lia. exact ST.
Qed.
Definition grows (ss : list (string * list string)) : list grow := flat_map (fun s => GHead (fst s) :: map GTask (snd s)) ss.
Lemma gantt_put ss : forall k y shs, (y + N.of_nat (length (grows ss)) * 350000 <= 4000000000)%N -> (N.of_nat (length (grows ss)) <= 10000)%N ->
  exists ls y', fold_left put_gantt (combine (seq k (length ss)) ss) (y, shs) = (y', (shs ++ concat ls)%list)
    /\ (y <= y' <= y + N.of_nat (length (grows ss)) * 350000)%N /\ Forall2 row_shows (grows ss) ls /\ stack y y' ls.
Proof.
  induction ss as [|[n ts] ss IH]; intros k y shs B L.
  - exists [], y. split; [cbn; now rewrite app_nil_r|]. split; [lia|]. split; [constructor|]. split; constructor.
  - cbn [grows flat_map fst snd app length] in *. rewrite app_length, map_length in *. fold (grows ss) in *. cbn [length] in *. cbn [seq combine fold_left put_gantt].
    change (add 300000 50000) with 350000%N. rewrite (add_exact y 350000) by lia. set (h := with_text n _).
    destruct (tasks_put k ts 0 (y + 350000)%N (shs ++ [h])%list) as (ls & E & R & ST); [lia|lia|]. unfold numbered. rewrite E.
    destruct (IH (Datatypes.S k) (y + 350000 + N.of_nat (length ts) * 280000)%N ((shs ++ [h]) ++ concat ls)%list) as (ls' & y' & E' & Y & R' & S'); [lia|lia|].
    exists ([h] :: ls ++ ls')%list, y'. split; [rewrite E'; f_equal; cbn [concat]; rewrite concat_app, <- !app_assoc; reflexivity|]. split; [lia|]. split.
    + constructor; [reflexivity|]. apply Forall2_app; assumption.
    + replace ([h] :: ls ++ ls')%list with ([[h]] ++ (ls ++ ls'))%list by reflexivity. apply stack_app with (y + 350000)%N; [lia|lia| |].
      * apply stack_one. repeat constructor; unfold bottom_of, h; cbn [sh_y sh_h with_text with_fill shape_new]; lia.
      * eapply stack_app; [| |exact ST|exact S']; lia.
Qed.
Lemma gantt_all o doc code : forallb gantt_ok doc = true -> few (gantt_rows doc) -> writes "gantt" (flat_map gantt_text doc) code ->
  d_connectors (draw o code) = [] /\ exists titles lines, gantt_drawn doc (d_shapes (draw o code)) titles lines.
Proof.
  intros H F W. apply rows_written in W as [R L]. unfold draw, create_diagram_elements, detect_type. rewrite L. cbn -[gantt_shapes]. split; [reflexivity|].
  unfold gantt_shapes. rewrite R. destruct (gantt_read doc H) as [-> ->]. change (add 1600000 500000) with 2100000%N. change (few (grows (gantt_sections doc))) in F. unfold few in F.
  set (titles := if String.eqb (gantt_title doc) "" then _ else _). destruct (gantt_put (gantt_sections doc) 0 2100000%N titles) as (ls & y & E & Y & RS & [S1 S2]); [lia|lia|].
  exists titles, ls. unfold numbered. rewrite E. constructor; [reflexivity|apply title_fits|exact RS|]. constructor; [|exact S2].
  revert S1. apply Forall_impl. intros l M. unfold titles. destruct (String.eqb (gantt_title doc) ""); constructor; [|constructor]. revert M. apply Forall_impl. intros s S. unfold over, bottom_of. cbn [sh_y sh_h with_text shape_new]. lia.
Qed.
