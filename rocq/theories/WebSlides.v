(** The slides made from a page. *)
From Coq Require Import String Ascii List Bool Arith NArith Lia.
From Verif Require Import Str StrRefl XmlSpec ValidProofs Num SlideModel SlideSpec DeckModel SettingsModel SlideBackSpec ReaderModel McpSpec ImportProofs McpProofs MdParseModel WebModel WebSpec WebText.
Import ListNotations.
Open Scope nat_scope.
Open Scope string_scope.

(** ** Lines *)
Lemma line_is c b : line_for c b (line_of c b).
Proof.
  unfold line_for, line_of. destruct (wb_kind b) as [|l| | | |s a|rows| |t h]; try reflexivity.
  - eexists. split; [apply short_text|reflexivity].
  - eexists. split; [apply short_text|reflexivity].
  - destruct (with_code c); [|reflexivity]. eexists. split; [apply short_text|reflexivity].
  - destruct rows as [|r rows]; [now rewrite andb_false_r|]. cbn [negb andb length]. now rewrite andb_true_r.
  - eexists. split; [apply short_text|reflexivity].
Qed.
Definition lines_of (c : config) (l : list block) : list string := somes (map (line_of c) l).
Lemma lines_are c l : lines_for c l (lines_of c l).
Proof. exists (map (line_of c) l). split; [|reflexivity]. induction l as [|b l IH]; constructor; [apply line_is|exact IH]. Qed.
Lemma line_ok c b t : block_ok b = true -> line_of c b = Some t -> text_ok t = true.
Proof.
  unfold block_ok. intros B E. apply andb_prop in B as [B K]. unfold line_of in E. destruct (wb_kind b) as [|l| | | |s a|rows| |u h]; try discriminate.
  - injection E as <-. exact (shortened_ok _ _ _ (short_text _ _) B).
  - injection E as <-. rewrite text_ok_app, (shortened_ok _ _ _ (short_text _ _) B). reflexivity.
  - destruct (with_code c); [|discriminate]. injection E as <-. rewrite text_ok_app, (shortened_ok _ _ _ (short_text _ _) B). reflexivity.
  - destruct (with_images c && negb (String.eqb a "")); [|discriminate]. injection E as <-. rewrite !text_ok_app, K. reflexivity.
  - destruct (with_tables c && negb _); [|discriminate]. injection E as <-. rewrite !text_ok_app, !DocPropsProofs.decn_text. reflexivity.
  - injection E as <-. unfold dq. rewrite !text_ok_app, (shortened_ok _ _ _ (short_text _ _) B). reflexivity.
Qed.
Lemma lines_ok c l : forallb block_ok l = true -> forallb text_ok (lines_of c l) = true.
Proof.
  induction l as [|b l IH]; intros B; [reflexivity|]. cbn in B. apply andb_prop in B as [B1 B2]. unfold lines_of, somes in *. cbn [map flat_map]. rewrite forallb_app, (IH B2), andb_true_r.
  destruct (line_of c b) as [t|] eqn:E; [|reflexivity]. cbn. now rewrite (line_ok c b t B1 E).
Qed.

(** ** Groups *)
Definition no_more (l : list block) : Prop := free_of_headings l.
Lemma step_free l : free_of_headings l -> forall gs h cur, fold_left group_step l (gs, h, cur) = (gs, h, (cur ++ l)%list).
Proof. induction 1 as [|b l E _ IH]; intros gs h cur; [cbn; now rewrite app_nil_r|]. cbn [fold_left]. unfold group_step at 2. rewrite E, IH, <- app_assoc. reflexivity. Qed.
Lemma step_groups gl : Forall (fun g => is_heading (fst g) = true /\ free_of_headings (snd g)) gl -> forall gs h cur,
  let '(gs', h', cur') := fold_left group_step (flat_map (fun g => fst g :: snd g) gl) (gs, Some h, cur) in
  match h' with Some h' => (gs' ++ [(h', cur')])%list | None => gs' end = (gs ++ (h, cur) :: gl)%list.
Proof.
  induction 1 as [|[b l] gl [H F] _ IH]; intros gs h cur; [reflexivity|]. cbn [flat_map fst snd] in *. rewrite fold_left_app. cbn [fold_left]. unfold group_step at 3. rewrite H.
  rewrite (step_free l F). cbn [app]. specialize (IH (gs ++ [(h, cur)])%list b l). destruct (fold_left _ _ _) as [[gs' h'] cur']. rewrite IH, <- app_assoc. reflexivity.
Qed.
Lemma groups_found blocks intro h l gs : outline blocks intro ((h, l) :: gs) -> grouped_by_headings blocks = (h, (intro ++ l)%list) :: gs.
Proof.
  intros (-> & FI & FG). inversion FG as [|g gl [H FL] FG' E]; subst. unfold grouped_by_headings. rewrite fold_left_app, (step_free intro FI). cbn [flat_map fst snd app]. cbn [fst snd] in H, FL.
  cbn [fold_left]. unfold group_step at 2. rewrite H. rewrite fold_left_app, (step_free l FL).
  pose proof (step_groups gs FG' [] h (intro ++ l)%list) as Q. cbn [app] in *. destruct (fold_left _ _ _) as [[gs' h'] cur']. exact Q.
Qed.
Lemma groups_none blocks : free_of_headings blocks -> grouped_by_headings blocks = [].
Proof. intros F. unfold grouped_by_headings. now rewrite (step_free blocks F). Qed.

(** ** Pages *)
Section Paging.
Variable m : nat.
Hypothesis M : 1 <= m.
Variable next : string -> string.
Fixpoint pg (t : string) (cur ls : list string) : list page :=
  match ls with
  | [] => match cur with [] => [] | _ => [(t, cur)] end
  | x :: ls => if Nat.leb m (length cur) then (t, cur) :: pg (next t) [x] ls else pg t (cur ++ [x])%list ls
  end.
Lemma pg_full t cur ls : length cur = m -> pg t cur ls = (t, cur) :: pg (next t) [] ls.
Proof.
  intros E. destruct ls as [|x ls]; cbn [pg]; [destruct cur; [cbn in E; lia|reflexivity]|]. rewrite E, Nat.leb_refl. cbn [length]. destruct (Nat.leb_spec m 0); [lia|reflexivity].
Qed.
Lemma pg_lines ls : forall t cur, flat_map snd (pg t cur ls) = (cur ++ ls)%list.
Proof.
  induction ls as [|x ls IH]; intros t cur; cbn [pg]; [destruct cur; [reflexivity|cbn; now rewrite app_nil_r]|].
  destruct (Nat.leb m (length cur)); [cbn [flat_map snd]; now rewrite IH|rewrite IH, <- app_assoc; reflexivity].
Qed.
Lemma pg_some x ls : forall t cur, pg t cur (x :: ls) <> [].
Proof. revert x. induction ls as [|y ls IH]; intros x t cur; cbn [pg]; destruct (Nat.leb m (length cur)); try discriminate; [destruct cur; discriminate|]. apply IH. Qed.
Lemma pg_sizes ls : forall t cur, length cur <= m -> Forall (fun p => length (snd p) = m) (removelast (pg t cur ls)) /\ Forall (fun p => 1 <= length (snd p) <= m) (pg t cur ls).
Proof.
  induction ls as [|x ls IH]; intros t cur L; cbn [pg].
  - destruct cur as [|y cur]; [split; constructor|]. cbn [removelast]. split; [constructor|]. constructor; [|constructor]. cbn in *. lia.
  - destruct (Nat.leb_spec m (length cur)) as [F|F]; [|apply IH; rewrite app_length; cbn; lia].
    destruct (IH (next t) [x]) as [A B]; [cbn; lia|]. assert (E : length cur = m) by lia. split; [|constructor; [cbn; lia|exact B]].
    cbn [removelast]. destruct (pg (next t) [x] ls) as [|p ps]; constructor; [exact E|exact A].
Qed.
Lemma pg_piled ls : forall t cur, (fix piled h (ps : list page) := match ps with [] => True | p :: ps => fst p = h /\ piled (next h) ps end) t (pg t cur ls).
Proof.
  induction ls as [|x ls IH]; intros t cur; cbn [pg]; [destruct cur; cbn; [exact I|split; [reflexivity|exact I]]|].
  destruct (Nat.leb m (length cur)); [split; [reflexivity|apply IH]|apply IH].
Qed.
Lemma pg_paged t ls : paged m ls (pg t [] ls).
Proof. destruct (pg_sizes ls t []) as [A B]; [cbn; lia|]. split; [apply pg_lines|]. split; [exact A|exact B]. Qed.
Lemma pg_fits ls : forall t cur, length cur + length ls <= m -> pg t cur ls = match (cur ++ ls)%list with [] => [] | _ => [(t, (cur ++ ls)%list)] end.
Proof.
  induction ls as [|x ls IH]; intros t cur L; cbn [pg]; [rewrite app_nil_r; reflexivity|]. cbn in L. destruct (Nat.leb_spec m (length cur)); [lia|]. rewrite IH by (rewrite app_length; cbn; lia). now rewrite <- app_assoc.
Qed.
End Paging.
Lemma pg_headed m h ls : headed h (pg m (fun _ => h ++ " (cont.)") h [] ls).
Proof.
  pose proof (pg_piled m (fun _ => h ++ " (cont.)") ls h []) as P. unfold headed. destruct (pg m _ h [] ls) as [|p ps]; [reflexivity|]. destruct P as [E P]. cbn [map]. f_equal; [exact E|].
  clear -P. induction ps as [|q ps IH]; [reflexivity|]. destruct P as [E P]. cbn [map]. f_equal; [exact E|exact (IH P)].
Qed.
Lemma pg_heaped m h ls : piled h (pg m (fun t => t ++ " (cont.)") h [] ls).
Proof. exact (pg_piled m (fun t => t ++ " (cont.)") ls h []). Qed.

(** ** Slides for pages *)
Definition P (p : page) : slide := base (fst p) (snd p) [] None.
Lemma text_is t : text_slide t = P (t, []).
Proof. reflexivity. Qed.
Lemma bullet_is u t bs : add_bullet u (P (t, bs)) = P (t, (bs ++ [u])%list).
Proof. unfold P, base, add_bullet. cbn. now rewrite map_app. Qed.
(** The same as far as slides are wanted *)
Definition upto {A} (n : nat) (a b : list A) : Prop := firstn n a = firstn n b /\ (length a < n -> a = b).
Lemma upto_refl {A} n (a : list A) : upto n a a.
Proof. split; reflexivity. Qed.
Lemma firstn_full {A} n (a b : list A) : firstn n a = firstn n b -> n <= length a -> n <= length b.
Proof. intros E L. apply (f_equal (@length A)) in E. rewrite !firstn_length in E. lia. Qed.
Lemma firstn_more {A} n (a b : list A) : n <= length a -> firstn n (a ++ b) = firstn n a.
Proof. intros L. rewrite firstn_app. replace (n - length a) with 0 by lia. cbn. apply app_nil_r. Qed.
Lemma upto_full {A} n (a b c : list A) : upto n a b -> n <= length a -> upto n a (b ++ c).
Proof. intros [E _] L. split; [|lia]. rewrite E. symmetry. apply firstn_more. exact (firstn_full n a b E L). Qed.

Section Groups.
Variable c : config.
Hypothesis MB : 1 <= max_bullets c.
Notation m := (max_bullets c).
Notation ms := (max_slides c).
Lemma put_stopped h bs : forall s sl n, fold_left (put_block c h) bs (s, sl, n, true) = (s, sl, n, true).
Proof. induction bs as [|b bs IH]; intros s sl n; [reflexivity|]. cbn [fold_left]. apply IH. Qed.
Definition flushed (r : list slide * slide * nat * bool) : list slide := let '(s, sl, n, _) := r in if Nat.ltb 0 n then (s ++ [sl])%list else s.
Lemma put_blocks h bs : forall s t cur, length s < ms -> length cur <= m ->
  upto ms (flushed (fold_left (put_block c h) bs (s, P (t, cur), length cur, false))) (s ++ map P (pg m (fun _ => h ++ " (cont.)") t cur (lines_of c bs))).
Proof.
  set (next := fun _ : string => h ++ " (cont.)").
  induction bs as [|b bs IH]; intros s t cur L K.
  - cbn [fold_left flushed lines_of map somes flat_map pg]. destruct cur as [|x cur]; [cbn; rewrite app_nil_r; apply upto_refl|]. cbn [length Nat.ltb Nat.leb map]. apply upto_refl.
  - cbn [fold_left]. unfold put_block at 2. destruct (Nat.leb_spec m (length cur)) as [F|F].
    + assert (E : length cur = m) by lia. cbn [andb]. rewrite pg_full by assumption. cbn [map].
      replace (s ++ P (t, cur) :: map P (pg m next (next t) [] (lines_of c (b :: bs))))%list with ((s ++ [P (t, cur)]) ++ map P (pg m next (next t) [] (lines_of c (b :: bs))))%list by (rewrite <- app_assoc; reflexivity).
      destruct (Nat.leb_spec ms (length (s ++ [P (t, cur)])%list)) as [G|G].
      * rewrite put_stopped. cbn [flushed Nat.ltb Nat.leb]. apply upto_full; [apply upto_refl|exact G].
      * change (text_slide (h ++ " (cont.)")) with (P (next t, [])). unfold lines_of. cbn [map somes flat_map]. fold (lines_of c bs). destruct (line_of c b) as [u|] eqn:U.
        -- rewrite bullet_is. cbn [app]. change (0 + 1) with (length [u]). cbn [app pg length]. destruct (Nat.leb_spec m 0); [lia|]. apply IH; [exact G|cbn; lia].
        -- cbn [app]. apply (IH _ (next t) []); [exact G|cbn; lia].
    + cbn [andb]. unfold lines_of. cbn [map somes flat_map]. fold (lines_of c bs). destruct (line_of c b) as [u|] eqn:U.
      * rewrite bullet_is. cbn [app pg]. destruct (Nat.leb_spec m (length cur)); [lia|]. replace (length cur + 1) with (length (cur ++ [u])%list) by (rewrite app_length; reflexivity). apply IH; [exact L|]. rewrite app_length. cbn. lia.
      * cbn [app]. apply IH; assumption.
Qed.
Definition group_pages (g : block * list block) : list page := pg m (fun _ => wb_text (fst g) ++ " (cont.)") (wb_text (fst g)) [] (lines_of c (snd g)).
Lemma put_groups gl : forall a b, upto ms a b -> upto ms (fold_left (put_group c) gl a) (b ++ map P (flat_map group_pages gl)).
Proof.
  induction gl as [|[h l] gl IH]; intros a b U; [cbn; rewrite app_nil_r; exact U|]. cbn [fold_left flat_map]. rewrite map_app, app_assoc. apply IH. unfold put_group.
  destruct (Nat.leb_spec ms (length a)) as [F|F]; [now apply upto_full|]. assert (E : a = b) by (apply U; exact F). subst b.
  change (text_slide (wb_text h)) with (P (wb_text h, [])). pose proof (put_blocks (wb_text h) l a (wb_text h) [] F ltac:(cbn; lia)) as Q. cbn [length] in Q.
  destruct (fold_left (put_block c (wb_text h)) l _) as [[[s sl] n] st]. exact Q.
Qed.

(** ** One after another *)
Notation tc := (text_only c).
Notation nx := (fun t : string => t ++ " (cont.)").
Definition at_page (st : list slide * option slide * nat) (d : list slide) (p : page) : Prop :=
  (st = (d, Some (P p), length (snd p)) /\ length d < ms) \/ (ms <= length (fst (fst st)) /\ firstn ms (fst (fst st)) = firstn ms d).
Definition at_none (st : list slide * option slide * nat) (d : list slide) : Prop :=
  (st = (d, None, 0) /\ length d < ms) \/ (ms <= length (fst (fst st)) /\ firstn ms (fst (fst st)) = firstn ms d).
Lemma frozen (st : list slide * option slide * nat) b : ms <= length (fst (fst st)) -> linear_block c st b = st.
Proof. intros L. destruct st as [[s cur] n]. cbn in L. unfold linear_block. apply Nat.leb_le in L. now rewrite L. Qed.
Lemma frozen_more (st : list slide * option slide * nat) d x : ms <= length (fst (fst st)) -> firstn ms (fst (fst st)) = firstn ms d -> firstn ms (fst (fst st)) = firstn ms (d ++ x)%list.
Proof. intros L E. rewrite E. symmetry. apply firstn_more. exact (firstn_full _ _ _ E L). Qed.
Lemma reached (d : list slide) cur n e p : d = e -> cur = Some (P p) -> n = length (snd p) -> at_page (d, cur, n) e p.
Proof. intros -> -> ->. destruct (Nat.ltb_spec (length e) ms) as [L|L]; [left; split; [reflexivity|exact L]|right; split; [exact L|reflexivity]]. Qed.
Definition last_page (p : page) : list page := match snd p with [] => [] | _ => [p] end.
Lemma on_heading st d p b : at_page st d p -> is_heading b = true -> at_page (linear_block c st b) (d ++ map P (last_page p)) (wb_text b, []).
Proof.
  intros [[-> L]|[L E]] H; [|rewrite frozen by exact L; right; split; [exact L|now apply frozen_more]].
  unfold linear_block. destruct (Nat.leb_spec ms (length d)); [lia|]. unfold last_page. destruct p as [t cur]. cbn [snd].
  destruct (wb_kind b) eqn:K; unfold is_heading in H; rewrite K in H; try discriminate; apply reached; try reflexivity; (destruct cur as [|x cur]; cbn [length Nat.ltb Nat.leb map]; [now rewrite app_nil_r|reflexivity]).
Qed.
Lemma on_heading_none st d b : at_none st d -> is_heading b = true -> at_page (linear_block c st b) d (wb_text b, []).
Proof.
  intros [[-> L]|[L E]] H; [|rewrite frozen by exact L; right; split; [exact L|exact E]].
  unfold linear_block. destruct (Nat.leb_spec ms (length d)); [lia|].
  destruct (wb_kind b) eqn:K; unfold is_heading in H; rewrite K in H; try discriminate; apply reached; reflexivity.
Qed.
Lemma on_silent st b : is_heading b = false -> line_of tc b = None -> linear_block c st b = st.
Proof.
  intros H N. destruct st as [[s cur] n]. unfold linear_block. destruct (Nat.leb ms (length s)); [reflexivity|]. unfold is_heading in H. unfold line_of in N. destruct (wb_kind b); try discriminate; reflexivity.
Qed.
Lemma on_line st d t cur b u : at_page st d (t, cur) -> is_heading b = false -> line_of tc b = Some u -> length cur < m -> at_page (linear_block c st b) d (t, (cur ++ [u])%list).
Proof.
  intros [[-> L]|[L E]] H N F; [|rewrite frozen by exact L; right; split; [exact L|exact E]].
  unfold linear_block. destruct (Nat.leb_spec ms (length d)); [lia|]. apply Nat.ltb_lt in F. unfold line_of in N. cbn [text_only with_code with_images with_tables andb snd] in *.
  destruct (wb_kind b) eqn:K; try discriminate; injection N as <-; unfold put_line; rewrite F, ?bullet_is; apply reached; try reflexivity; cbn [snd]; rewrite app_length; reflexivity.
Qed.
Lemma on_overflow st d t cur b u : at_page st d (t, cur) -> wb_kind b = WPara -> line_of tc b = Some u -> length cur = m -> at_page (linear_block c st b) (d ++ [P (t, cur)]) (nx t, [u]).
Proof.
  intros [[-> L]|[L E]] K N F; [|rewrite frozen by exact L; right; split; [exact L|now apply frozen_more]].
  unfold linear_block. destruct (Nat.leb_spec ms (length d)); [lia|]. unfold line_of in N. rewrite K in *. injection N as <-. unfold put_line. cbn [snd]. rewrite F, Nat.ltb_irrefl.
  apply reached; reflexivity.
Qed.
Lemma para_first st d b u : at_none st d -> is_heading b = false -> opens [b] = true -> line_of tc b = Some u -> at_page (linear_block c st b) d (opening [b], [u]).
Proof.
  intros [[-> L]|[L E]] H O N; [|rewrite frozen by exact L; right; split; [exact L|exact E]].
  unfold linear_block. destruct (Nat.leb_spec ms (length d)); [lia|]. unfold line_of in N. cbn [opens opening] in *.
  destruct (wb_kind b) eqn:K; try discriminate; injection N as <-; unfold put_line; (destruct (Nat.ltb_spec 0 m); [|lia]); apply reached; reflexivity.
Qed.
Lemma linear_section l : free_of_headings l -> forall st d t cur, at_page st d (t, cur) -> length cur <= m ->
  Forall (fun b => wb_kind b <> WItem /\ wb_kind b <> WQuote) l \/ length cur + length (lines_of tc l) <= m ->
  exists done p, at_page (fold_left (linear_block c) l st) (d ++ map P done) p /\ pg m nx t cur (lines_of tc l) = (done ++ last_page p)%list.
Proof.
  induction 1 as [|b l H _ IH]; intros st d t cur A C K.
  - exists [], (t, cur). cbn [fold_left map]. rewrite app_nil_r. split; [exact A|]. cbn. unfold last_page. cbn. now destruct cur.
  - cbn [fold_left]. destruct (line_of tc b) as [u|] eqn:U.
    + assert (LL : lines_of tc (b :: l) = u :: lines_of tc l) by (unfold lines_of; cbn [map somes flat_map]; rewrite U; reflexivity). rewrite LL in *. cbn [pg]. destruct (Nat.leb_spec m (length cur)) as [F|F].
      * assert (E : length cur = m) by lia. assert (W : wb_kind b = WPara).
        { destruct K as [K|K]; [|cbn in K; lia]. inversion K as [|x y [K1 K2] K3]; subst. unfold line_of in U. cbn in U. destruct (wb_kind b); try discriminate; try congruence. }
        pose proof (on_overflow st d t cur b u A W U E) as A'. destruct (IH _ _ (nx t) [u] A') as (done & p & A2 & E2); [cbn; lia| |].
        { destruct K as [K|K]; [|cbn in K; lia]. left. now inversion K. }
        exists ((t, cur) :: done), p. rewrite <- app_assoc in A2. split; [exact A2|]. cbn [app]. now rewrite <- E2.
      * pose proof (on_line st d t cur b u A H U F) as A'. apply (IH _ _ _ _ A'); [rewrite app_length; cbn; lia|].
        destruct K as [K|K]; [left; now inversion K|right; rewrite app_length; cbn in *; lia].
    + assert (LL : lines_of tc (b :: l) = lines_of tc l) by (unfold lines_of; cbn [map somes flat_map]; rewrite U; reflexivity). rewrite LL in *. rewrite on_silent by assumption. apply IH; [exact A|exact C|].
      destruct K as [K|K]; [left; now inversion K|right; exact K].
Qed.
Lemma lines_count l : free_of_headings l -> length (lines_of tc l) = length (filter (fun b => match wb_kind b with WPara | WItem | WQuote => true | _ => false end) l).
Proof.
  induction 1 as [|b l H _ IH]; [reflexivity|]. unfold lines_of, somes in *. cbn [map flat_map]. rewrite app_length, IH. unfold line_of. cbn [filter text_only with_code with_images with_tables andb]. destruct (wb_kind b); reflexivity.
Qed.
Definition section_pages (t : string) (l : list block) : list page := pg m nx t [] (lines_of tc l).
Lemma linear_groups gl : Forall (fun g => is_heading (fst g) = true /\ free_of_headings (snd g)) gl -> Forall (fun g => flows m (snd g)) gl -> forall st d p, at_page st d p ->
  exists e q, at_page (fold_left (linear_block c) (flat_map (fun g => fst g :: snd g) gl) st) e q
    /\ (e ++ map P (last_page q) = d ++ map P (last_page p) ++ map P (flat_map (fun g => section_pages (wb_text (fst g)) (snd g)) gl))%list.
Proof.
  induction 1 as [|[h l] gl [H F] _ IH]; intros W st d p A.
  - exists d, p. cbn [fold_left flat_map map]. rewrite app_nil_r. split; [exact A|reflexivity].
  - inversion W as [|x y W1 W2]; subst. cbn [fst snd flat_map] in *. rewrite fold_left_app. cbn [fold_left].
    pose proof (on_heading st d p h A H) as A1.
    destruct (linear_section l F _ _ _ _ A1) as (done & q & A2 & E2); [cbn; lia| |].
    { destruct W1 as [W1|W1]; [left; exact W1|right; cbn [length]; rewrite lines_count by exact F; exact W1]. }
    destruct (IH W2 _ _ _ A2) as (e & r & A3 & E3). exists e, r. split; [exact A3|]. rewrite E3. unfold section_pages at 2. cbn [fst snd]. rewrite E2, !map_app, <- !app_assoc. reflexivity.
Qed.
Lemma linear_intro l : free_of_headings l -> opens l = true -> flows m l -> forall st d, at_none st d ->
  (at_none (fold_left (linear_block c) l st) d /\ lines_of tc l = [])
  \/ exists e q, at_page (fold_left (linear_block c) l st) e q /\ (e ++ map P (last_page q) = d ++ map P (section_pages (opening l) l))%list.
Proof.
  induction 1 as [|b l H F IH]; intros O W st d A; [left; split; [exact A|reflexivity]|]. cbn [fold_left]. destruct (line_of tc b) as [u|] eqn:U.
  - right. assert (O1 : opens [b] = true /\ opening (b :: l) = opening [b]).
    { cbn [opens opening] in *. unfold line_of in U. unfold is_heading in H. cbn in U. destruct (wb_kind b); try discriminate; split; reflexivity. }
    destruct O1 as [O1 O2]. pose proof (para_first st d b u A H O1 U) as A1.
    assert (LL : lines_of tc (b :: l) = u :: lines_of tc l) by (unfold lines_of; cbn [map somes flat_map]; rewrite U; reflexivity).
    destruct (linear_section l F _ _ _ _ A1) as (done & q & A2 & E2); [cbn; lia| |].
    { destruct W as [W|W]; [left; now inversion W|right]. rewrite <- lines_count in W by (constructor; assumption). rewrite LL in W. cbn in *. lia. }
    exists (d ++ map P done)%list, q. split; [exact A2|]. unfold section_pages. rewrite LL, O2. cbn [pg length]. destruct (Nat.leb_spec m 0); [lia|]. cbn [app]. rewrite E2, map_app, <- app_assoc. reflexivity.
  - rewrite on_silent by assumption.
    assert (LL : lines_of tc (b :: l) = lines_of tc l) by (unfold lines_of; cbn [map somes flat_map]; rewrite U; reflexivity).
    assert (O1 : opens l = true /\ opening (b :: l) = opening l).
    { cbn [opens opening] in *. unfold line_of in U. unfold is_heading in H. cbn in U. destruct (wb_kind b); try discriminate; split; try reflexivity; exact O. }
    destruct O1 as [O1 O2]. assert (W' : flows m l).
    { destruct W as [W|W]; [left; now inversion W|right]. cbn [filter] in W. destruct (wb_kind b); cbn in W |- *; lia. }
    unfold section_pages. rewrite LL, O2. exact (IH O1 W' st d A).
Qed.
Definition done_with (st : list slide * option slide * nat) : list slide :=
  let '(s, cur, n) := st in match cur with Some sl => if Nat.ltb 0 n then (s ++ [sl])%list else s | None => s end.
Lemma done_page st d p : at_page st d p -> firstn ms (done_with st) = firstn ms (d ++ map P (last_page p)).
Proof.
  intros [[-> L]|[L E]].
  - cbn [done_with]. destruct p as [t cur]. unfold last_page. cbn [snd]. destruct cur as [|x cur]; cbn [length Nat.ltb Nat.leb map]; [now rewrite app_nil_r|reflexivity].
  - rewrite <- (frozen_more st d _ L E). destruct st as [[s cur] n]. cbn [fst] in *. cbn [done_with]. destruct cur as [sl|]; [|reflexivity]. destruct (Nat.ltb 0 n); [now apply firstn_more|reflexivity].
Qed.
Lemma done_none st d : at_none st d -> firstn ms (done_with st) = firstn ms d.
Proof.
  intros [[-> L]|[L E]]; [reflexivity|]. rewrite <- E. destruct st as [[s cur] n]. cbn [fst] in *. cbn [done_with]. destruct cur as [sl|]; [|reflexivity]. destruct (Nat.ltb 0 n); [now apply firstn_more|reflexivity].
Qed.
Lemma start_none d : at_none (d, None, 0) d.
Proof. destruct (Nat.ltb_spec (length d) ms) as [L|L]; [left; split; [reflexivity|exact L]|right; split; [exact L|reflexivity]]. Qed.
Lemma linear_all w intro gl d : outline (w_blocks w) intro gl -> w_blocks w <> [] -> opens intro = true -> flows m intro -> Forall (fun g => flows m (snd g)) gl ->
  firstn ms (build_linear_slides c w d) = firstn ms (d ++ map P (section_pages (opening intro) intro ++ flat_map (fun g => section_pages (wb_text (fst g)) (snd g)) gl)).
Proof.
  intros (E & FI & FG) NE O W WG. unfold build_linear_slides. destruct (w_blocks w) as [|b l] eqn:WB; [congruence|]. rewrite E. change (let '(s, cur, n) := ?x in _) with (done_with x). rewrite fold_left_app.
  destruct (linear_intro intro FI O W _ d (start_none d)) as [[A Z]|(e & q & A & Q)].
  - unfold section_pages at 1. rewrite Z. cbn [pg app]. clear E. destruct gl as [|[h k] gl]; [cbn [flat_map fold_left map]; rewrite app_nil_r; now apply done_none|].
    inversion FG as [|x y [H F] FG']; subst. inversion WG as [|x y W1 W2]; subst. cbn [fst snd flat_map] in *. cbn [app]. cbn [fold_left]. rewrite fold_left_app.
    pose proof (on_heading_none _ _ h A H) as A1. destruct (linear_section k F _ _ _ _ A1) as (done & q & A2 & E2); [cbn; lia| |].
    { destruct W1 as [W1|W1]; [left; exact W1|right; cbn [length]; rewrite lines_count by exact F; exact W1]. }
    destruct (linear_groups gl FG' W2 _ _ _ A2) as (e & r & A3 & E3). rewrite (done_page _ _ _ A3), E3. unfold section_pages at 2. rewrite E2, !map_app, <- !app_assoc. reflexivity.
  - destruct (linear_groups gl FG WG _ _ _ A) as (e' & r & A3 & E3). rewrite (done_page _ _ _ A3), E3. rewrite app_assoc, Q, map_app, <- app_assoc. reflexivity.
Qed.
End Groups.
