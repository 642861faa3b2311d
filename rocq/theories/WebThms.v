(** Files made from web pages. *)
From Coq Require Import String Ascii List Bool Arith NArith Lia.
From Verif Require Import Str StrRefl XmlSpec ValidProofs Num SlideModel SlideInput SlideSpec SlideWant DeckModel DeckInput SettingsModel SlideBackSpec ReaderModel McpSpec ImportProofs McpProofs MdParseModel WebModel WebSpec WebText WebSlides.
Import ListNotations.
Open Scope nat_scope.
Open Scope string_scope.

(** ** Slides that show a page *)
Definition shows (s : slide) (p : page) : Prop :=
  (deck_slide_ok s = true /\ slide_fits s = true /\ sizes_ok s = true) /\ forall r, given_back s r -> page_read r p.
Lemma page_shows p : text_ok (fst p) = true -> forallb text_ok (snd p) = true -> shows (P p) p.
Proof.
  intros T B. split; [exact (bullets_in (fst p) (snd p) None T B eq_refl eq_refl)|]. intros r (Ti & Bo & _ & Tb & front & us & cs & S & Fr & U & C). unfold P in *.
  cbn [base s_shapes s_code] in U, C. inversion U; subst. inversion C; subst. rewrite !app_nil_r in S. unfold page_read. rewrite Ti, Bo, Tb, S. split; [reflexivity|]. split; [|split; [reflexivity|exact Fr]].
  unfold shown_bullets. change (s_layout (base (fst p) (snd p) [] None)) with TitleAndContent. change (s_table (base (fst p) (snd p) [] None)) with (@None TableModel.table). rewrite base_wanted, map_map. cbn [b_text]. now rewrite map_id.
Qed.
Lemma title_shows t bs : text_ok t = true -> forallb text_ok bs = true -> shows (with_layout CenteredTitle (base t bs [] None)) (t, []).
Proof.
  intros T B. split; [exact (bullets_in t bs None T B eq_refl eq_refl)|]. intros r (Ti & Bo & _ & Tb & front & us & cs & S & Fr & U & C).
  cbn [with_layout base s_shapes s_code] in U, C. inversion U; subst. inversion C; subst. rewrite !app_nil_r in S. unfold page_read. rewrite Ti, Bo, Tb, S. split; [reflexivity|]. split; [reflexivity|split; [reflexivity|exact Fr]].
Qed.
Lemma deck_shows X t slides ps : Forall2 shows slides ps -> (N.of_nat (length slides) < u32_max)%N -> reads_as (create_pptx_with_settings X t slides no_settings) (fun l => Forall2 page_read l ps).
Proof.
  intros F L. apply read_back; [|exact L|].
  - clear -F. unfold slides_in. induction F as [|s p slides ps [H _] F IH]; constructor; [exact H|exact IH].
  - clear -F. intros l G. revert l G. induction F as [|s p slides ps [_ H] F IH]; intros l G; inversion G; subst; constructor; [now apply H|now apply IH].
Qed.
Lemma shows_firstn n a b : Forall2 shows a b -> Forall2 shows (firstn n a) (firstn n b).
Proof. intros F. revert n. induction F as [|x y a b H F IH]; intros [|n]; constructor; [exact H|apply IH]. Qed.
Lemma pg_texts m next ls : (forall t, text_ok t = true -> text_ok (next t) = true) -> forallb text_ok ls = true -> forall t cur, text_ok t = true -> forallb text_ok cur = true ->
  Forall (fun p => text_ok (fst p) = true /\ forallb text_ok (snd p) = true) (pg m next t cur ls).
Proof.
  intros N. induction ls as [|x ls IH]; intros L t cur T C; cbn [pg].
  - destruct cur; [constructor|]. constructor; [split; assumption|constructor].
  - cbn in L. apply andb_prop in L as [X L]. destruct (Nat.leb m (length cur)).
    + constructor; [split; assumption|]. apply IH; [exact L|now apply N|]. cbn. now rewrite X.
    + apply IH; [exact L|exact T|]. rewrite forallb_app, C. cbn. now rewrite X.
Qed.
Lemma pages_show ps : Forall (fun p => text_ok (fst p) = true /\ forallb text_ok (snd p) = true) ps -> Forall2 shows (map P ps) ps.
Proof. induction 1 as [|p l [T B] _ IH]; constructor; [now apply page_shows|exact IH]. Qed.

(** ** The title page *)
Definition front_lines (w : content) (o : options) : list string :=
  ((match w_description w with Some d => [d] | None => [] end) ++ (if o_source o then [("Source: " ++ w_url w)%string] else []))%list.
Definition front (w : content) (o : options) : slide := with_layout CenteredTitle (base (deck_title w o) (front_lines w o) [] None).
Lemma front_shows w o : content_ok w o = true -> shows (front w o) (deck_title w o, []).
Proof.
  unfold content_ok. intros H. apply andb_prop in H as [H _]. apply andb_prop in H as [H D]. apply andb_prop in H as [H O]. apply andb_prop in H as [T U].
  apply title_shows.
  - unfold deck_title. now destruct (o_title o).
  - unfold front_lines. rewrite forallb_app. apply andb_true_intro. split; [destruct (w_description w); [cbn; now rewrite D|reflexivity]|]. destruct (o_source o); [|reflexivity]. cbn [forallb]. rewrite text_ok_app, U. reflexivity.
Qed.
Lemma built c w o : build_slides c w o = firstn (max_slides c) (if by_headings c then build_grouped_slides c w [front w o] else build_linear_slides c w [front w o]).
Proof.
  unfold build_slides. cbv zeta.
  assert (E : (if o_source o then add_bullet ("Source: " ++ w_url w) (match w_description w with Some d => add_bullet d (with_layout CenteredTitle (slide_new (deck_title w o))) | None => with_layout CenteredTitle (slide_new (deck_title w o)) end)
     else match w_description w with Some d => add_bullet d (with_layout CenteredTitle (slide_new (deck_title w o))) | None => with_layout CenteredTitle (slide_new (deck_title w o)) end) = front w o).
  { unfold front, front_lines. destruct (w_description w), (o_source o); reflexivity. }
  unfold deck_title in E. rewrite E. set (l := if by_headings c then _ else _). clearbody l. destruct (Nat.ltb_spec (max_slides c) (length l)); [reflexivity|]. symmetry. now apply firstn_all2.
Qed.
Lemma head_texts w o : content_ok w o = true -> forall intro gl, outline (w_blocks w) intro gl -> forallb block_ok intro = true /\ Forall (fun g => text_ok (wb_text (fst g)) = true /\ forallb block_ok (snd g) = true) gl.
Proof.
  unfold content_ok. intros H intro gl (E & _). apply andb_prop in H as [_ B]. rewrite E, forallb_app in B. apply andb_prop in B as [B1 B2]. split; [exact B1|]. clear -B2.
  induction gl as [|[h l] gl IH]; constructor; cbn [flat_map fst snd app forallb] in *.
  - rewrite forallb_app in B2. apply andb_prop in B2 as [H B]. apply andb_prop in B as [B _]. unfold block_ok in H. apply andb_prop in H as [H _]. split; assumption.
  - apply IH. rewrite forallb_app in B2. apply andb_prop in B2 as [_ B]. now apply andb_prop in B.
Qed.
Lemma shown_deck c X w o ps : content_ok w o = true -> (N.of_nat (max_slides c) < u32_max)%N -> Forall (fun p => text_ok (fst p) = true /\ forallb text_ok (snd p) = true) ps ->
  build_slides c w o = firstn (max_slides c) (front w o :: map P ps) ->
  reads_as (convert c X w o) (fun l => Forall2 page_read l (firstn (max_slides c) ((deck_title w o, []) :: ps))).
Proof.
  intros OK L T E. unfold convert. rewrite E. apply deck_shows.
  - apply shows_firstn. constructor; [now apply front_shows|now apply pages_show].
  - rewrite firstn_length. lia.
Qed.
Lemma cont_ok h : text_ok h = true -> text_ok (h ++ " (cont.)") = true.
Proof. intros T. now rewrite text_ok_app, T. Qed.
Lemma grouped_deck c X w o intro g gl : by_headings c = true -> 1 <= max_bullets c -> (N.of_nat (max_slides c) < u32_max)%N -> content_ok w o = true -> outline (w_blocks w) intro (g :: gl) ->
  exists lss pss, Forall2 (lines_for c) ((intro ++ snd g)%list :: map snd gl) lss /\ Forall2 (paged (max_bullets c)) lss pss /\ Forall2 headed (map (fun g => wb_text (fst g)) (g :: gl)) pss
    /\ reads_as (convert c X w o) (fun l => Forall2 page_read l (firstn (max_slides c) ((deck_title w o, []) :: concat pss))).
Proof.
  intros BH MB MS OK O. destruct g as [h l]. set (gs := (h, (intro ++ l)%list) :: gl).
  exists (map (fun g => lines_of c (snd g)) gs), (map (group_pages c) gs). split; [|split; [|split]].
  - subst gs. cbn [map snd]. constructor; [apply lines_are|]. clear. induction gl as [|g gl IH]; constructor; [apply lines_are|exact IH].
  - clearbody gs. clear -MB. induction gs as [|g gl IH]; constructor; [now apply pg_paged|exact IH].
  - change (map (fun g => wb_text (fst g)) ((h, l) :: gl)) with (map (fun g => wb_text (fst g)) gs). clearbody gs. clear. induction gs as [|g gl IH]; constructor; [apply pg_headed|exact IH].
  - destruct (head_texts w o OK _ _ O) as [TI TG].
    assert (TS : Forall (fun g => text_ok (wb_text (fst g)) = true /\ forallb block_ok (snd g) = true) gs).
    { subst gs. inversion TG as [|x y [T1 T2] T3]; subst. constructor; [|exact T3]. cbn [fst snd] in *. split; [exact T1|]. now rewrite forallb_app, TI, T2. }
    apply shown_deck; [exact OK|exact MS| |].
    + clearbody gs. clear -TS. induction TS as [|g gl [T1 T2] _ IH]; cbn [map concat]; [constructor|]. apply Forall_app. split; [|exact IH].
      apply pg_texts; [intros; now apply cont_ok|now apply lines_ok|exact T1|reflexivity].
    + rewrite built, BH. unfold build_grouped_slides. rewrite (groups_found _ _ _ _ _ O). fold gs.
      destruct (put_groups c MB gs [front w o] [front w o] (upto_refl _ _)) as [E _]. rewrite flat_map_concat_map in E. exact E.
Qed.
Lemma linear_deck c X w o intro gl : (by_headings c = false \/ gl = []) -> 1 <= max_bullets c -> (N.of_nat (max_slides c) < u32_max)%N -> content_ok w o = true -> outline (w_blocks w) intro gl -> w_blocks w <> [] ->
  opens intro = true -> Forall (flows (max_bullets c)) (intro :: map snd gl) ->
  exists lss pss, Forall2 (lines_for (text_only c)) (intro :: map snd gl) lss /\ Forall2 (paged (max_bullets c)) lss pss /\ Forall2 piled (opening intro :: map (fun g => wb_text (fst g)) gl) pss
    /\ reads_as (convert c X w o) (fun l => Forall2 page_read l (firstn (max_slides c) ((deck_title w o, []) :: concat pss))).
Proof.
  intros BH MB MS OK O NE OP FL. inversion FL as [|x y FI FG]; subst.
  assert (FG' : Forall (fun g : block * list block => flows (max_bullets c) (snd g)) gl) by (clear -FG; induction gl as [|g gl IH]; inversion FG; subst; constructor; [assumption|now apply IH]).
  exists (lines_of (text_only c) intro :: map (fun g => lines_of (text_only c) (snd g)) gl), (section_pages c (opening intro) intro :: map (fun g => section_pages c (wb_text (fst g)) (snd g)) gl).
  split; [|split; [|split]].
  - constructor; [apply lines_are|]. clear. induction gl as [|g gl IH]; constructor; [apply lines_are|exact IH].
  - constructor; [now apply pg_paged|]. clear -MB. induction gl as [|g gl IH]; constructor; [now apply pg_paged|exact IH].
  - constructor; [apply pg_heaped|]. clear. induction gl as [|g gl IH]; constructor; [apply pg_heaped|exact IH].
  - destruct (head_texts w o OK _ _ O) as [TI TG].
    apply shown_deck; [exact OK|exact MS| |].
    + cbn [concat]. apply Forall_app. split.
      * apply pg_texts; [apply cont_ok|now apply lines_ok|clear; induction intro as [|b l IH]; [reflexivity|cbn; destruct (wb_kind b); try exact IH; reflexivity]|reflexivity].
      * clear -TG. induction TG as [|g gl [T1 T2] _ IH]; cbn [map concat]; [constructor|]. apply Forall_app. split; [|exact IH]. apply pg_texts; [apply cont_ok|now apply lines_ok|exact T1|reflexivity].
    + rewrite built. assert (E : (if by_headings c then build_grouped_slides c w [front w o] else build_linear_slides c w [front w o]) = build_linear_slides c w [front w o]).
      { destruct BH as [->| ->]; [reflexivity|]. destruct (by_headings c); [|reflexivity]. unfold build_grouped_slides. rewrite groups_none; [reflexivity|]. destruct O as (-> & F & _). cbn. now rewrite app_nil_r. }
      rewrite E, (linear_all c MB w intro gl _ O NE OP FI FG'). cbn [concat]. rewrite flat_map_concat_map. reflexivity.
Qed.

(** ** However the page looks *)
Section Bounds.
Variable c : config.
Hypothesis MB : 1 <= max_bullets c.
Definition small (s : slide) : Prop := length (s_bullets s) <= max_bullets c.
Definition sound (l : list slide) : Prop := Forall small (tl l) /\ l <> [].
Lemma sound_snoc l s : sound l -> small s -> sound (l ++ [s]).
Proof. intros [F N] S. destruct l as [|x l]; [congruence|]. split; [|discriminate]. cbn in *. apply Forall_app. split; [exact F|constructor; [exact S|constructor]]. Qed.
Lemma bullets_grow u s : length (s_bullets (add_bullet u s)) = S (length (s_bullets s)).
Proof. unfold add_bullet. cbn [s_bullets]. rewrite app_length. cbn. lia. Qed.
Lemma put_block_sound h bs : forall s sl n st, sound s -> length (s_bullets sl) = n -> n <= max_bullets c ->
  let '(s', sl', n', _) := fold_left (put_block c h) bs (s, sl, n, st) in sound s' /\ length (s_bullets sl') = n' /\ n' <= max_bullets c.
Proof.
  induction bs as [|b bs IH]; intros s sl n st S B L; [cbn; repeat split; try assumption; apply S|]. cbn [fold_left]. unfold put_block at 2. destruct st; [now apply IH|].
  destruct (Nat.leb_spec (max_bullets c) n) as [F|F].
  - assert (S' : sound (s ++ [sl])) by (apply sound_snoc; [exact S|unfold small; lia]). cbn [andb]. destruct (Nat.leb (max_slides c) (length (s ++ [sl]))); [apply IH; [exact S'|reflexivity|lia]|].
    destruct (line_of c b) as [u|]; apply IH; try exact S'; try reflexivity; cbn; lia.
  - cbn [andb]. destruct (line_of c b) as [u|]; [apply IH; [exact S|rewrite bullets_grow; lia|lia]|now apply IH].
Qed.
Lemma put_group_sound gl : forall s, sound s -> sound (fold_left (put_group c) gl s).
Proof.
  induction gl as [|[h l] gl IH]; intros s S; [exact S|]. cbn [fold_left]. apply IH. unfold put_group. destruct (Nat.leb (max_slides c) (length s)); [exact S|].
  pose proof (put_block_sound (wb_text h) l s (text_slide (wb_text h)) 0 false S eq_refl ltac:(lia)) as Q. destruct (fold_left _ _ _) as [[[s' sl] n] st]. destruct Q as (A & B & C).
  destruct (Nat.ltb 0 n); [|exact A]. apply sound_snoc; [exact A|unfold small; lia].
Qed.
Definition lin_ok (st : list slide * option slide * nat) : Prop := sound (fst (fst st)) /\ snd st <= max_bullets c /\ match snd (fst st) with Some sl => length (s_bullets sl) = snd st | None => snd st = 0 end.
Lemma put_line_ok f t more s cur n : lin_ok (s, cur, n) -> lin_ok (put_line c f t more (s, cur, n)).
Proof.
  intros (A & B & C). cbn [fst snd] in *. unfold put_line. set (sl := match cur with Some sl => sl | None => text_slide f end).
  assert (L : length (s_bullets sl) = n) by (subst sl; destruct cur; [exact C|now rewrite C]).
  destruct (Nat.ltb_spec n (max_bullets c)) as [F|F].
  - split; [exact A|]. cbn [fst snd]. split; [lia|]. rewrite bullets_grow. lia.
  - destruct more.
    + split; [apply sound_snoc; [exact A|unfold small; lia]|]. cbn [fst snd]. split; [exact MB|]. now rewrite bullets_grow.
    + split; [exact A|]. cbn [fst snd]. split; [lia|exact L].
Qed.
Lemma linear_ok bs : forall st, lin_ok st -> lin_ok (fold_left (linear_block c) bs st).
Proof.
  induction bs as [|b bs IH]; intros [[s cur] n] H; [exact H|]. cbn [fold_left]. apply IH. pose proof H as (A & B & C). cbn [fst snd] in *. unfold linear_block. destruct (Nat.leb (max_slides c) (length s)); [exact H|].
  assert (HD : lin_ok (match cur with Some sl => if Nat.ltb 0 n then (s ++ [sl])%list else s | None => s end, Some (text_slide (wb_text b)), 0)).
  { split; [|split; [cbn; lia|reflexivity]]. cbn [fst]. destruct cur as [sl|]; [|exact A]. destruct (Nat.ltb 0 n); [|exact A]. apply sound_snoc; [exact A|unfold small; lia]. }
  destruct (wb_kind b); try exact H; try exact HD; try (now apply put_line_ok). destruct cur; [now apply put_line_ok|exact H].
Qed.
Lemma linear_sound w s : sound s -> sound (build_linear_slides c w s).
Proof.
  intros S. unfold build_linear_slides. destruct (w_blocks w) as [|b l] eqn:E.
  - destruct (w_description w); [|exact S]. apply sound_snoc; [exact S|]. unfold small. cbn. exact MB.
  - pose proof (linear_ok (b :: l) (s, None, 0)) as Q. destruct (fold_left _ _ _) as [[s' cur] n]. destruct Q as (A & B & C); [repeat split; try apply S; cbn; lia|]. cbn [fst snd] in *.
    destruct cur as [sl|]; [|exact A]. destruct (Nat.ltb 0 n); [|exact A]. apply sound_snoc; [exact A|unfold small; lia].
Qed.
Lemma bounded w o : length (build_slides c w o) <= max_slides c /\ Forall small (tl (build_slides c w o)).
Proof.
  rewrite built. split; [rewrite firstn_length; lia|].
  assert (S : sound (if by_headings c then build_grouped_slides c w [front w o] else build_linear_slides c w [front w o])).
  { assert (S0 : sound [front w o]) by (split; [constructor|discriminate]). destruct (by_headings c); [|now apply linear_sound]. unfold build_grouped_slides. destruct (grouped_by_headings (w_blocks w)); [now apply linear_sound|]. now apply put_group_sound. }
  destruct S as [F _]. set (l := if by_headings c then _ else _) in *. clearbody l. destruct l as [|x l]; [rewrite firstn_nil; constructor|]. destruct (max_slides c); [constructor|]. cbn [firstn tl] in *.
  revert n. induction F as [|y l H F IH]; intros [|n]; constructor; [exact H|apply IH].
Qed.
End Bounds.
