(** Journeys, git graphs and pies. *)
From Coq Require Import String Ascii List Bool Arith NArith ZArith Permutation Lia.
From Verif Require Import RepairText Str Num ColorModel TableModel ShapeModel ConnectorModel ValidSpec ValidProofs FlowModel FlowSpec FlowText FlowDraw FlowThms DiagramModel DiagramSpec DiagramCommon DiagramTime.
Import ListNotations.
Open Scope nat_scope.
Open Scope string_scope.

(** ** Journeys *)
Lemma digits_solid s : s <> "" -> sforall is_digit s = true -> solid s.
Proof.
  assert (D : forall c, is_digit c = true -> is_ws c = false). { intros [[] [] [] [] [] [] [] []]; cbn; intros; try discriminate; reflexivity. }
  intros N H. split.
  - destruct s as [|c x]; [congruence|]. cbn in H. apply andb_prop in H as [C _]. exists c, x. auto.
  - rewrite <- (srev_involutive s) in *. destruct (srev s) as [|c x]; [now destruct N|]. rewrite srev_cons in *. rewrite sforall_app in H. apply andb_prop in H as [_ C]. cbn in C. rewrite andb_true_r in C. exists c, (srev x). auto.
Qed.
Lemma dec_solid n : solid (dec n).
Proof. apply digits_solid; [apply dec_nonempty|apply dec_digits]. Qed.
Definition way_deed (it : way_item) : deed (string * N) := match it with JSection n l => Opened n (map fst l) | JAside _ => Nothing end.
Lemma way_steps l : forallb (fun p => tidy (fst (fst p)) && without [":"]%char (fst (fst p)) && not_word ["title"; "section"] (fst (fst p))
      && (snd (fst p) <=? 255)%N && match snd p with Some a => tidy a | None => true end) l = true ->
  forall s, fold_left journey_line (map step_text l) s = fold_left (fun s a => add_item a s) (map fst l) s.
Proof.
  induction l as [|[[t n] a] l IH]; intros H s; [reflexivity|]. cbn [forallb fst snd] in H. apply andb_prop in H as [I H]. cbn [map fold_left fst snd].
  apply andb_prop in I as [I TA]. apply andb_prop in I as [I LE]. apply andb_prop in I as [I NW]. apply andb_prop in I as [T C]. apply N.leb_le in LE.
  assert (E : journey_line s (step_text (t, n, a)) = add_item (t, n) s).
  { unfold journey_line, step_text. cbn [fst snd]. set (r := dec n ++ _).
    assert (NE : String.eqb (t ++ ": " ++ r) "" = false). { destruct (tidy_solid t T) as [(c & x & -> & _) _]. reflexivity. }
    rewrite NE. change (": " ++ r) with (String ":" (" " ++ r)).
    rewrite !not_start; try reflexivity; try (apply (not_starts ["title"; "section"]); [exact NW|cbn; auto]). cbn [orb].
    assert (CT : contains ":" (t ++ String ":" (" " ++ r)) = true). { apply contains_iff. exists t, (" " ++ r). reflexivity. }
    rewrite CT. rewrite split_char_app.
    assert (NC : forall x, free ":" x -> sforall (fun y => negb (Ascii.eqb y ":")) x = true). { intros x. apply sforall_weaken. intros c. now rewrite Ascii.eqb_sym. }
    rewrite split_char_none by (apply NC; now apply (not_free t _ ":" C)).
    assert (DC : free ":" (" " ++ dec n)). { change (sforall (fun d => negb (Ascii.eqb ":" d)) (dec n) = true). generalize (dec_digits n). apply sforall_weaken. intros c D. apply negb_true_iff. destruct (Ascii.eqb_spec ":" c); [subst; discriminate|reflexivity]. }
    assert (R : exists q, split_char ":" (" " ++ r) = (" " ++ dec n) :: q).
    { unfold r. destruct a as [a|].
      - replace (" " ++ dec n ++ ": " ++ a) with ((" " ++ dec n) ++ String ":" (" " ++ a)) by reflexivity. rewrite split_char_app. rewrite split_char_none by now apply NC. now eexists.
      - rewrite sapp_nil_r. rewrite split_char_none by now apply NC. now eexists. }
    destruct R as [q R]. rewrite R. cbn [app]. rewrite (tidy_trim t T), trim_before, trim_solid by apply dec_solid. rewrite parse_uint_dec by exact LE. reflexivity. }
  rewrite E. apply IH; exact H.
Qed.
Lemma way_read_item s it : way_ok it = true -> fold_left journey_line (way_text_lines it) s = deed_effect s (way_deed it).
Proof.
  destruct it as [n l|t]; cbn [way_ok way_text_lines way_deed deed_effect fold_left]; intros H.
  - apply andb_prop in H as [N M]. assert (E : journey_line s ("section " ++ n) = next_section n s).
    { unfold journey_line. change (String.eqb ("section " ++ n) "") with false. change (starts_with "title" ("section " ++ n)) with false. cbn [orb].
      change ("section " ++ n) with ("section" ++ (" " ++ n)). rewrite starts_with_app. unfold after_word. rewrite strip_prefix_app. now rewrite tidy_before. }
    rewrite E. now rewrite way_steps.
  - unfold journey_line. destruct (String.eqb t "" || starts_with "title" t); [reflexivity|]. cbn [orb] in H. apply andb_prop in H as [S C].
    rewrite (not_starts _ "section" t S) by now left. rewrite contains_split, (split_free ":" "" t) by now apply (not_free t _ ":" C). reflexivity.
Qed.
Lemma way_read doc : forallb way_ok doc = true -> finished (fold_left journey_line (flat_map way_text_lines doc) (Sect "" [] "" [])) = way_sections doc.
Proof.
  intros H. rewrite (fold_items journey_line way_text_lines (fun s i => deed_effect s (way_deed i)) way_ok); [|intros; now apply way_read_item|exact H]. rewrite deeds_map.
  destruct (deeds (map way_deed doc)) with (s := Sect (A := string * N) "" [] "" []) as (_ & F & _).
  - intros n l I. apply in_map_iff in I as (it & E & I). rewrite forallb_forall in H. specialize (H it I). destruct it as [d x|t]; try discriminate. injection E as -> <-. cbn in H. intros ->. discriminate.
  - intros _. reflexivity.
  - rewrite F. cbn [finished s_name s_title s_done String.eqb app]. rewrite !flat_map_map. unfold way_sections. apply flat_map_ext. intros []; reflexivity.
Qed.
Lemma color_mood n : score_color n = mood n.
Proof.
  assert (O : (5 < n)%N -> mood n = "E0E0E0"). { intros L. unfold mood. apply nth_overflow. cbn [length]. lia. }
  destruct n as [|[[[]|[]|]|[[]|[]|]|]]; try reflexivity; (rewrite O by lia; reflexivity).
Qed.
Lemma steps_put x l : forall y shs, (y + N.of_nat (length l) * 400000 <= 4000000000)%N ->
  exists c, snd (fold_left (put_step x) l (y, shs)) = (shs ++ c)%list
    /\ map (fun b => (sh_text b, filled b)) c = map (fun i => (Some (fst i ++ " (" ++ dec (snd i) ++ ")"), Some (mood (snd i)))) l
    /\ Forall (fun b => y <= sh_y b /\ sh_x b = add x 50000 /\ sh_w b = 1900000)%N c /\ ForallOrdPairs over c.
Proof.
  induction l as [|[t n] l IH]; intros y shs B.
  - exists []. split; [cbn; now rewrite app_nil_r|]. split; [reflexivity|]. split; constructor.
  - cbn [length] in B. cbn [fold_left put_step fst snd]. rewrite (add_exact y 400000) by lia. set (b := with_text _ _).
    destruct (IH (y + 400000)%N (shs ++ [b])%list) as (c & E & M & F & O); [lia|]. exists (b :: c). split; [rewrite E; now rewrite <- app_assoc|]. split.
    + cbn [map fst snd]. rewrite M. f_equal. unfold b. cbn [sh_text with_text filled sh_fill with_line with_fill option_map fl_color]. f_equal. unfold filled. cbn. now rewrite color_mood.
    + split.
      * constructor; [split; [|split]; [|reflexivity|reflexivity]; unfold b; cbn [sh_y with_text with_line with_fill shape_new]; lia|]. revert F. apply Forall_impl. intros s; lia.
      * constructor; [|exact O]. revert F. apply Forall_impl. intros s (Y & _). unfold over, bottom_of, b. cbn [sh_y sh_h with_text with_line with_fill shape_new]. change (sub 400000 50000) with 350000%N. lia.
Qed.
Lemma way_put ss : Forall (fun s => few (snd s)) ss -> forall x shs, (x + N.of_nat (length ss) * 2200000 <= 4000000000)%N ->
  exists heads cols, Permutation (snd (fold_left put_journey ss (x, shs))) (shs ++ heads ++ concat cols)
   /\ map sh_text heads = map (fun s => Some (fst s)) ss
   /\ Forall2 (fun s c => map (fun b => (sh_text b, filled b)) c = map (fun i => (Some (fst i ++ " (" ++ dec (snd i) ++ ")"), Some (mood (snd i)))) (snd s)) ss cols
   /\ ForallOrdPairs left_to heads /\ Forall (fun h => x <= sh_x h)%N heads
   /\ Forall2 (fun h c => Forall (fun b => over h b /\ (sh_x h <= sh_x b)%N /\ (right_of b <= right_of h)%N) c /\ ForallOrdPairs over c) heads cols.
Proof.
  induction ss as [|[n l] ss IH]; intros F x shs B.
  - exists [], []. split; [cbn; now rewrite app_nil_r|]. split; [reflexivity|]. split; [constructor|]. split; [constructor|]. split; constructor.
  - inversion_clear F as [|? ? L F']. cbn [snd] in L. unfold few in L. cbn [length] in B. cbn [fold_left put_journey fst snd]. set (h := with_text n _).
    change (add 1800000 400000) with 2200000%N. change (add 2000000 200000) with 2200000%N. rewrite (add_exact x 2200000) by lia.
    destruct (steps_put x l 2200000%N (shs ++ [h])%list) as (c & -> & M & Fc & O); [lia|].
    destruct (IH F' (x + 2200000)%N ((shs ++ [h]) ++ c)%list) as (hs & cs & P & T & S & A & X & U); [lia|].
    exists (h :: hs), (c :: cs). split.
    + rewrite P. rewrite <- !app_assoc. apply Permutation_app_head. cbn [app concat]. constructor. rewrite !app_assoc. apply Permutation_app_tail. apply Permutation_app_comm.
    + split; [cbn; now rewrite T|]. split; [constructor; [exact M|exact S]|]. split; [|split].
      * constructor; [|exact A]. revert X. apply Forall_impl. intros s Q. unfold left_to, right_of, h. cbn [sh_x sh_w with_text with_fill shape_new]. lia.
      * constructor; [unfold h; cbn [sh_x with_text with_fill shape_new]; lia|]. revert X. apply Forall_impl. intros s; lia.
      * constructor; [|exact U]. split; [|exact O]. revert Fc. apply Forall_impl. intros b (Y & XX & W). unfold over, bottom_of, right_of, h. rewrite XX, W. cbn [sh_x sh_y sh_w sh_h with_text with_fill shape_new]. rewrite add_exact by lia. lia.
Qed.
Lemma way_all o doc code : forallb way_ok doc = true -> way_sections doc <> [] -> few (way_sections doc) -> Forall (fun s => few (snd s)) (way_sections doc) -> writes "journey" (flat_map way_text_lines doc) code ->
  d_connectors (draw o code) = [] /\ exists heads columns, way_drawn doc (d_shapes (draw o code)) heads columns.
Proof.
  intros H NE F FS W. apply rows_written in W as [R L]. unfold draw, create_diagram_elements, detect_type. rewrite L. cbn -[journey_shapes]. split; [reflexivity|].
  unfold journey_shapes. rewrite R, way_read by exact H. unfold few in F. destruct (way_put (way_sections doc) FS 500000%N []) as (hs & cs & P & T & S & A & X & U); [lia|].
  cbn [app] in P. exists hs, cs. assert (Q : match snd (fold_left put_journey (way_sections doc) (500000%N, [])) with [] => [with_text "User Journey Diagram" (with_line "7B1FA2" 25400 (with_fill "F3E5F5" (shape_new KRectangle 1000000 2000000 7000000 3000000)))] | l => l end = snd (fold_left put_journey (way_sections doc) (500000%N, []))).
  { destruct (snd (fold_left put_journey (way_sections doc) (500000%N, []))); [|reflexivity]. exfalso. apply Permutation_nil in P. apply app_eq_nil in P as [-> _]. destruct (way_sections doc); [congruence|discriminate]. }
  rewrite Q. constructor; assumption.
Qed.

(** ** Git graphs *)
Lemma quotes_off t : starts_with """" t = false -> ends_with """" t = false -> trim_by (Ascii.eqb DQ) ("""" ++ t ++ """") = t.
Proof.
  intros S E. unfold trim_by. destruct t as [|c t]; [reflexivity|].
  change ("""" ++ String c t ++ """") with (String DQ (String c (t ++ """"))). cbn [trim_start_by]. change (Ascii.eqb DQ DQ) with true. cbv iota. assert (N : Ascii.eqb DQ c = false). { cbn in S. rewrite <- S. now destruct (Ascii.eqb_spec DQ c), (Ascii.eqb_spec """" c); try reflexivity; subst. }
  rewrite N. unfold trim_end_by. change (String c (t ++ """")) with (String c t ++ s1 """"). rewrite srev_sapp.
  change (srev (s1 """") ++ srev (String c t)) with (String """" (srev (String c t))). cbn [trim_start_by]. change (Ascii.eqb DQ """") with true. cbv iota.
  destruct (srev (String c t)) as [|d x] eqn:D; [apply (f_equal srev) in D; rewrite srev_involutive in D; discriminate|].
  assert (ED : Ascii.eqb DQ d = false).
  { destruct (Ascii.eqb_spec DQ d) as [Q|]; [|reflexivity]. subst d. exfalso. apply (f_equal srev) in D. rewrite srev_involutive, srev_cons in D. rewrite D in E.
    unfold ends_with in E. rewrite srev_sapp in E. cbn in E. discriminate. }
  cbn [trim_start_by]. rewrite ED. rewrite <- D. apply srev_involutive.
Qed.
Definition git_named (it : git_item) : list string := match it with Branch b => [b] | _ => [] end.
Definition numbered_commits (n : nat) (cs : list (string * string)) : list (string * string * N) := map (fun kc => (fst (snd kc), snd (snd kc), N.of_nat (fst kc))) (combine (seq n (length cs)) cs).
Definition add_branch (acc : list string) (b : string) : list string := if existsb (fun x => String.eqb x b) acc then acc else (acc ++ [b])%list.
Lemma some_eqb b l : existsb (String.eqb b) l = existsb (fun x => String.eqb x b) l.
Proof. induction l as [|x l IH]; [reflexivity|]. cbn. now rewrite IH, String.eqb_sym. Qed.
Lemma git_read doc : forallb git_ok doc = true -> forall n cur cs bs, n + length (commits n cur doc) <= 1000 ->
  exists cur', fold_left git_line (map git_text doc) (Git cs bs cur (N.of_nat n))
  = Git (cs ++ numbered_commits n (commits n cur doc))%list (fold_left add_branch (flat_map git_named doc) bs) cur' (N.of_nat (n + length (commits n cur doc))).
Proof.
  induction doc as [|it doc IH]; intros H n cur cs bs L.
  - exists cur. cbn. rewrite app_nil_r, Nat.add_0_r. reflexivity.
  - cbn [forallb] in H. apply andb_prop in H as [I H]. specialize (IH H). cbn [map fold_left flat_map].
    assert (CM : forall label, (label, cur) :: commits (S n) cur doc = commits n cur (it :: doc) -> git_named it = [] -> git_line (Git cs bs cur (N.of_nat n)) (git_text it) = commit label (Git cs bs cur (N.of_nat n)) ->
      exists cur', fold_left git_line (map git_text doc) (git_line (Git cs bs cur (N.of_nat n)) (git_text it)) =
       Git (cs ++ numbered_commits n (commits n cur (it :: doc)))%list (fold_left add_branch (git_named it ++ flat_map git_named doc) bs) cur' (N.of_nat (n + length (commits n cur (it :: doc))))).
    { intros label E NM G. rewrite G, NM. rewrite <- E in *. cbn [length] in L. unfold commit. cbn [g_commits g_branches g_current g_count]. rewrite add_exact by lia.
      replace (N.of_nat n + 1)%N with (N.of_nat (S n)) by lia. destruct (IH (S n) cur (cs ++ [(label, cur, N.of_nat n)])%list bs) as [cur' X]; [lia|]. exists cur'. rewrite X. f_equal.
      - unfold numbered_commits. cbn [length seq combine map fst snd]. now rewrite <- app_assoc.
      - f_equal. cbn [length]. lia. }
    destruct it as [[t|]|b|b|b|]; cbn [git_ok] in I.
    + apply (CM t); [reflexivity|reflexivity|]. apply andb_prop in I as [I E]. apply andb_prop in I as [C S]. apply negb_true_iff in C, S, E. unfold git_line. cbn [git_text].
      change (String.eqb ("commit id: """ ++ t ++ """") "") with false. change (starts_with "commit" ("commit id: """ ++ t ++ """")) with true.
      change ("commit id: """ ++ t ++ """") with ("commit id:" ++ (" """ ++ t ++ """")). assert (HD : forall r, split_once "id:" ("commit id:" ++ r) = Some ("commit ", r)) by reflexivity. rewrite HD. clear HD.
      assert (A : absent "id:" t). { rewrite contains_split in C. destruct (split_once "id:" t) eqn:Q; [discriminate|]. now apply split_once_none. }
      assert (N : split_once "id:" (" """ ++ t ++ """") = None). { rewrite (split_skip "i" "d:" " """) by reflexivity. replace (split_once "id:" (t ++ """")) with (@None (string * string)); [reflexivity|].
        symmetry. destruct (split_once "id:" (t ++ """")) as [[u v]|] eqn:Q; [|reflexivity]. exfalso. apply split_once_some in Q. revert Q. apply (absent_snoc "id:" t """"); [exact A|reflexivity|discriminate]. }
      rewrite N. change (" """ ++ t ++ """") with (" " ++ ("""" ++ t ++ """")). rewrite trim_before. rewrite trim_solid.
      * now rewrite quotes_off.
      * split; [exists """"%char, (t ++ """"); auto|]. exists """"%char, ("""" ++ t). split; [now rewrite sapp_assoc|reflexivity].
    + apply (CM ("C" ++ decn n)); reflexivity.
    + assert (E : git_line (Git cs bs cur (N.of_nat n)) (git_text (Branch b)) = Git cs (add_branch bs b) cur (N.of_nat n)).
      { unfold git_line. cbn [git_text]. change (String.eqb ("branch " ++ b) "") with false. change (starts_with "commit" ("branch " ++ b)) with false.
        change ("branch " ++ b) with ("branch" ++ (" " ++ b)). rewrite starts_with_app. unfold after_word. rewrite strip_prefix_app. rewrite (tidy_before b I), (tidy_some b I). cbn [orb g_branches g_commits g_current g_count].
        unfold add_branch. rewrite <- some_eqb. now destruct (existsb (String.eqb b) bs). }
      rewrite E. cbn [commits git_named app fold_left]. apply IH. exact L.
    + assert (E : git_line (Git cs bs cur (N.of_nat n)) (git_text (Checkout b)) = Git cs bs b (N.of_nat n)).
      { unfold git_line. cbn [git_text]. change (String.eqb ("checkout " ++ b) "") with false. change (starts_with "commit" ("checkout " ++ b)) with false. change (starts_with "branch" ("checkout " ++ b)) with false.
        change ("checkout " ++ b) with ("checkout" ++ (" " ++ b)). rewrite starts_with_app. unfold after_word. rewrite strip_prefix_app. rewrite (tidy_before b I), (tidy_some b I). reflexivity. }
      rewrite E. cbn [commits git_named app fold_left]. apply IH. exact L.
    + apply (CM ("Merge " ++ b)); [reflexivity|reflexivity|]. unfold git_line. cbn [git_text]. change (String.eqb ("merge " ++ b) "") with false. change (starts_with "commit" ("merge " ++ b)) with false. change (starts_with "branch" ("merge " ++ b)) with false. change (starts_with "checkout" ("merge " ++ b)) with false.
      change ("merge " ++ b) with ("merge" ++ (" " ++ b)). rewrite starts_with_app. unfold after_word. rewrite strip_prefix_app. now rewrite (tidy_before b I).
    + cbn [git_text commits git_named app fold_left]. change (git_line (Git cs bs cur (N.of_nat n)) "") with (Git cs bs cur (N.of_nat n)). apply IH. exact L.
Qed.
Lemma branches_found doc : fold_left add_branch (flat_map git_named doc) ["main"] = branches doc.
Proof. unfold add_branch. rewrite (early_fold (fun b => b)). reflexivity. Qed.
Lemma place_ok b l : In b l -> nth_error l (place_of_branch b l 0) = Some b.
Proof.
  assert (X : forall k, In b l -> k <= place_of_branch b l k /\ nth_error l (place_of_branch b l k - k) = Some b).
  { induction l as [|x l IH]; intros k I; [destruct I|]. cbn [place_of_branch]. destruct (String.eqb_spec x b) as [->|NE]; [split; [lia|]; now rewrite Nat.sub_diag|].
    destruct I as [->|I]; [congruence|]. destruct (IH (S k) I) as [LE E]. split; [lia|]. replace (place_of_branch b l (S k) - k) with (S (place_of_branch b l (S k) - S k)) by lia. exact E. }
  intros I. destruct (X 0 I) as [_ E]. now rewrite Nat.sub_0_r in E.
Qed.
Lemma commit_branches all : known all -> forall doc n cur, (forall it, In it doc -> In it all) -> In cur (branches all) -> Forall (fun c => In (snd c) (branches all)) (commits n cur doc).
Proof.
  intros K doc. induction doc as [|it doc IH]; intros n cur S C; [constructor|]. assert (S' : forall i, In i doc -> In i all) by (intros i I; apply S; now right).
  destruct it as [t|b|b|b|]; cbn [commits]; try (constructor; [exact C|]); try (now apply IH). apply IH; [exact S'|]. unfold known in K. rewrite Forall_forall in K. apply (K (Checkout b)). apply S. now left.
Qed.
Section Git.
Variable bs : list string.
Variable cs : list (string * string).
Hypothesis H_bs : few bs.
Hypothesis H_cs : few cs.
Hypothesis H_known : Forall (fun c => In (snd c) bs) cs.
Definition gname (kb : nat * string) : shape := with_text (snd kb) (with_fill (branch_color (fst kb)) (shape_new KRoundedRectangle (sub 1000000 800000) (sub (add 2000000 (mul (idx (fst kb)) 600000)) 100000) 700000 200000)).
Definition gtrack (count : N) (kb : nat * string) : shape := with_fill (branch_color (fst kb)) (shape_new KRectangle 1000000 (sub (add 2000000 (mul (idx (fst kb)) 600000)) 25000) (add (mul (N.max count 1) 800000) 200000) 50000).
Definition dx (p : nat) : N := add 1000000 (mul (N.of_nat p) 800000).
Definition dy (b : string) : N := sub (add 2000000 (mul (idx (place_of_branch b bs 0)) 600000)) (300000 / 2).
Definition gdot (kc : nat * (string * string)) : shape := with_line (branch_color (place_of_branch (snd (snd kc)) bs 0)) 25400 (with_fill "FFFFFF" (shape_new KCircle (dx (fst kc)) (dy (snd (snd kc))) 300000 300000)).
Definition gnote (kc : nat * (string * string)) : shape := with_text (fst (snd kc)) (shape_new KRectangle (sub (add (dx (fst kc)) (300000 / 2)) (800000 / 2)) (dy (snd (snd kc)) - (200000 + 50000))%N 800000 200000).
Lemma put_branch_is n kb : put_branch n kb = [gname kb; gtrack n kb].
Proof. destruct kb. reflexivity. Qed.
Lemma put_commits_are : flat_map (put_commit bs) (numbered_commits 0 cs) = flat_map (fun kc => [gdot kc; gnote kc]) (numbered cs).
Proof.
  unfold numbered_commits. rewrite flat_map_map. apply flat_map_ext. intros [k [l b]]. reflexivity.
Qed.
Lemma by_exact k : k < length bs -> add 2000000 (mul (idx k) 600000) = (2000000 + N.of_nat k * 600000)%N.
Proof. intros K. unfold few in *. rewrite idxe by lia. rewrite mul_exact by lia. apply add_exact. lia. Qed.
Lemma dx_exact k : k < length cs -> dx k = (1000000 + N.of_nat k * 800000)%N.
Proof. intros K. unfold few in *. unfold dx. rewrite mul_exact by lia. apply add_exact. lia. Qed.
Lemma place_lt b : In b bs -> place_of_branch b bs 0 < length bs.
Proof. intros I. apply nth_error_Some. rewrite (place_ok b bs I). discriminate. Qed.
Lemma dy_exact b : In b bs -> dy b = (1850000 + N.of_nat (place_of_branch b bs 0) * 600000)%N.
Proof.
  intros I. pose proof (place_lt b I) as K. unfold dy. rewrite by_exact by exact K. unfold few in *. change (300000 / 2)%N with 150000%N. rewrite sub_exact by lia. lia.
Qed.
Lemma in_known k c : nth_error cs k = Some c -> In (snd c) bs.
Proof. intros E. apply nth_error_In in E. rewrite Forall_forall in H_known. now apply H_known. Qed.
Lemma git_laid doc shapes : bs = branches doc -> cs = commits 0 "main" doc -> Permutation shapes (flat_map (put_branch (N.of_nat (length cs))) (numbered bs) ++ flat_map (put_commit bs) (numbered_commits 0 cs)) ->
  exists names tracks dots notes, git_drawn doc shapes names tracks dots notes.
Proof.
  intros EB EC P. set (n := N.of_nat (length cs)) in *. rewrite (flat_map_ext _ (fun kb => [gname kb; gtrack n kb]) (put_branch_is n)), put_commits_are in P.
  exists (map gname (numbered bs)), (map (gtrack n) (numbered bs)), (map gdot (numbered cs)), (map gnote (numbered cs)).
  assert (LB : length bs <= 1000) by exact H_bs. assert (LC : length cs <= 1000) by exact H_cs.
  assert (NY : forall k b, k < length bs -> sh_x (gname (k, b)) = 200000%N /\ sh_w (gname (k, b)) = 700000%N /\ sh_y (gname (k, b)) = (1900000 + N.of_nat k * 600000)%N /\ sh_h (gname (k, b)) = 200000%N).
  { intros k b K. unfold gname. cbn [sh_x sh_y sh_w sh_h with_text with_line with_fill shape_new fst snd]. rewrite by_exact by exact K. change (sub 1000000 800000) with 200000%N. rewrite sub_exact by lia. repeat split; lia. }
  assert (TY : forall k b, k < length bs -> sh_x (gtrack n (k, b)) = 1000000%N /\ sh_w (gtrack n (k, b)) = (N.max n 1 * 800000 + 200000)%N /\ sh_y (gtrack n (k, b)) = (1975000 + N.of_nat k * 600000)%N /\ sh_h (gtrack n (k, b)) = 50000%N).
  { intros k b K. unfold gtrack. cbn [sh_x sh_y sh_w sh_h with_text with_line with_fill shape_new fst snd]. rewrite by_exact by exact K. rewrite sub_exact by lia. rewrite (mul_exact (N.max n 1)) by (subst n; lia). rewrite add_exact by (subst n; lia). repeat split; lia. }
  assert (DY : forall k c, nth_error cs k = Some c -> sh_x (gdot (k, c)) = (1000000 + N.of_nat k * 800000)%N /\ sh_w (gdot (k, c)) = 300000%N /\ sh_y (gdot (k, c)) = (1850000 + N.of_nat (place_of_branch (snd c) bs 0) * 600000)%N /\ sh_h (gdot (k, c)) = 300000%N).
  { intros k c E. assert (K : k < length cs) by (apply nth_error_Some; congruence). unfold gdot. cbn [sh_x sh_y sh_w sh_h with_text with_line with_fill shape_new fst snd]. rewrite dx_exact by exact K. rewrite dy_exact by now apply (in_known k). repeat split; lia. }
  assert (OY : forall k c, nth_error cs k = Some c -> sh_x (gnote (k, c)) = (750000 + N.of_nat k * 800000)%N /\ sh_w (gnote (k, c)) = 800000%N /\ sh_y (gnote (k, c)) = (1600000 + N.of_nat (place_of_branch (snd c) bs 0) * 600000)%N /\ sh_h (gnote (k, c)) = 200000%N).
  { intros k c E. assert (K : k < length cs) by (apply nth_error_Some; congruence). unfold gnote. cbn [sh_x sh_y sh_w sh_h with_text with_line with_fill shape_new fst snd]. rewrite dx_exact by exact K. rewrite dy_exact by now apply (in_known k).
    change (300000 / 2)%N with 150000%N. change (800000 / 2)%N with 400000%N. rewrite add_exact by lia. rewrite sub_exact by lia. repeat split; lia. }
  constructor.
  - rewrite P. etransitivity; [apply Permutation_app; apply flat2|]. now rewrite <- !app_assoc.
  - rewrite map_map. rewrite <- EB. apply (num_map Some bs).
  - rewrite map_map. rewrite <- EC. apply (num_map (fun c => Some (fst c)) cs).
  - apply Forall_app. split; apply Forall_map, Forall_forall; intros [k e] _; reflexivity.
  - apply both_map, num_forall. intros k b K _. destruct (NY k b K) as (A1 & A2 & A3 & A4). destruct (TY k b K) as (B1 & B2 & B3 & B4). unfold left_to, right_of, centre. rewrite A1, A2, A3, A4, B1, B3, B4. split; [lia|]. change (200000 / 2)%N with 100000%N. change (50000 / 2)%N with 25000%N. lia.
  - split; apply pairs_map, num_pairs; intros i j a b K _ _; unfold over, bottom_of.
    + destruct (NY i a) as (_ & _ & A3 & A4); [lia|]. destruct (NY j b) as (_ & _ & B3 & B4); [lia|]. rewrite A3, A4, B3. lia.
    + destruct (TY i a) as (_ & _ & A3 & A4); [lia|]. destruct (TY j b) as (_ & _ & B3 & B4); [lia|]. rewrite A3, A4, B3. lia.
  - rewrite <- EC. apply both_left, num_forall. intros k c K E. cbn [fst snd]. pose proof (in_known k c E) as I. set (p := place_of_branch (snd c) bs 0). exists p, (gtrack n (p, snd c)). rewrite <- EB. split; [now apply place_ok|]. split.
    + apply map_nth_error. apply num_nth. now apply place_ok.
    + destruct (DY k c E) as (A1 & A2 & A3 & A4). destruct (TY p (snd c)) as (B1 & B2 & B3 & B4); [now apply place_lt|]. unfold centre, right_of. rewrite A1, A2, A3, A4, B1, B2, B3, B4. fold p. change (300000 / 2)%N with 150000%N. change (50000 / 2)%N with 25000%N. subst n. repeat split; lia.
  - apply pairs_map, num_pairs. intros i j a b K A B. destruct (DY i a A) as (A1 & A2 & _). destruct (DY j b B) as (B1 & _). unfold left_to, right_of. rewrite A1, A2, B1. lia.
  - apply both_map, num_forall. intros k c K E. destruct (DY k c E) as (A1 & A2 & A3 & A4). destruct (OY k c E) as (B1 & B2 & B3 & B4). unfold over, bottom_of, middle. rewrite A1, A2, A3, B1, B2, B3, B4. change (300000 / 2)%N with 150000%N. change (800000 / 2)%N with 400000%N. split; lia.
  - split.
    + apply pairs_map, num_pairs. intros i j a b K A B. destruct (OY i a A) as (A1 & A2 & _). destruct (OY j b B) as (B1 & _). left. unfold left_to, right_of. rewrite A1, A2, B1. lia.
    + apply Forall_map, num_forall. intros k c K E. destruct (OY k c E) as (B1 & B2 & B3 & B4). set (p := place_of_branch (snd c) bs 0) in *. rewrite !Forall_app. split; [|split]; apply Forall_map, num_forall; intros j b J EJ; unfold clear, over, bottom_of.
      * destruct (NY j b J) as (A1 & A2 & A3 & A4). right. right. rewrite A3, A4, B3, B4. lia.
      * destruct (TY j b J) as (A1 & A2 & A3 & A4). right. right. rewrite A3, A4, B3, B4. lia.
      * destruct (DY j b EJ) as (A1 & A2 & A3 & A4). right. right. rewrite A3, A4, B3, B4. set (q := place_of_branch (snd b) bs 0) in *. lia.
Qed.
End Git.
Lemma git_all o doc code : forallb git_ok doc = true -> known doc -> commits 0 "main" doc <> [] -> few (branches doc) -> few (commits 0 "main" doc) -> writes "gitGraph" (map git_text doc) code ->
  d_connectors (draw o code) = [] /\ exists names tracks dots notes, git_drawn doc (d_shapes (draw o code)) names tracks dots notes.
Proof.
  intros H K NE FB FC W. apply rows_written in W as [R L]. unfold draw, create_diagram_elements, detect_type. rewrite L. cbn -[git_shapes]. split; [reflexivity|].
  unfold git_shapes. rewrite R. destruct (git_read doc H 0 "main" [] ["main"]) as [cur E]; [exact FC|]. change (N.of_nat 0) with 0%N in E. rewrite E. cbn [g_count g_branches g_commits app Nat.add]. rewrite branches_found.
  apply (git_laid (branches doc) (commits 0 "main" doc)); try assumption; try reflexivity.
  - apply (commit_branches doc K); [auto|]. now left.
  - destruct (numbered_commits 0 (commits 0 "main" doc)) eqn:Q; [|rewrite app_nil_r; reflexivity]. exfalso. destruct (commits 0 "main" doc); [congruence|discriminate].
Qed.

(** ** Pies *)
Lemma nodup_left {A} (a b : list A) : NoDup (a ++ b) -> NoDup a.
Proof. induction a as [|x a IH]; intros H; [constructor|]. inversion_clear H as [|? ? N H']. constructor; [rewrite in_app_iff in N; tauto|now apply IH]. Qed.
Lemma pie_all o doc code : forallb (pie_ok (o_f64 o)) doc = true -> slices (o_f64 o) doc <> [] -> few (slices (o_f64 o) doc) -> writes "pie" (map pie_text doc) code ->
  d_connectors (draw o code) = [] /\ exists keys notes disc, pie_drawn (o_f64 o) (o_percent o) doc (d_shapes (draw o code)) keys notes disc.
Proof.
  intros H NE F W. apply rows_written in W as [R L]. assert (D : draw o code = from_shapes (pie_shapes (o_num o) (o_f64 o) (o_percent o) code)).
  { unfold draw, create_diagram_elements, detect_type. rewrite L. reflexivity. }
  rewrite D. split; [reflexivity|]. clear D. cbn [d_shapes from_shapes].
  assert (RD : flat_map (pie_line (o_num o) (o_f64 o)) (map pie_text doc) = slices (o_f64 o) doc).
  { clear - H. induction doc as [|it doc IH]; [reflexivity|]. cbn [forallb] in H. apply andb_prop in H as [I H]. cbn [map flat_map slices]. rewrite IH by exact H. unfold slices. cbn [flat_map]. f_equal. clear - I.
    destruct it as [t v|t|t]; cbn [pie_ok pie_text] in *.
    - apply andb_prop in I as [I N]. apply andb_prop in I as [T V]. assert (SP : split_once ":" ("""" ++ t ++ """ : " ++ v) = Some ("""" ++ t ++ """ ", " " ++ v)).
      { replace ("""" ++ t ++ """ : " ++ v) with (("""" ++ t ++ """ ") ++ ":" ++ (" " ++ v)) by (now rewrite !sapp_assoc). apply (split_after ":" ""). rewrite !sforall_app. rewrite (not_free t _ ":" T) by reflexivity. reflexivity. }
      unfold pie_line. rewrite contains_split, SP. change (starts_with "title" ("""" ++ t ++ """ : " ++ v)) with false. cbn [negb andb]. rewrite (tidy_before v V).
      replace ("""" ++ t ++ """ ") with (("""" ++ t ++ """") ++ " ") by (now rewrite !sapp_assoc). rewrite trim_after by (split; [exists """"%char, (t ++ """"); auto|exists """"%char, ("""" ++ t); split; [now rewrite sapp_assoc|reflexivity]]).
      rewrite quotes_off.
      + now destruct (o_f64 o v).
      + destruct t as [|c t]; [reflexivity|]. unfold without in T. cbn in T. cbn [starts_with]. destruct (Ascii.eqb_spec """" c) as [<-|]; [discriminate|reflexivity].
      + destruct (ends_with """" t) eqn:E; [|reflexivity]. exfalso. assert (FQ : free """" t) by now apply (not_free t _ """" T). unfold ends_with in E. change (srev """") with """" in E. assert (FR : sforall (fun d => negb (Ascii.eqb """" d)) (srev t) = true) by (now rewrite sforall_srev). destruct (srev t) as [|c x]; [cbn in E; congruence|]. cbn [starts_with sforall] in E, FR. destruct (Ascii.eqb """" c); cbn in E, FR; congruence.
    - unfold pie_line. change ("title " ++ t) with ("title" ++ (" " ++ t)). rewrite starts_with_app. now rewrite andb_false_r.
    - unfold pie_line. rewrite contains_split, (split_free ":" "" t) by now apply (not_free t _ ":" I). reflexivity. }
  unfold pie_shapes. rewrite R, RD. set (S := slices (o_f64 o) doc) in *. assert (LS : length S <= 1000) by exact F.
  set (values := map snd S). set (key := fun ks : nat * (string * o_num o) => with_fill (pie_color (fst ks)) (shape_new KRectangle 5000000 (add 2000000 (mul (idx (fst ks)) 350000)) 200000 200000)).
  set (note := fun ks : nat * (string * o_num o) => with_text (fst (snd ks) ++ " (" ++ o_percent o values (snd (snd ks)) ++ "%)") (shape_new KRectangle (add 5000000 300000) (add 2000000 (mul (idx (fst ks)) 350000)) 2500000 200000)).
  set (disc := with_line "FFFFFF" 2 (with_fill (pie_color 0) (shape_new KEllipse (sub 2500000 1500000) (sub 3000000 1500000) (mul 1500000 2) (mul 1500000 2)))).
  exists (map key (numbered S)), (map note (numbered S)), disc.
  assert (MS : match S with [] => [] | p :: l => disc :: flat_map (put_slice (o_num o) (o_percent o) (map snd (p :: l))) (numbered (p :: l)) end = disc :: flat_map (put_slice (o_num o) (o_percent o) (map snd S)) (numbered S)) by (destruct S; [congruence|reflexivity]).
  rewrite MS. unfold from_shapes, from_shapes_and_connectors. cbn [d_shapes].
  assert (PS : forall ks, put_slice (o_num o) (o_percent o) (map snd S) ks = [key ks; note ks]) by (intros [k [l v]]; reflexivity). rewrite (flat_map_ext _ (fun ks => [key ks; note ks]) PS).
  assert (Y : forall k, k < length S -> add 2000000 (mul (idx k) 350000) = (2000000 + N.of_nat k * 350000)%N). { intros k K. rewrite idxe by lia. rewrite mul_exact by lia. apply add_exact. lia. }
  constructor.
  - constructor. apply flat2.
  - repeat split.
  - rewrite map_map. fold S. unfold note. cbn [sh_text with_text]. apply (num_map (fun s => Some (fst s ++ " (" ++ o_percent o (map snd S) (snd s) ++ "%)")) S).
  - apply Forall_map, Forall_forall. intros [k e] _. reflexivity.
  - fold S. intros L8. rewrite map_map. assert (E : map (fun x => filled (key x)) (numbered S) = map (fun k => Some (nth k pie_colors "")) (seq 0 (length S))).
    { transitivity (map (fun k => Some (pie_color k)) (seq 0 (length S))).
      - unfold numbered. generalize (seq 0 (length S)) as l, (seq_length (length S) 0). revert NE. clearbody S. clear. intros _. revert S. intros S l. revert l. induction S as [|s S IH]; intros [|k l] E; try discriminate; [reflexivity|]. cbn [combine map]. f_equal. apply IH. cbn [length] in E. lia.
      - apply map_ext_in. intros k K. apply in_seq in K. unfold pie_color. rewrite Nat.mod_small by lia. reflexivity. }
    rewrite E. assert (ND : NoDup (map (fun k => Some (nth k pie_colors "")) (seq 0 8))). { cbn. repeat constructor; cbn; intuition discriminate. }
    replace (seq 0 8) with (seq 0 (length S) ++ seq (length S) (8 - length S))%list in ND by (rewrite <- seq_app; f_equal; lia). rewrite map_app in ND. now apply nodup_left in ND.
  - apply both_map, num_forall. intros k e K _. split; [reflexivity|]. unfold left_to, right_of, key, note. cbn [sh_x sh_w with_text with_fill shape_new fst snd]. change (add 5000000 300000) with 5300000%N. lia.
  - split; apply pairs_map, num_pairs; intros i j a b K _ _; unfold over, bottom_of, key, note; cbn [sh_y sh_h with_text with_fill shape_new fst snd]; rewrite !Y by lia; lia.
  - apply Forall_app. split; apply Forall_map, num_forall; intros k e K _; left; unfold left_to, right_of, disc, key, note; cbn [sh_x sh_w with_text with_line with_fill shape_new fst snd]; change (sub 2500000 1500000) with 1000000%N; change (mul 1500000 2) with 3000000%N; change (add 5000000 300000) with 5300000%N; lia.
Qed.
