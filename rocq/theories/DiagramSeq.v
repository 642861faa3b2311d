(** Sequence diagrams. *)
From Coq Require Import String Ascii List Bool Arith NArith ZArith Permutation Lia.
From Verif Require Import Str Num ColorModel TableModel ShapeModel ConnectorModel ValidSpec ValidProofs FlowModel FlowSpec FlowText FlowDraw FlowThms DiagramModel DiagramSpec DiagramCommon.
Import ListNotations.
Open Scope nat_scope.
Open Scope string_scope.

(** ** Reading *)
Lemma person_parts i : person_ok i = true -> solid i /\ sforall (fun c => negb (is_ws c)) i = true /\ without ["-"; ">"; ":"]%char i = true /\ starts_with "participant" i = false /\ trim i = i.
Proof.
  unfold person_ok. intros H. repeat (apply andb_prop in H as [H ?]). assert (S : solid i).
  { assert (N : i <> "") by (intros ->; discriminate). split.
    - destruct i as [|c x]; [congruence|]. cbn in H2. apply andb_prop in H2 as [W _]. exists c, x. split; [reflexivity|now apply negb_true_iff].
    - rewrite <- (srev_involutive i) in *. destruct (srev i) as [|c x] eqn:E; [now destruct N|]. rewrite srev_cons in *. rewrite sforall_app in H2. apply andb_prop in H2 as [_ W]. cbn in W. exists c, (srev x). split; [reflexivity|]. destruct (is_ws c); [discriminate|reflexivity]. }
  split; [exact S|]. split; [assumption|]. split; [assumption|]. split; [|now apply trim_solid]. apply (not_starts ["participant"]); [assumption|now left].
Qed.
Lemma word_all i : sforall (fun c => negb (is_ws c)) i = true -> until_ws i = i.
Proof. induction i as [|c i IH]; [reflexivity|]. cbn. intros H. apply andb_prop in H as [C H]. apply negb_true_iff in C. now rewrite C, IH. Qed.
Lemma no_as i : sforall (fun c => negb (is_ws c)) i = true -> split_once " as " i = None.
Proof.
  intros H. apply split_free. revert H. apply sforall_weaken. intros c C. apply negb_true_iff in C. apply negb_true_iff. destruct (Ascii.eqb_spec " " c); [subst; discriminate|reflexivity].
Qed.
Lemma free_space i : sforall (fun c => negb (is_ws c)) i = true -> free " " i.
Proof. apply sforall_weaken. intros c C. apply negb_true_iff in C. apply negb_true_iff. destruct (Ascii.eqb_spec " " c); [subst; discriminate|reflexivity]. Qed.
Definition seq_effect (t : talk) (it : seq_item) : talk :=
  match it with
  | Person i a => join_in i (match a with Some a => a | None => i end) t
  | Message f _ o x => let t := join_in o o (join_in f f t) in Talk (t_people t) (t_said t ++ [(f, o, x)])%list
  | Aside _ => t
  end.
Lemma seq_read_line t it : seq_ok it = true -> seq_line t (seq_text it) = seq_effect t it.
Proof.
  destruct it as [i [a|]|f d o x|x]; cbn [seq_ok seq_text seq_effect]; intros H.
  - apply andb_prop in H as [I A]. apply person_parts in I as (SI & W & F & P & T). unfold seq_line.
    change ("participant " ++ i ++ " as " ++ a) with ("participant" ++ (" " ++ i ++ " as " ++ a)). rewrite starts_with_app. unfold after_word. rewrite strip_prefix_app.
    rewrite trim_before. rewrite (trim_solid (i ++ " as " ++ a)) by (apply solid_app; [exact SI|now apply tidy_solid]).
    rewrite (split_after " " "as "); [|now apply free_space]. rewrite T, (tidy_trim a A), (solid_some i SI). reflexivity.
  - apply person_parts in H as (SI & W & F & P & T). unfold seq_line.
    change ("participant " ++ i) with ("participant" ++ (" " ++ i)). rewrite starts_with_app. unfold after_word. rewrite strip_prefix_app.
    rewrite trim_before, T, no_as by exact W. unfold first_word. replace (trim_start_by is_ws i) with i; [rewrite word_all, (solid_some i SI) by exact W; reflexivity|].
    destruct SI as [(c & y & -> & C) _]. cbn. now rewrite C.
  - apply andb_prop in H as [H H0]. apply andb_prop in H as [H H1]. apply andb_prop in H as [PF H2]. apply person_parts in PF as (SF & WF & FF & P & TF). apply person_parts in H2 as (SO & WO & FO & _ & TO).
    apply negb_true_iff in H0. rewrite contains_split in H0. assert (AX : split_once "-->>" x = None) by (destruct (split_once "-->>" x); [discriminate|reflexivity]). clear H0.
    assert (DF : free "-" f) by (now apply (not_free f _ "-" FF)). assert (DO : free "-" o) by (now apply (not_free o _ "-" FO)). assert (CO : free ":" o) by (now apply (not_free o _ ":" FO)).
    unfold seq_line. assert (NS : starts_with "participant" (f ++ (if d then "-->>" else "->>") ++ o ++ ": " ++ x) = false).
    { destruct d; cbn [append]; apply not_start; try exact P; reflexivity. }
    rewrite NS. assert (LC : split_once ":" (o ++ ": " ++ x) = Some (o, " " ++ x)). { apply (split_after ":" ""). exact CO. }
    destruct d.
    + assert (C1 : contains "-->>" (f ++ "-->>" ++ o ++ ": " ++ x) = true). { rewrite contains_split, (split_after "-" "->>") by exact DF. reflexivity. }
      rewrite C1, orb_true_r. rewrite (split_after "-" "->>") by exact DF. rewrite LC. rewrite TF, TO, (tidy_before x) by assumption. reflexivity.
    + assert (N1 : split_once "-->>" (f ++ "->>" ++ o ++ ": " ++ x) = None).
      { rewrite split_skip by exact DF. change ("->>" ++ o ++ ": " ++ x) with (String "-" (String ">" (String ">" (o ++ ": " ++ x)))).
        assert (R : split_once "-->>" (String ">" (String ">" (o ++ ": " ++ x))) = None).
        { change (String ">" (String ">" (o ++ ": " ++ x))) with (">>" ++ (o ++ (": " ++ x))). rewrite split_skip by reflexivity. rewrite split_skip by exact DO. rewrite split_skip by reflexivity. now rewrite AX. }
        cbn [split_once]. cbn [split_once] in R. cbn [strip_prefix Ascii.eqb Bool.eqb] in *. rewrite R. reflexivity. }
      rewrite !contains_split, N1. rewrite (split_after "-" ">>") by exact DF. cbn [orb]. rewrite LC. rewrite TF, TO, (tidy_before x) by assumption. reflexivity.
  - apply andb_prop in H as [P C]. unfold seq_line. rewrite (not_starts _ "participant" x P) by now left. apply negb_true_iff in C. rewrite C.
    assert (N : contains "-->>" x = false). { destruct (contains "-->>" x) eqn:E; [|reflexivity]. apply contains_iff in E as (a & b & ->). assert (contains "->>" (a ++ "-->>" ++ b) = true); [|congruence]. apply contains_iff. exists (a ++ "-"), b. now rewrite !sapp_assoc. }
    rewrite N. reflexivity.
Qed.
Definition told_people (it : seq_item) : list (string * string) :=
  match it with Person i a => [(i, match a with Some a => a | None => i end)] | Message f _ t _ => [(f, f); (t, t)] | Aside _ => [] end.
Definition told_messages (it : seq_item) : list (string * string * string) := match it with Message f _ t x => [(f, t, x)] | _ => [] end.
Lemma seq_fold doc : forall t, fold_left seq_effect doc t =
  Talk (fold_left (fun acc a => if existsb (fun b => String.eqb (fst b) (fst a)) acc then acc else (acc ++ [a])%list) (flat_map told_people doc) (t_people t)) (t_said t ++ flat_map told_messages doc)%list.
Proof.
  induction doc as [|it doc IH]; intros t; [cbn; rewrite app_nil_r; now destruct t|]. cbn [fold_left flat_map]. rewrite IH, fold_left_app. clear IH.
  destruct it as [i a|f d o x|x]; cbn [seq_effect told_people told_messages fold_left app fst].
  - unfold join_in. destruct (existsb _ (t_people t)); reflexivity.
  - unfold join_in. destruct (existsb (fun p => String.eqb (fst p) f) (t_people t)); cbn [t_people t_said].
    + destruct (existsb (fun p => String.eqb (fst p) o) (t_people t)); cbn [t_people t_said]; now rewrite <- app_assoc.
    + destruct (existsb (fun p => String.eqb (fst p) o) (t_people t ++ [(f, f)])%list); cbn [t_people t_said]; f_equal; now rewrite <- app_assoc.
  - reflexivity.
Qed.
Lemma seq_read doc : forallb seq_ok doc = true -> fold_left seq_line (map seq_text doc) (Talk [] []) = Talk (people doc) (messages doc).
Proof.
  intros H.
  assert (E : map seq_text doc = flat_map (fun i => [seq_text i]) doc) by (clear; induction doc; cbn; congruence). rewrite E.
  rewrite (fold_items seq_line (fun i => [seq_text i]) seq_effect seq_ok); [|intros s i O; now apply seq_read_line|exact H].
  rewrite seq_fold. cbn [t_people t_said app]. f_equal. rewrite (early_fold fst). reflexivity.
Qed.

(** ** Drawing *)
Section Seq.
Variable doc : list seq_item.
Hypothesis H_ok : forallb seq_ok doc = true.
Hypothesis H_people : few (people doc).
Hypothesis H_messages : few (messages doc).
Let P := people doc.
Definition px (k : nat) : N := add 500000 (mul (idx k) 1800000).
Definition named (x y : N) (n : string) : shape := with_text n (with_line "1565C0" 2 (with_fill "E3F2FD" (shape_new KRectangle x y 1400000 400000))).
Definition head_of (kp : nat * (string * string)) : shape := named (px (fst kp)) 1600000 (snd (snd kp)).
Definition foot_of (kp : nat * (string * string)) : shape := named (px (fst kp)) (add (add 1600000 400000) 3000000) (snd (snd kp)).
Definition life_of (kp : nat * (string * string)) : shape := with_fill "757575" (shape_new KRectangle (sub (add (px (fst kp)) (1400000 / 2)) 10000) (add 1600000 400000) 20000 3000000).
Lemma put_people l : forall s, fold_left put_person l s =
  ((fst s ++ flat_map (fun kp => [head_of kp; life_of kp; foot_of kp]) l)%list, (rev (map (fun kp => (fst (snd kp), px (fst kp))) l) ++ snd s)%list).
Proof.
  induction l as [|[k [i n]] l IH]; intros [shs xs]; [cbn; now rewrite app_nil_r|]. cbn [fold_left]. rewrite IH. cbn [put_person fst snd map rev flat_map]. rewrite <- !app_assoc. reflexivity.
Qed.
Lemma nodup_p : NoDup (map fst P).
Proof. apply early_nodup. Qed.
Lemma px_exact k : k < length P -> px k = (500000 + N.of_nat k * 1800000)%N.
Proof. intros H. unfold few in *. fold P in H_people. unfold px. rewrite idxe by lia. rewrite mul_exact by lia. apply add_exact. lia. Qed.
Lemma look i n k : nth_error P k = Some (i, n) -> lookup i (rev (map (fun kp => (fst (snd kp), px (fst kp))) (numbered P)) ++ []) = Some (px k).
Proof.
  intros E. rewrite app_nil_r. apply lookup_rev.
  - rewrite map_map. cbn [fst]. rewrite (num_map fst P). apply nodup_p.
  - apply in_map_iff. exists (k, (i, n)). split; [reflexivity|]. now apply num_in.
Qed.
Lemma taking_part f o x : In (f, o, x) (messages doc) -> (exists i n, nth_error P i = Some (f, n)) /\ (exists j n, nth_error P j = Some (o, n)).
Proof.
  intros I. unfold messages in I. apply in_flat_map in I as (it & I & M). destruct it as [| f' d o' x'|]; [destruct M| |destruct M]. destruct M as [M|[]]. injection M as -> -> ->.
  assert (X : forall q, In (q, q) (told_people (Message f d o x)) -> exists i n, nth_error P i = Some (q, n)).
  { intros q Q. destruct (early_has fst [] (flat_map told_people doc) (q, q)) as ([q' n] & B & K); [apply in_flat_map; exists (Message f d o x); auto|auto|].
    cbn in K. subst q'. apply In_nth_error in B as [i B]. exists i, n. exact B. }
  split; apply X; cbn; auto.
Qed.
Definition mline (k : nat) : N := add (add (add 1600000 400000) 200000) (mul (idx k) 450000).
Definition span (f o : N) : N * N * bool :=
  let fc := add f (1400000 / 2) in let tc := add o (1400000 / 2) in if (fc <? tc)%N then (fc, sub tc fc, false) else (tc, sub fc tc, true).
Definition at_of (i : string) : N := match lookup i (rev (map (fun kp => (fst (snd kp), px (fst kp))) (numbered P)) ++ []) with Some x => x | None => 0%N end.
Definition arrow_of (km : nat * (string * string * string)) : shape :=
  let '(ax, aw, back) := span (at_of (fst (fst (snd km)))) (at_of (snd (fst (snd km)))) in
  with_fill "1565C0" (shape_new (if back then KLeftArrow else KRightArrow) ax (mline (fst km)) aw 120000).
Definition note_of (km : nat * (string * string * string)) : shape :=
  let '(ax, aw, back) := span (at_of (fst (fst (snd km)))) (at_of (snd (fst (snd km)))) in
  with_text (snd (snd km)) (shape_new KRectangle ax (mline (fst km) - 180000)%N aw 160000).
Lemma put_messages xs l : (forall k m, In (k, m) l -> lookup (fst (fst m)) xs = Some (at_of (fst (fst m))) /\ lookup (snd (fst m)) xs = Some (at_of (snd (fst m)))) ->
  forall s, fold_left (put_message xs) l s = (s ++ flat_map (fun km => [arrow_of km; note_of km]) l)%list.
Proof.
  induction l as [|[k [[f o] x]] l IH]; intros H s; [cbn; now rewrite app_nil_r|]. cbn [fold_left]. rewrite IH by (intros k' m I; apply (H k'); now right).
  destruct (H k (f, o, x) (or_introl eq_refl)) as [A B]. cbn [fst snd] in A, B. cbn [flat_map put_message]. rewrite A, B. unfold arrow_of, note_of, span. cbn [fst snd].
  destruct (_ <? _)%N; now rewrite <- app_assoc.
Qed.
Lemma at_ok i n k : nth_error P k = Some (i, n) -> at_of i = (500000 + N.of_nat k * 1800000)%N.
Proof. intros E. unfold at_of. rewrite (look i n k E). apply px_exact. apply nth_error_Some. congruence. Qed.
Lemma mline_exact k : k < length (messages doc) -> mline k = (2200000 + N.of_nat k * 450000)%N.
Proof. intros H. unfold few in *. unfold mline. change (add (add 1600000 400000) 200000) with 2200000%N. rewrite idxe by lia. rewrite mul_exact by lia. apply add_exact. lia. Qed.
Lemma seq_shown shapes : shapes = (let '(shs, xs) := fold_left put_person (numbered P) ([], []) in fold_left (put_message xs) (numbered (messages doc)) shs) ->
  exists heads lifes feet arrows notes, seq_drawn doc shapes heads lifes feet arrows notes.
Proof.
  intros ->. rewrite put_people. cbn [fst snd app]. rewrite put_messages.
  2:{ intros k [[f o] x] I. apply num_in in I. apply nth_error_In in I. destruct (taking_part f o x I) as [(i & n & A) (j & m & B)]. cbn [fst snd]. unfold at_of. now rewrite (look _ _ _ A), (look _ _ _ B). }
  exists (map head_of (numbered P)), (map life_of (numbered P)), (map foot_of (numbered P)), (map arrow_of (numbered (messages doc))), (map note_of (numbered (messages doc))).
  assert (LP : length P <= 1000) by exact H_people. assert (LM : length (messages doc) <= 1000) by exact H_messages.
  assert (AR : forall k m, sh_text (arrow_of (k, m)) = None). { intros k [[f o] x]. unfold arrow_of. destruct (span _ _) as [[? ?] ?]. reflexivity. }
  assert (AY : forall k m, k < length (messages doc) -> sh_y (arrow_of (k, m)) = (2200000 + N.of_nat k * 450000)%N /\ sh_h (arrow_of (k, m)) = 120000%N).
  { intros k [[f o] x] L. unfold arrow_of. destruct (span _ _) as [[? ?] ?]. split; [now apply mline_exact|reflexivity]. }
  constructor.
  - etransitivity; [apply Permutation_app; [apply flat3|apply flat2]|]. now rewrite <- !app_assoc.
  - rewrite map_map. apply (num_map (fun p => Some (snd p)) P).
  - rewrite map_map. apply (num_map (fun p => Some (snd p)) P).
  - rewrite map_map. rewrite <- (num_map (fun m => Some (snd m)) (messages doc)). apply map_ext. intros [k [[f o] x]]. unfold note_of. destruct (span _ _) as [[? ?] ?]. reflexivity.
  - apply Forall_app. split; apply Forall_map, Forall_forall; intros [k m] _; [reflexivity|apply AR].
  - apply both_map. apply num_forall. intros k p L _. unfold middle, bottom_of, head_of, life_of, named. cbn [sh_x sh_y sh_w sh_h with_text with_line with_fill shape_new fst snd].
    rewrite px_exact by exact L. change (1400000 / 2)%N with 700000%N. change (20000 / 2)%N with 10000%N. rewrite add_exact by lia. rewrite sub_exact by lia. split; [lia|reflexivity].
  - apply both_map. apply num_forall. intros k p L _. unfold middle, bottom_of, foot_of, life_of, named. cbn [sh_x sh_y sh_w sh_h with_text with_line with_fill shape_new fst snd].
    rewrite px_exact by exact L. change (1400000 / 2)%N with 700000%N. change (20000 / 2)%N with 10000%N. rewrite add_exact by lia. rewrite sub_exact by lia. split; [lia|reflexivity].
  - split; apply pairs_map, num_pairs; intros i j a b L _ _; unfold left_to, right_of, head_of, foot_of, named; cbn [sh_x sh_w with_text with_line with_fill shape_new fst snd]; rewrite !px_exact by lia; lia.
  - apply both_left. apply num_forall. intros k [[f o] x] L I. cbn [fst snd]. apply nth_error_In in I. destruct (taking_part f o x I) as [(i & n & A) (j & m & B)].
    exists i, j, (head_of (i, (f, n))), (head_of (j, (o, m))), n, m. split; [exact A|]. split; [rewrite nth_error_map, (num_nth P i _ A); reflexivity|]. split; [exact B|]. split; [rewrite nth_error_map, (num_nth P j _ B); reflexivity|].
    assert (LI : i < length P) by (apply nth_error_Some; congruence). assert (LJ : j < length P) by (apply nth_error_Some; congruence).
    unfold points, middle, head_of, named, right_of. cbn [sh_x sh_w with_text with_line with_fill shape_new fst snd]. rewrite !px_exact by assumption. change (1400000 / 2)%N with 700000%N.
    unfold arrow_of, span. cbn [fst snd]. rewrite (at_ok f n i A), (at_ok o m j B). change (1400000 / 2)%N with 700000%N. rewrite !add_exact by lia.
    destruct (500000 + N.of_nat i * 1800000 + 700000 <? 500000 + N.of_nat j * 1800000 + 700000)%N eqn:E; cbn [sh_x sh_w sh_type with_fill shape_new]; (split; [reflexivity|]).
    + apply N.ltb_lt in E. rewrite sub_exact by lia. lia.
    + apply N.ltb_ge in E. rewrite sub_exact by lia. lia.
  - apply pairs_map, num_pairs. intros i j a b L _ _. unfold over, bottom_of. destruct (AY i a) as [-> ->]; [lia|]. destruct (AY j b) as [-> _]; [lia|]. lia.
  - apply both_map. apply num_forall. intros k [[f o] x] L _. unfold arrow_of, note_of, over, bottom_of. destruct (span _ _) as [[? ?] ?]. cbn [sh_x sh_y sh_w sh_h with_text with_fill shape_new fst snd]. rewrite mline_exact by exact L. repeat split; lia.
  - intros S. apply Forall_map, num_forall. intros k m L _. apply Forall_map, Forall_forall. intros [i p] _. unfold bottom_of. destruct (AY k m L) as [-> ->]. unfold life_of. cbn [sh_y sh_h with_fill shape_new]. change (add 1600000 400000) with 2000000%N. lia.
Qed.
End Seq.
Lemma seq_all o doc code : forallb seq_ok doc = true -> few (people doc) -> few (messages doc) -> writes "sequenceDiagram" (map seq_text doc) code ->
  d_connectors (draw o code) = [] /\ exists heads lifes feet arrows notes, seq_drawn doc (d_shapes (draw o code)) heads lifes feet arrows notes.
Proof.
  intros H F G W. apply rows_written in W as [R L]. unfold draw, create_diagram_elements, detect_type. rewrite L.
  change (match (if starts_with "graph" (lowercase (trim "sequenceDiagram")) || starts_with "flowchart" (lowercase (trim "sequenceDiagram")) then MFlowchart else MSequence) with MFlowchart => 0 | _ => 1 end) with 1.
  cbn -[seq_shapes]. split; [reflexivity|]. apply seq_shown; auto. unfold seq_shapes. rewrite R, seq_read by exact H. reflexivity.
Qed.
