(** Entity diagrams. *)
From Coq Require Import String Ascii List Bool Arith NArith ZArith Permutation Lia.
From Verif Require Import Str Num ColorModel TableModel ShapeModel ConnectorModel ValidSpec ValidProofs FlowModel FlowSpec FlowText FlowDraw FlowThms DiagramModel DiagramSpec DiagramCommon DiagramTime DiagramWay GraphSpec GraphCommon GraphThms.
Import ListNotations.
Open Scope nat_scope.
Open Scope string_scope.

(** ** Reading *)
Definition ent (names : list string) (at_ : string -> list string) : list (string * list string) := map (fun n => (n, at_ n)) names.
Lemma ent_has n names at_ : existsb (fun e => String.eqb (fst e) n) (ent names at_) = existsb (fun x => String.eqb x n) names.
Proof. unfold ent. induction names as [|x l IH]; [reflexivity|]. cbn [map existsb fst]. now rewrite IH. Qed.
Lemma some_in' n (l : list string) : existsb (fun x => String.eqb x n) l = true <-> In n l.
Proof. rewrite <- some_eqb. apply some_in. Qed.
Lemma ent_add n names at_ rels cur : (~ In n names -> at_ n = []) -> add_entity n (Er (ent names at_) rels cur) = Er (ent (add_branch names n) at_) rels cur.
Proof.
  intros A. unfold add_entity, add_branch. cbn [er_entities er_rels er_current]. rewrite ent_has. destruct (existsb (fun x => String.eqb x n) names) eqn:E; [reflexivity|].
  f_equal. unfold ent. rewrite map_app. cbn [map]. rewrite A; [reflexivity|]. intros I. apply some_in' in I. congruence.
Qed.
Lemma ent_attr n a names at_ : add_attr n a (ent names at_) = ent names (fun m => (at_ m ++ if String.eqb n m then [a] else [])%list).
Proof.
  unfold add_attr, ent. rewrite map_map. apply map_ext. intros m. cbn [fst snd]. rewrite String.eqb_sym. destruct (String.eqb n m); [reflexivity|]. now rewrite app_nil_r.
Qed.
Lemma ent_ext names f g : (forall n, f n = g n) -> ent names f = ent names g.
Proof. intros H. apply map_ext. intros n. now rewrite H. Qed.
Lemma no_mark c p s : free c s -> contains (String c p) s = false.
Proof. intros F. rewrite contains_split. now rewrite split_free. Qed.
Lemma trim_by_free p s : sforall (fun c => negb (p c)) s = true -> trim_by p s = s.
Proof.
  intros F. unfold trim_by. assert (X : forall s, sforall (fun c => negb (p c)) s = true -> trim_start_by p s = s). { intros [|c r]; [reflexivity|]. cbn. intros Q. apply andb_prop in Q as [Q _]. apply negb_true_iff in Q. now rewrite Q. }
  rewrite (X s F). unfold trim_end_by. rewrite X by (now rewrite sforall_srev). apply srev_involutive.
Qed.
Lemma add_in x l n : In x (add_branch l n) <-> In x l \/ x = n.
Proof.
  unfold add_branch. destruct (existsb (fun y => String.eqb y n) l) eqn:E.
  - apply some_in' in E. split; [auto|]. intros [I| ->]; auto.
  - rewrite in_app_iff. cbn. intuition.
Qed.
Section Read.
Variable alpha : string -> bool.
Lemma er_parts n : er_name alpha n = true -> tidy n = true /\ without ["|"; "{"; "}"; "o"; "-"; ":"]%char n = true /\ starts_with "%%" n = false /\ alpha (n ++ " ") = true /\ alpha (" " ++ n) = true /\ alpha (" " ++ n ++ " ") = true.
Proof.
  unfold er_name. intros H. apply andb_prop in H as [H A3]. apply andb_prop in H as [H A2]. apply andb_prop in H as [H A1]. apply andb_prop in H as [H W]. apply andb_prop in H as [T F]. split; [exact T|]. split; [exact F|]. split; [|auto]. apply (not_starts ["%%"]); [exact W|now left].
Qed.
Lemma card_marks c : In c cards -> (exists m, In m er_marks /\ contains m c = true) /\ sforall (one_of ["|"; "{"; "}"; "o"; "-"]%char) c = true /\ free ":" c /\ c <> "".
Proof.
  intros I. assert (X : forallb (fun c => existsb (fun m => contains m c) er_marks && sforall (one_of ["|"; "{"; "}"; "o"; "-"]%char) c && sforall (fun x => negb (Ascii.eqb ":" x)) c && negb (String.eqb c "")) cards = true) by reflexivity.
  rewrite forallb_forall in X. specialize (X c I). apply andb_prop in X as [X N]. apply andb_prop in X as [X F]. apply andb_prop in X as [M S]. apply existsb_exists in M. split; [exact M|]. split; [exact S|]. split; [exact F|]. intros ->. discriminate.
Qed.
Lemma marks_or l : (exists m, In m er_marks /\ contains m l = true) -> contains "||" l || contains "}|" l || contains "|{" l || contains "o{" l = true.
Proof. intros (m & I & C). destruct I as [<-|[<-|[<-|[<-|[]]]]]; rewrite C; rewrite ?orb_true_r; reflexivity. Qed.
Lemma contains_mid p a s b : contains p s = true -> contains p (a ++ s ++ b) = true.
Proof. intros H. apply contains_iff in H as (u & v & ->). apply contains_iff. exists (a ++ u), (v ++ b). now rewrite !sapp_assoc. Qed.
Lemma five l s : without ["|"; "{"; "}"; "o"; "-"; ":"]%char s = true -> l = ["|"; "{"; "}"; "o"; "-"]%char -> sforall (fun c => negb (one_of l c)) s = true.
Proof. intros H ->. revert H. apply sforall_weaken. intros c Q. apply negb_true_iff in Q. apply negb_true_iff. unfold one_of. cbn [existsb] in *. repeat (apply orb_false_elim in Q as [? Q]). now rewrite !orb_false_r, H, H0, H1, H2, H3. Qed.
Lemma attrs_read names rels n l : n <> "" -> forallb (fun a => tidy a && without ["{"]%char a && not_word ["%%"] a && forallb (fun m => negb (contains m a)) er_marks && negb (String.eqb a "}")) l = true -> forall at_,
  fold_left (er_line alpha) l (Er (ent names at_) rels n) = Er (ent names (fun m => (at_ m ++ if String.eqb n m then l else [])%list)) rels n.
Proof.
  intros NE. induction l as [|a l IH]; intros H at_; [cbn [fold_left]; f_equal; apply ent_ext; intros m; destruct (String.eqb n m); now rewrite app_nil_r|].
  cbn [forallb] in H. apply andb_prop in H as [A H]. apply andb_prop in A as [A NB]. apply andb_prop in A as [A M]. apply andb_prop in A as [A W]. apply andb_prop in A as [T F]. apply negb_true_iff in NB. cbn [fold_left].
  assert (E : er_line alpha (Er (ent names at_) rels n) a = Er (ent names (fun m => (at_ m ++ if String.eqb n m then [a] else [])%list)) rels n).
  { unfold er_line. rewrite (tidy_some a T), (not_starts _ "%%" a W) by now left. cbn [orb]. rewrite forallb_forall in M.
    assert (MM : forall m, In m er_marks -> contains m a = false) by (intros m I; apply negb_true_iff; now apply M). rewrite !MM by (cbn; auto). cbn [orb]. rewrite (split_free "{" "") by now apply (free_of a _ "{" F). rewrite NB. cbn [er_current er_entities er_rels].
    destruct (String.eqb_spec n ""); [congruence|]. now rewrite ent_attr. }
  rewrite E, IH by exact H. f_equal. apply ent_ext. intros m. rewrite <- app_assoc. now destruct (String.eqb n m).
Qed.
Definition er_adds (it : er_item) (n : string) : list string := match it with Entity m l => if String.eqb m n then l else [] | _ => [] end.
Definition er_says (it : er_item) : list string := match it with Entity n _ => [n] | Bond a _ b _ => [a; b] | EAside _ => [] end.
Definition er_ties (it : er_item) : list (string * string * option string) := match it with Bond a _ b l => [(a, b, l)] | _ => [] end.
Lemma er_read_item it names at_ rels : er_ok alpha it = true -> (forall n, ~ In n names -> at_ n = []) ->
  fold_left (er_line alpha) (er_text it) (Er (ent names at_) rels "") = Er (ent (fold_left add_branch (er_says it) names) (fun n => (at_ n ++ er_adds it n)%list)) (rels ++ map (fun m => (fst m, text_of (snd m))) (er_ties it)) "".
Proof.
  intros O A. destruct it as [n l|a c b l|t]; cbn [er_ok er_text er_says er_ties er_adds map] in *.
  - apply andb_prop in O as [N M]. destruct (er_parts n N) as (T & F & P & _). cbn [fold_left].
    assert (NE : n <> "") by (intros ->; discriminate).
    assert (E : er_line alpha (Er (ent names at_) rels "") (n ++ " {") = Er (ent (add_branch names n) at_) rels n).
    { unfold er_line. assert (N0 : String.eqb (n ++ " {") "" = false) by (destruct n; [congruence|reflexivity]). rewrite N0. change " {" with (String " " "{") at 1. rewrite (not_start "%%" n " ") by (assumption || reflexivity). cbn [orb].
      assert (FF : forall x, existsb (Ascii.eqb x) ["|"; "}"; "o"]%char = true -> free x (n ++ " {")).
      { intros x X. rewrite sforall_app, (free_of n _ x F). 2:{ cbn [existsb] in *. repeat (apply orb_prop in X as [X|X]); [rewrite X; reflexivity|rewrite X, !orb_true_r; reflexivity|rewrite X, !orb_true_r; reflexivity|discriminate]. }
        cbn [existsb] in X. repeat (apply orb_prop in X as [X|X]); try discriminate; apply Ascii.eqb_eq in X; subst x; reflexivity. }
      rewrite (no_mark "|" "|"), (no_mark "}" "|"), (no_mark "|" "{"), (no_mark "o" "{") by now apply FF. cbn [orb].
      replace (n ++ " {") with ((n ++ " ") ++ "{") by (now rewrite sapp_assoc). rewrite (split_end "{" "") by (rewrite sforall_app, (free_of n _ "{" F) by reflexivity; reflexivity). rewrite trim_after by now apply tidy_solid. rewrite ent_add by apply A. reflexivity. }
    rewrite E, fold_left_app, attrs_read by assumption. rewrite app_nil_r. reflexivity.
  - apply andb_prop in O as [O L]. apply andb_prop in O as [O C]. apply andb_prop in O as [XA XB]. apply some_in in C. destruct (card_marks c C) as (CM & CS & CC & CN). destruct (er_parts a XA) as (Ta & Fa & Pa & A1 & A2 & A3). destruct (er_parts b XB) as (Tb & Fb & Pb & B1 & B2 & B3). cbn [fold_left].
    set (tail := match l with Some x => " : " ++ x | None => "" end). unfold er_line at 1.
    assert (N0 : String.eqb (a ++ " " ++ c ++ " " ++ b ++ tail) "" = false). { destruct (tidy_solid _ Ta) as [(z & y & -> & _) _]. reflexivity. }
    rewrite N0. change (" " ++ c ++ " " ++ b ++ tail) with (String " " (c ++ " " ++ b ++ tail)) at 1. rewrite (not_start "%%" a " ") by (assumption || reflexivity). cbn [orb].
    rewrite marks_or. 2:{ destruct CM as (m & I & Q). exists m. split; [exact I|]. replace (a ++ " " ++ c ++ " " ++ b ++ tail) with ((a ++ " ") ++ c ++ (" " ++ b ++ tail)) by (now rewrite !sapp_assoc). now apply contains_mid. }
    assert (P5 : forall x, without ["|"; "{"; "}"; "o"; "-"; ":"]%char x = true -> sforall (fun q => negb (one_of ["|"; "{"; "}"; "o"; "-"]%char q)) x = true) by (intros x Q; now apply five).
    assert (ADD : add_entity b (add_entity a (Er (ent names at_) rels "")) = Er (ent (add_branch (add_branch names a) b) at_) rels "").
    { rewrite ent_add by apply A. rewrite ent_add; [reflexivity|]. intros N. apply A. intros I. apply N. apply add_in. now left. }
    assert (OUT : forall lab, Er (ent (add_branch (add_branch names a) b) at_) (rels ++ [(a, b, lab)]) "" = Er (ent (add_branch (add_branch names a) b) (fun n => (at_ n ++ [])%list)) (rels ++ [(a, b, lab)]) "") by (intros; f_equal; apply ent_ext; intros m; now rewrite app_nil_r).
    unfold tail. destruct l as [x|]; cbn [text_of fst snd].
    + apply andb_prop in L as [Tx Fx]. replace (a ++ " " ++ c ++ " " ++ b ++ " : " ++ x) with ((a ++ " " ++ c ++ " " ++ b ++ " ") ++ ":" ++ (" " ++ x)) by (now rewrite !sapp_assoc).
      rewrite (split_after ":" "") by (rewrite !sforall_app, (free_of a _ ":" Fa), (free_of b _ ":" Fb), CC by reflexivity; reflexivity). rewrite (tidy_before x Tx).
      rewrite (trim_by_free (Ascii.eqb DQ)) by apply (free_of x _ """" Fx eq_refl). rewrite (trim_by_free (Ascii.eqb SQ)) by apply (free_of x _ "'" Fx eq_refl).
      replace (a ++ " " ++ c ++ " " ++ b ++ " ") with ((a ++ " ") ++ c ++ (" " ++ b ++ " ")) by (now rewrite !sapp_assoc).
      rewrite two_parts; [|rewrite sforall_app, (P5 a Fa); reflexivity|rewrite !sforall_app, (P5 b Fb); reflexivity|exact CS|exact CN| | |reflexivity].
      * cbn [last]. rewrite trim_after by now apply tidy_solid. rewrite trim_before, trim_after by now apply tidy_solid. rewrite ADD. cbn [er_entities er_rels er_current]. apply OUT.
      * rewrite A1. destruct a; reflexivity.
      * rewrite B3. reflexivity.
    + rewrite sapp_nil_r. rewrite (split_free ":" "") by (rewrite !sforall_app, (free_of a _ ":" Fa), (free_of b _ ":" Fb), CC by reflexivity; reflexivity).
      replace (a ++ " " ++ c ++ " " ++ b) with ((a ++ " ") ++ c ++ (" " ++ b)) by (now rewrite !sapp_assoc).
      rewrite two_parts; [|rewrite sforall_app, (P5 a Fa); reflexivity|rewrite !sforall_app, (P5 b Fb); reflexivity|exact CS|exact CN| | |reflexivity].
      * cbn [last]. rewrite trim_after by now apply tidy_solid. rewrite (tidy_before b Tb). rewrite ADD. cbn [er_entities er_rels er_current]. apply OUT.
      * rewrite A1. destruct a; reflexivity.
      * rewrite B2. reflexivity.
  - unfold er_line. cbn [fold_left]. rewrite O. f_equal; [apply ent_ext; intros m; now rewrite app_nil_r|now rewrite app_nil_r].
Qed.
Lemma er_read doc : forallb (er_ok alpha) doc = true -> forall names at_ rels, (forall n, ~ In n names -> at_ n = []) ->
  fold_left (er_line alpha) (flat_map er_text doc) (Er (ent names at_) rels "") = Er (ent (fold_left add_branch (er_mentions doc) names) (fun n => (at_ n ++ flat_map (fun it => er_adds it n) doc)%list)) (rels ++ map (fun m => (fst m, text_of (snd m))) (bonds doc)) "".
Proof.
  induction doc as [|it doc IH]; intros H names at_ rels A.
  - cbn [flat_map fold_left er_mentions bonds map]. rewrite app_nil_r. f_equal. apply ent_ext. intros n. now rewrite app_nil_r.
  - cbn [forallb] in H. apply andb_prop in H as [I H]. cbn [flat_map]. rewrite fold_left_app, er_read_item by assumption. rewrite IH; [|exact H|].
    + unfold er_mentions. cbn [flat_map]. fold (er_says it). fold (er_mentions doc). rewrite fold_left_app. unfold bonds at 2. cbn [flat_map]. fold (er_ties it). fold (bonds doc). rewrite map_app, <- app_assoc. f_equal. apply ent_ext. intros n. now rewrite <- app_assoc.
    + intros n N. assert (M : forall l names, ~ In n (fold_left add_branch l names) -> ~ In n names /\ ~ In n l).
      { clear. induction l as [|x l IH]; intros names N; [auto|]. cbn [fold_left] in N. apply IH in N as [N1 N2]. rewrite add_in in N1. cbn. intuition. }
      apply M in N as [N1 N2]. rewrite (A n N1). cbn [app]. destruct it as [m l| |]; [|reflexivity|reflexivity]. cbn [er_adds er_says] in *. destruct (String.eqb_spec m n); [subst; cbn in N2; tauto|reflexivity].
Qed.
Lemma er_read_all doc : forallb (er_ok alpha) doc = true -> fold_left (er_line alpha) (flat_map er_text doc) (Er [] [] "") = Er (entities doc) (map (fun m => (fst m, text_of (snd m))) (bonds doc)) "".
Proof.
  intros H. change (Er [] [] "") with (Er (ent [] (fun _ => [])) [] ""). rewrite er_read by auto. cbn [app]. unfold add_branch. rewrite (early_fold (fun b => b)). reflexivity.
Qed.
End Read.

(** ** Drawing *)
Definition ecx (k : nat) : N := cx 500000 2800000 k.
Definition ecy (k : nat) : N := cy 1600000 2500000 k.
Definition ehead (ke : nat * (string * list string)) : shape := with_text (fst (snd ke)) (with_line "880E4F" 2 (with_fill "C2185B" (with_id (N.of_nat (10 + 2 * fst ke)) (shape_new KRectangle (ecx (fst ke)) (ecy (fst ke)) 2200000 400000)))).
Definition ebody (ke : nat * (string * list string)) : shape := with_text (sjoin nl (snd (snd ke))) (with_line "880E4F" 1 (with_fill "FCE4EC" (with_id (N.of_nat (11 + 2 * fst ke)) (shape_new KRectangle (ecx (fst ke)) (add (ecy (fst ke)) 400000) 2200000 (mul (idx (Nat.max (length (snd (snd ke))) 1)) 280000))))).
Lemma entities_put l : forall start a, start + length l <= 1000 -> a_next a = N.of_nat (10 + 2 * start) ->
  fold_left put_entity (combine (seq start (length l)) l) a =
  Anchors (a_shapes a ++ flat_map (fun ke => [ehead ke; ebody ke]) (combine (seq start (length l)) l)) (rev (map (fun ke => (fst (snd ke), (ecx (fst ke), ecy (fst ke)))) (combine (seq start (length l)) l)) ++ a_pos a)
    (rev (map (fun ke => (fst (snd ke), N.of_nat (10 + 2 * fst ke))) (combine (seq start (length l)) l)) ++ a_ids a) (N.of_nat (10 + 2 * (start + length l))).
Proof.
  induction l as [|[n ms] l IH]; intros start a L A.
  - cbn [length seq combine map rev app flat_map fold_left]. rewrite app_nil_r, Nat.add_0_r, <- A. now destruct a.
  - cbn [length] in *. cbn [seq combine fold_left].
    assert (E1 : add (a_next a) 1 = N.of_nat (11 + 2 * start)) by (rewrite A, add_exact by lia; lia).
    rewrite IH; [|lia|].
    + cbn [put_entity a_shapes a_pos a_ids map rev flat_map fst snd]. rewrite <- !app_assoc. cbn [app]. f_equal.
      * f_equal. unfold ehead, ebody. cbn [fst snd]. rewrite E1, A. reflexivity.
      * rewrite A. reflexivity.
      * f_equal. lia.
    + cbn [put_entity a_next fst snd]. rewrite E1, add_exact by lia. lia.
Qed.
Lemma er_all o doc code : (forall l, Permutation (o_entities o l) l) -> forallb (er_ok (o_alpha o)) doc = true -> few (entities doc) -> Forall (fun e => few (snd e)) (entities doc) -> few (bonds doc) -> writes "erDiagram" (flat_map er_text doc) code ->
  exists es heads bodies labels, er_drawn doc (d_shapes (draw o code)) (d_connectors (draw o code)) es heads bodies labels.
Proof.
  intros OP H FE FA FB W. apply rows_written in W as [R L]. assert (D : draw o code = er_drawing (o_alpha o) (o_entities o) code). { unfold draw, create_diagram_elements, detect_type. rewrite L. reflexivity. }
  rewrite D. unfold er_drawing. rewrite R, er_read_all by exact H. cbn [er_entities er_rels]. set (es := o_entities o (entities doc)). assert (PE : Permutation es (entities doc)) by apply OP.
  assert (LE : length es <= 1000) by (rewrite (Permutation_length PE); exact FE). assert (LB : length (bonds doc) <= 1000) by exact FB.
  assert (NM : map fst (entities doc) = earliest (fun n => n) [] (er_mentions doc)) by (unfold entities; rewrite map_map; apply map_id).
  assert (ND : NoDup (map fst es)). { apply (Permutation_NoDup (Permutation_sym (Permutation_map fst PE))). rewrite NM. rewrite <- (map_id (earliest _ _ _)). apply (early_nodup (fun n => n)). }
  unfold numbered. rewrite entities_put by (cbn; lia || reflexivity). cbn [a_shapes a_pos a_ids app]. fold (numbered es). rewrite !app_nil_r. set (heads := map ehead (numbered es)). set (bodies := map ebody (numbered es)).
  set (pos := rev (map _ (numbered es))). set (ids := rev (map (fun ke => (fst (snd ke), N.of_nat (10 + 2 * fst ke))) (numbered es))). set (shs := flat_map _ (numbered es)).
  assert (KP : map fst (map (fun ke : nat * (string * list string) => (fst (snd ke), (ecx (fst ke), ecy (fst ke)))) (numbered es)) = map fst es) by (rewrite map_map; cbn [fst]; apply (num_map fst es)).
  assert (KI : map fst (map (fun ke : nat * (string * list string) => (fst (snd ke), N.of_nat (10 + 2 * fst ke))) (numbered es)) = map fst es) by (rewrite map_map; cbn [fst]; apply (num_map fst es)).
  assert (YB : forall k, k < length es -> (500000 <= ecx k <= 9000000 /\ 1600000 <= ecy k <= 1002000000)%N). { intros k K. destruct (cell_small 500000 1600000 2800000 2500000 k) as [[X1 X] [X2 Y]]; [lia|lia|lia|lia|lia|]. unfold ecx, ecy. lia. }
  assert (HB : forall i n, nth_error (map fst es) i = Some n -> exists b k, nth_error heads i = Some b /\ lookup n pos = Some (sh_x b, sh_y b) /\ sh_id b = Some k /\ lookup n ids = Some k /\ sh_w b = 2200000%N /\ sh_h b = 400000%N /\ (500000 <= sh_x b <= 1100000000)%N /\ (500000 <= sh_y b <= 1100000000)%N).
  { intros i n E. rewrite nth_error_map in E. destruct (nth_error es i) as [[n' l]|] eqn:Q; [|discriminate]. injection E as ->. assert (I : i < length es) by (apply nth_error_Some; congruence).
    exists (ehead (i, (n, l))), (N.of_nat (10 + 2 * i)). split; [apply map_nth_error; now apply num_nth|]. split; [apply lookup_rev; [rewrite KP; exact ND|]; apply in_map_iff; exists (i, (n, l)); split; [reflexivity|now apply num_in]|].
    split; [reflexivity|]. split; [apply lookup_rev; [rewrite KI; exact ND|]; apply in_map_iff; exists (i, (n, l)); split; [reflexivity|now apply num_in]|]. split; [reflexivity|]. split; [reflexivity|].
    change (sh_x (ehead (i, (n, l)))) with (ecx i). change (sh_y (ehead (i, (n, l)))) with (ecy i). specialize (YB i I). lia. }
  assert (HS : forall i j a b, nth_error heads i = Some a -> nth_error heads j = Some b -> sh_x a = sh_x b -> sh_y a = sh_y b -> a = b).
  { intros i j a b A B X Y. apply nth_num in A as (n & A & ->), B as (m & B & ->). assert (i < length es) by (apply nth_error_Some; congruence). assert (j < length es) by (apply nth_error_Some; congruence).
    assert (i = j) by (apply (cells_same 500000 1600000 2800000 2500000); try lia; assumption). subst j. congruence. }
  assert (KN : Forall (fun m : string * string * option string => In (fst (fst m)) (map fst es) /\ In (snd (fst m)) (map fst es) /\ match snd m with Some x => x <> "" | None => True end) (bonds doc)).
  { apply Forall_forall. intros [[f t] l] I. unfold bonds in I. apply in_flat_map in I as (it & I & M). destruct it as [|f' c t' l'|]; [destruct M| |destruct M]. destruct M as [M|[]]. injection M as <- <- <-.
    assert (X : forall q, In q (er_says (Bond f' c t' l')) -> In q (map fst es)). { intros q Q. apply (Permutation_in q (Permutation_sym (Permutation_map fst PE))). rewrite NM. destruct (early_has (fun n => n) [] (er_mentions doc) q) as (b & B & E); [apply in_flat_map; eexists; split; [exact I|exact Q]|auto|]. now subst b. }
    cbn [fst snd]. split; [apply X; now left|]. split; [apply X; now (right; left)|]. rewrite forallb_forall in H. specialize (H _ I). cbn [er_ok] in H. apply andb_prop in H as [_ H]. destruct l' as [x|]; [|trivial]. intros ->. discriminate. }
  destruct (links_put "FFFFFF" "880E4F" "880E4F" Diamond 1000000 2200000 400000 (map fst es) heads pos ids) with (links := bonds doc) (shs := shs) (n := 10 + 2 * length es) (cns := @nil connector) as (labels & lines & E & K & B & ID); try lia; try assumption; try reflexivity.
  change put_er with (put_link "FFFFFF" "880E4F" "880E4F" Diamond 1000000 2200000 400000). rewrite Nat.add_0_l. rewrite E. cbn [app].
  exists es, heads, bodies, labels. unfold from_shapes_and_connectors. cbn [d_shapes d_connectors a_shapes].
  assert (PS : Permutation shs (heads ++ bodies)) by apply flat2.
  assert (LA : forall k e, nth_error es k = Some e -> length (snd e) <= 1000). { intros k e Q. apply nth_error_In in Q. rewrite Forall_forall in FA. apply (FA e). now apply (Permutation_in e PE). }
  assert (ST : forall k e, nth_error es k = Some e -> stacked (ehead (k, e)) (ebody (k, e))).
  { intros k e Q. assert (I : k < length es) by (apply nth_error_Some; congruence). unfold stacked, ehead, ebody, bottom_of. cbn [sh_x sh_y sh_w sh_h with_text with_line with_fill with_id shape_new fst snd]. specialize (YB k I). rewrite add_exact by lia. auto. }
  constructor.
  - exact PE.
  - rewrite app_assoc. now apply Permutation_app_tail.
  - unfold heads. rewrite map_map. apply (num_map (fun e => Some (fst e)) es).
  - unfold bodies. rewrite map_map. apply (num_map (fun e => Some (sjoin nl (snd e))) es).
  - apply both_map, num_forall. intros k e _ Q. now apply ST.
  - apply (own_seq 10 (2 * length es + length labels)). rewrite map_app, ID, seq_app, map_app. f_equal. unfold shs. rewrite flat_map_concat_map, concat_map, map_map, <- flat_map_concat_map. apply (num_ids _ 2 es). intros k e. cbn [map ehead ebody sh_id with_text with_line with_fill with_id fst snd seq]. repeat (f_equal; [f_equal; lia|]). reflexivity.
  - exact K.
  - exact B.
  - intros SH. apply (fop_perm clear clear_sym _ _ PS). unfold shs.
    assert (TOP : forall k e, nth_error es k = Some e -> Forall (fun s => sh_x s = ecx k /\ sh_w s = 2200000 /\ ecy k <= sh_y s /\ bottom_of s <= ecy k + 2360000)%N [ehead (k, e); ebody (k, e)]).
    { intros k e Q. destruct (ST k e Q) as (_ & _ & Y1). assert (SE : length (snd e) <= 7). { rewrite Forall_forall in SH. apply SH. apply nth_error_In in Q. now apply (Permutation_in e PE). }
      assert (HH : sh_h (ebody (k, e)) = (N.of_nat (Nat.max (length (snd e)) 1) * 280000)%N). { cbn [ebody sh_h with_text with_line with_fill with_id shape_new fst snd]. rewrite idxe by lia. apply mul_exact. lia. }
      constructor; [|constructor; [|constructor]]; unfold bottom_of in *; rewrite ?HH, ?Y1; change (sh_y (ehead (k, e))) with (ecy k); change (sh_h (ehead (k, e))) with 400000%N; (split; [reflexivity|]; split; [reflexivity|]; split; lia). }
    apply fop_flat.
    + apply num_pairs. intros i j a b IJ EA EB. pose proof (TOP i a EA) as TA. pose proof (TOP j b EB) as TB. assert (j < length es) by (apply nth_error_Some; congruence). revert TA. apply Forall_impl. intros s (X1 & X2 & X3 & X4). revert TB. apply Forall_impl. intros t (Z1 & Z2 & Z3 & Z4).
      apply (parts_clear 500000 1600000 2800000 2500000 2200000 2360000 i j); try lia; assumption.
    + apply num_forall. intros k e _ Q. destruct (ST k e Q) as (_ & _ & Y1). constructor; [constructor; [|constructor]|constructor; constructor]. right; right; left. unfold over. lia.
Qed.
