(** State, class and entity diagrams. *)
From Coq Require Import String Ascii List Bool Arith NArith ZArith Permutation Lia.
From Verif Require Import Str Num ColorModel TableModel ShapeModel ConnectorModel ValidSpec ValidProofs FlowModel FlowSpec FlowText FlowDraw FlowThms DiagramModel DiagramSpec DiagramCommon DiagramTime DiagramWay GraphSpec GraphCommon.
Import ListNotations.
Open Scope nat_scope.
Open Scope string_scope.

Lemma free_of s l c : without l s = true -> existsb (Ascii.eqb c) l = true -> free c s.
Proof. apply not_free. Qed.
Lemma absent_contains p s : contains p s = false -> split_once p s = None.
Proof. rewrite contains_split. destruct (split_once p s); [discriminate|reflexivity]. Qed.
Lemma nth_num {A B} (f : nat * A -> B) l i b : nth_error (map f (numbered l)) i = Some b -> exists a, nth_error l i = Some a /\ b = f (i, a).
Proof.
  rewrite nth_error_map. intros E. destruct (nth_error (numbered l) i) as [[k a]|] eqn:Q; [|discriminate]. injection E as <-.
  assert (L : i < length (numbered l)) by (apply nth_error_Some; congruence). unfold numbered in L. rewrite combine_length, seq_length, Nat.min_id in L.
  destruct (nth_error l i) as [a'|] eqn:A'; [|apply nth_error_None in A'; lia]. rewrite (num_nth l i a' A') in Q. injection Q as <- <-. now exists a'.
Qed.
Lemma num_ids f m l : (forall k a, f (k, a) = map (fun i => Some (N.of_nat i)) (seq (10 + m * k) m)) -> flat_map f (numbered l) = map (fun i => Some (N.of_nat i)) (seq 10 (m * length (l : list (string * list string)))).
Proof.
  intros H. unfold numbered. assert (X : forall s l, flat_map f (combine (seq s (length l)) l) = map (fun i => Some (N.of_nat i)) (seq (10 + m * s) (m * length l))).
  { intros s l'. revert s. induction l' as [|a l' IH]; intros s; [cbn; now rewrite Nat.mul_0_r|]. cbn [length seq combine flat_map]. rewrite H, IH, <- map_app. f_equal. replace (m * S (length l')) with (m + m * length l') by lia. rewrite seq_app. do 2 f_equal. lia. }
  rewrite X. do 2 f_equal. lia.
Qed.

(** ** Reading state diagrams *)
Lemma spot_parts s : spot_ok s = true -> tidy (spot_text s) = true /\ free "-" (spot_text s) /\ free ":" (spot_text s) /\ starts_with "%%" (spot_text s) = false /\ starts_with "direction" (spot_text s) = false.
Proof.
  destruct s as [n|]; cbn [spot_ok spot_text]; intros H; [|repeat split].
  apply andb_prop in H as [H _]. apply andb_prop in H as [H W]. apply andb_prop in H as [T F]. split; [exact T|]. split; [now apply (free_of n _ "-" F)|]. split; [now apply (free_of n _ ":" F)|]. split; apply (not_starts ["%%"; "direction"]); cbn; auto.
Qed.
Lemma spot_names s : spot_ok s = true -> (if String.eqb (spot_text s) "[*]" then "Start" else spot_text s) = from_name s /\ (if String.eqb (spot_text s) "[*]" then "End" else spot_text s) = to_name s.
Proof.
  destruct s as [n|]; cbn [spot_ok spot_text from_name to_name]; intros H; [|split; reflexivity]. apply andb_prop in H as [_ H]. apply negb_true_iff in H. cbn [existsb] in H. apply orb_false_elim in H as [-> _]. auto.
Qed.
Definition state_effect (s : states) (it : state_item) : states :=
  match it with
  | Move f t l => let s := add_state (to_name t) (add_state (from_name f) s) in States (st_names s) (st_moves s ++ [(from_name f, to_name t, text_of l)])%list
  | SAside _ => s
  end.
Lemma state_read_line s it : state_ok it = true -> state_line s (state_text it) = state_effect s it.
Proof.
  destruct it as [f t l|x]; cbn [state_ok state_text state_effect]; intros H.
  - apply andb_prop in H as [H L]. apply andb_prop in H as [F T]. destruct (spot_parts f F) as (Tf & Df & Cf & Pf & Rf). destruct (spot_parts t T) as (Tt & Dt & Ct & _ & _). destruct (spot_names f F) as [NF _]. destruct (spot_names t T) as [_ NT].
    set (r := spot_text t ++ match l with Some x => " : " ++ x | None => "" end). unfold state_line.
    assert (NE : String.eqb (spot_text f ++ " --> " ++ r) "" = false). { destruct (tidy_solid _ Tf) as [(c & x & -> & _) _]. reflexivity. }
    rewrite NE. change (" --> " ++ r) with (String " " ("--> " ++ r)). rewrite !not_start by (assumption || reflexivity). cbn [orb].
    replace (spot_text f ++ String " " ("--> " ++ r)) with ((spot_text f ++ " ") ++ "-->" ++ (" " ++ r)) by (now rewrite sapp_assoc).
    rewrite (split_after "-" "->") by (rewrite sforall_app, Df; reflexivity).
    assert (NR : split_once "-->" (" " ++ r) = None).
    { unfold r. rewrite (split_skip "-" "->" " ") by reflexivity. rewrite (split_skip "-" "->" (spot_text t)) by exact Dt. destruct l as [x|]; [|reflexivity]. rewrite (split_skip "-" "->" " : ") by reflexivity. apply andb_prop in L as [_ L]. apply negb_true_iff in L. now rewrite (absent_contains _ _ L). }
    rewrite NR. rewrite trim_after by now apply tidy_solid. rewrite NF.
    assert (SP : match split_once ":" (" " ++ r) with Some (u, m) => (trim u, trim m) | None => (trim (" " ++ r), "") end = (spot_text t, text_of l)).
    { unfold r. destruct l as [x|]; cbn [text_of].
      - apply andb_prop in L as [L _]. replace (" " ++ spot_text t ++ " : " ++ x) with ((" " ++ spot_text t ++ " ") ++ ":" ++ (" " ++ x)) by (now rewrite !sapp_assoc). rewrite (split_after ":" "") by (rewrite !sforall_app, Ct; reflexivity).
        rewrite trim_before, trim_after by now apply tidy_solid. now rewrite tidy_before.
      - rewrite sapp_nil_r. rewrite (split_free ":" "") by (rewrite sforall_app, Ct; reflexivity). now rewrite tidy_before. }
    rewrite SP. rewrite NT. reflexivity.
  - unfold state_line. destruct (String.eqb x ""); [reflexivity|]. destruct (starts_with "%%" x); [reflexivity|]. destruct (starts_with "direction" x); [reflexivity|]. cbn [orb] in *. apply negb_true_iff in H. now rewrite (absent_contains _ _ H).
Qed.
Definition spot_list (it : state_item) : list string := match it with Move f t _ => [from_name f; to_name t] | SAside _ => [] end.
Lemma state_fold doc : forall s, fold_left state_effect doc s =
  States (fold_left add_branch (flat_map spot_list doc) (st_names s)) (st_moves s ++ map (fun m => (fst m, text_of (snd m))) (moves doc))%list.
Proof.
  induction doc as [|it doc IH]; intros s; [cbn; rewrite app_nil_r; now destruct s|]. cbn [fold_left flat_map]. rewrite IH, fold_left_app. clear IH. destruct it as [f t l|x]; cbn [state_effect spot_list moves flat_map fold_left]; [|reflexivity].
  unfold add_state, add_branch. rewrite !some_eqb. destruct (existsb (fun x => String.eqb x (from_name f)) (st_names s)); cbn [st_names st_moves]; rewrite ?some_eqb;
    (destruct (existsb (fun x => String.eqb x (to_name t)) _); cbn [st_names st_moves]; f_equal; rewrite <- app_assoc; reflexivity).
Qed.
Lemma state_read doc : forallb state_ok doc = true -> fold_left state_line (map state_text doc) (States [] []) = States (state_names doc) (map (fun m => (fst m, text_of (snd m))) (moves doc)).
Proof.
  intros H. assert (E : map state_text doc = flat_map (fun i => [state_text i]) doc) by (clear; induction doc; cbn; congruence). rewrite E.
  rewrite (fold_items state_line (fun i => [state_text i]) state_effect state_ok); [|intros s i O; now apply state_read_line|exact H].
  rewrite state_fold. cbn [st_names st_moves app]. unfold add_branch. f_equal. rewrite (early_fold (fun b => b)). reflexivity.
Qed.

(** ** Drawing state diagrams *)
Definition marked (n : string) : bool := String.eqb n "Start" || String.eqb n "End".
Definition sbox (kn : nat * string) : shape :=
  with_text (snd kn) (with_line "00838F" 2 (with_fill (if marked (snd kn) then "000000" else "E0F7FA") (with_id (N.of_nat (10 + fst kn))
    (shape_new (if marked (snd kn) then KEllipse else KRoundedRectangle) (cx 1000000 2200000 (fst kn)) (cy 1800000 1200000 (fst kn)) 1500000 500000)))).
Lemma states_put l : forall start a, start + length l <= 1000 -> a_next a = N.of_nat (10 + start) ->
  fold_left put_state (combine (seq start (length l)) l) a =
  Anchors (a_shapes a ++ map sbox (combine (seq start (length l)) l)) (rev (map (fun kn => (snd kn, (cx 1000000 2200000 (fst kn), cy 1800000 1200000 (fst kn)))) (combine (seq start (length l)) l)) ++ a_pos a)
    (rev (map (fun kn => (snd kn, N.of_nat (10 + fst kn))) (combine (seq start (length l)) l)) ++ a_ids a) (N.of_nat (10 + start + length l)).
Proof.
  induction l as [|n l IH]; intros start a L A.
  - cbn [length seq combine map rev app fold_left]. rewrite app_nil_r, Nat.add_0_r, <- A. now destruct a.
  - cbn [length] in *. cbn [seq combine fold_left]. rewrite IH; [|lia|].
    + cbn [put_state a_shapes a_pos a_ids map rev fst snd]. rewrite <- !app_assoc. cbn [app]. f_equal; [|rewrite A; reflexivity|f_equal; lia]. unfold sbox at 2. cbn [fst snd]. rewrite A. reflexivity.
    + cbn [put_state a_next]. rewrite A. rewrite add_exact by lia. lia.
Qed.
Lemma state_all o doc code : forallb state_ok doc = true -> few (state_names doc) -> few (moves doc) -> writes "stateDiagram-v2" (map state_text doc) code ->
  exists boxes labels, state_drawn doc (d_shapes (draw o code)) (d_connectors (draw o code)) boxes labels.
Proof.
  intros H FN FM W. apply rows_written in W as [R L]. assert (D : draw o code = state_drawing code). { unfold draw, create_diagram_elements, detect_type. rewrite L. reflexivity. }
  rewrite D. unfold state_drawing. rewrite R, state_read by exact H. cbn [st_names st_moves]. set (names := state_names doc) in *. assert (LN : length names <= 1000) by exact FN. assert (LM : length (moves doc) <= 1000) by exact FM.
  assert (ND : NoDup names). { unfold names, state_names. rewrite <- (map_id (earliest _ _ _)). apply (early_nodup (fun n => n)). }
  unfold numbered. rewrite states_put by (cbn; lia || reflexivity). cbn [a_shapes a_pos a_ids app]. fold (numbered names). rewrite !app_nil_r. set (boxes := map sbox (numbered names)).
  set (pos := rev (map _ (numbered names))). set (ids := rev (map (fun kn => (snd kn, N.of_nat (10 + fst kn))) (numbered names))).
  assert (HB : forall i n, nth_error names i = Some n -> exists b k, nth_error boxes i = Some b /\ lookup n pos = Some (sh_x b, sh_y b) /\ sh_id b = Some k /\ lookup n ids = Some k /\ sh_w b = 1500000%N /\ sh_h b = 500000%N /\ (500000 <= sh_x b <= 1100000000)%N /\ (500000 <= sh_y b <= 1100000000)%N).
  { intros i n E. exists (sbox (i, n)), (N.of_nat (10 + i)). assert (I : i < length names) by (apply nth_error_Some; congruence). split; [apply map_nth_error; now apply num_nth|]. split.
    - apply lookup_rev; [rewrite map_map; cbn [fst]; rewrite (num_map (fun n => n) names), map_id; exact ND|]. apply in_map_iff. exists (i, n). split; [reflexivity|now apply num_in].
    - split; [reflexivity|]. split; [apply lookup_rev; [rewrite map_map; cbn [fst]; rewrite (num_map (fun n => n) names), map_id; exact ND|]; apply in_map_iff; exists (i, n); split; [reflexivity|now apply num_in]|].
      split; [reflexivity|]. split; [reflexivity|]. unfold sbox. cbn [sh_x sh_y with_text with_line with_fill with_id shape_new fst snd].
      destruct (cell_small 1000000 1800000 2200000 1200000 i) as [[X1 X2] [X3 X4]]; lia. }
  assert (HS : forall i j a b, nth_error boxes i = Some a -> nth_error boxes j = Some b -> sh_x a = sh_x b -> sh_y a = sh_y b -> a = b).
  { intros i j a b A B X Y. apply nth_num in A as (n & A & ->), B as (m & B & ->). assert (i < length names) by (apply nth_error_Some; congruence). assert (j < length names) by (apply nth_error_Some; congruence).
    assert (i = j) by (apply (cells_same 1000000 1800000 2200000 1200000); try lia; assumption). subst j. congruence. }
  assert (KN : Forall (fun m : string * string * option string => In (fst (fst m)) names /\ In (snd (fst m)) names /\ match snd m with Some x => x <> "" | None => True end) (moves doc)).
  { apply Forall_forall. intros [[f t] l] I. unfold moves in I. apply in_flat_map in I as (it & I & M). destruct it as [f' t' l'|]; [|destruct M]. destruct M as [M|[]]. injection M as <- <- <-.
    assert (X : forall q, In q (spot_list (Move f' t' l')) -> In q names). { intros q Q. destruct (early_has (fun n => n) [] (flat_map spot_list doc) q) as (b & B & E); [apply in_flat_map; eexists; split; [exact I|exact Q]|auto|]. now subst b. }
    cbn [fst snd]. split; [apply X; now left|]. split; [apply X; now (right; left)|]. rewrite forallb_forall in H. specialize (H _ I). cbn in H. apply andb_prop in H as [_ H]. destruct l' as [x|]; [|trivial]. intros ->. discriminate. }
  destruct (links_put "FFFDE7" "00838F" "00838F" Triangle 800000 1500000 500000 names boxes pos ids) with (links := moves doc) (shs := boxes) (n := 10 + length names) (cns := @nil connector) as (labels & lines & E & K & B & ID); try lia; try assumption; try reflexivity.
  change put_move with (put_link "FFFDE7" "00838F" "00838F" Triangle 800000 1500000 500000). rewrite Nat.add_0_r. rewrite E. cbn [app].
  exists boxes, labels. unfold from_shapes_and_connectors. cbn [d_shapes d_connectors a_shapes]. constructor.
  - reflexivity.
  - unfold boxes. rewrite map_map. fold names. rewrite <- (num_map (fun n => (Some n, if String.eqb n "Start" || String.eqb n "End" then "ellipse" else "roundRect")) names). apply map_ext. intros [k n]. unfold sbox, marked. cbn [fst snd sh_text sh_type with_text with_line with_fill with_id shape_new]. now destruct (String.eqb n "Start" || String.eqb n "End").
  - exact K.
  - exact B.
  - apply (own_seq 10 (length names + length labels)). rewrite map_app, ID, seq_app, map_app. f_equal. unfold boxes. rewrite map_map. unfold numbered.
    assert (X : forall s l, map (fun kn => sh_id (sbox kn)) (combine (seq s (length l)) l) = map (fun k => Some (N.of_nat k)) (seq (10 + s) (length l))).
    { intros s l. revert s. induction l as [|n l IH]; intros s; [reflexivity|]. cbn [length seq combine map]. rewrite IH. cbn [sbox sh_id with_text with_line with_fill with_id fst]. rewrite ?Nat.add_succ_r. reflexivity. }
    apply (X 0 names).
  - unfold boxes. apply pairs_map, num_pairs. intros i j a b IJ _ _. apply (parts_clear 1000000 1800000 2200000 1200000 1500000 500000 i j); try lia; try reflexivity.
Qed.

(** ** Splitting at the characters of a set *)
Lemma split_by_sep p a c s : sforall (fun x => negb (p x)) a = true -> p c = true -> split_by p (a ++ String c s) = a :: split_by p s.
Proof.
  intros A C. induction a as [|x a IH]; [change (split_by p (String c s) = "" :: split_by p s); cbn [split_by]; now rewrite C|]. cbn [sforall] in A. apply andb_prop in A as [X A]. apply negb_true_iff in X. change (split_by p (String x (a ++ String c s)) = String x a :: split_by p s). cbn [split_by]. now rewrite X, IH.
Qed.
Lemma split_by_none p a : sforall (fun x => negb (p x)) a = true -> split_by p a = [a].
Proof. induction a as [|x a IH]; [reflexivity|]. cbn [sforall]. intros A. apply andb_prop in A as [X A]. apply negb_true_iff in X. cbn [split_by]. now rewrite X, IH. Qed.
Lemma split_by_all p r b : sforall p r = true -> sforall (fun x => negb (p x)) b = true -> exists e, split_by p (r ++ b) = (e ++ [b])%list /\ Forall (fun x => x = "") e.
Proof.
  intros R B. induction r as [|c r IH]; [exists []; split; [now apply split_by_none|constructor]|]. cbn [sforall] in R. apply andb_prop in R as [C R]. destruct (IH R) as (e & E & F). exists ("" :: e). change (String c r ++ b) with (String c (r ++ b)). cbn [split_by]. rewrite C, E. split; [reflexivity|now constructor].
Qed.
Lemma two_parts p (keep : string -> bool) a r b : sforall (fun x => negb (p x)) a = true -> sforall (fun x => negb (p x)) b = true -> sforall p r = true -> r <> "" ->
  keep a = true -> keep b = true -> keep "" = false -> filter keep (split_by p (a ++ r ++ b)) = [a; b].
Proof.
  intros A B R NE KA KB K0. destruct r as [|c r]; [congruence|]. cbn [sforall] in R. apply andb_prop in R as [C R]. change (String c r ++ b) with (String c (r ++ b)). rewrite split_by_sep by assumption.
  destruct (split_by_all p r b R B) as (e & -> & F). cbn [filter]. rewrite KA. f_equal. clear - F KB K0. induction F as [|x e -> _ IH]; cbn [app filter]; [now rewrite KB|]. now rewrite K0.
Qed.
Lemma without_not l s : without l s = true -> sforall (fun x => negb (one_of l x)) s = true.
Proof. intros H. exact H. Qed.

(** ** Reading class diagrams *)
Definition attrs_of (l : list string) : list string := List.filter (fun m => negb (is_method m)) l.
Definition methods_of (l : list string) : list string := List.filter is_method l.
Lemma members_read cs n rels l : forallb (fun m => tidy m && not_word ["%%"; "class "] m && negb (String.eqb m "}")) l = true -> forall a m,
  fold_left class_line l (Cls cs n a m true rels) = Cls cs n (a ++ attrs_of l) (m ++ methods_of l) true rels.
Proof.
  induction l as [|x l IH]; intros H a m; [cbn; now rewrite !app_nil_r|]. cbn [forallb] in H. apply andb_prop in H as [X H]. apply andb_prop in X as [X NB]. apply andb_prop in X as [T NW]. apply negb_true_iff in NB. cbn [fold_left].
  assert (E : class_line (Cls cs n a m true rels) x = if is_method x then Cls cs n a (m ++ [x]) true rels else Cls cs n (a ++ [x]) m true rels).
  { unfold class_line, is_method. rewrite (tidy_some x T), (not_starts _ "%%" x NW), (not_starts _ "class " x NW), NB by (cbn; auto). reflexivity. }
  rewrite E. unfold attrs_of, methods_of. cbn [List.filter]. destruct (is_method x); cbn [negb]; rewrite IH by exact H; unfold attrs_of, methods_of; f_equal; rewrite <- app_assoc; reflexivity.
Qed.
Definition cls_of (c : string * list string) : string * list string * list string := (fst c, attrs_of (snd c), methods_of (snd c)).
Definition related (it : class_item) : list (string * string) := match it with Related a _ b => [(a, b)] | _ => [] end.
Lemma class_parts n : class_name n = true -> tidy n = true /\ without ["<"; "|"; "-"; ">"; "{"]%char n = true /\ starts_with "%%" n = false.
Proof. unfold class_name. intros H. apply andb_prop in H as [H W]. apply andb_prop in H as [T F]. split; [exact T|]. split; [exact F|]. apply (not_starts ["%%"; "class "]); [exact W|now left]. Qed.
Lemma class_read doc : forallb class_ok doc = true -> forall cs n a m rels, exists n' a' m',
  fold_left class_line (flat_map class_text doc) (Cls cs n a m false rels) = Cls (cs ++ map cls_of (classes doc)) n' a' m' false (rels ++ flat_map related doc).
Proof.
  induction doc as [|it doc IH]; intros H cs n a m rels; [exists n, a, m; cbn; now rewrite !app_nil_r|]. cbn [forallb] in H. apply andb_prop in H as [I H]. specialize (IH H). cbn [flat_map classes related]. rewrite fold_left_app. fold (classes doc).
  destruct it as [k l|x r y|t]; cbn [class_text class_ok] in *.
  - apply andb_prop in I as [K M]. destruct (class_parts k K) as (T & F & P). cbn [fold_left].
    assert (E : class_line (Cls cs n a m false rels) ("class " ++ k ++ " {") = Cls cs k [] [] true rels).
    { unfold class_line. change (String.eqb ("class " ++ k ++ " {") "") with false. change (starts_with "%%" ("class " ++ k ++ " {")) with false. cbn [orb]. rewrite starts_with_app.
      assert (C : contains "{" ("class " ++ k ++ " {") = true). { apply contains_iff. exists ("class " ++ k ++ " "), "". now rewrite !sapp_assoc. }
      rewrite C. cbn [andb]. unfold after_word. rewrite strip_prefix_app. replace (k ++ " {") with ((k ++ " ") ++ "{") by (now rewrite sapp_assoc). rewrite (split_end "{" "") by (rewrite sforall_app, (free_of k _ "{" F) by reflexivity; reflexivity). rewrite trim_after by now apply tidy_solid. reflexivity. }
    rewrite E, fold_left_app, members_read by exact M. cbn [fold_left app].
    assert (E2 : class_line (Cls cs k (attrs_of l) (methods_of l) true rels) "}" = Cls (cs ++ [(k, attrs_of l, methods_of l)]) k (attrs_of l) (methods_of l) false rels) by reflexivity.
    rewrite E2. destruct (IH (cs ++ [(k, attrs_of l, methods_of l)])%list k (attrs_of l) (methods_of l) rels) as (n' & a' & m' & Q). exists n', a', m'. rewrite Q. cbn [map app]. rewrite <- app_assoc. reflexivity.
  - apply andb_prop in I as [I C]. apply andb_prop in I as [I R]. apply andb_prop in I as [X Y]. destruct (class_parts x X) as (Tx & Fx & Px). destruct (class_parts y Y) as (Ty & Fy & _). cbn [fold_left app].
    assert (E : class_line (Cls cs n a m false rels) (x ++ " " ++ r ++ " " ++ y) = Cls cs n a m false (rels ++ [(x, y)])).
    { unfold class_line. assert (NE : String.eqb (x ++ " " ++ r ++ " " ++ y) "" = false). { destruct (tidy_solid _ Tx) as [(c & z & -> & _) _]. reflexivity. }
      rewrite NE. change (" " ++ r ++ " " ++ y) with (String " " (r ++ " " ++ y)) at 1. rewrite (not_start "%%" x " ") by (assumption || reflexivity). cbn [orb].
      assert (NB : contains "{" (x ++ " " ++ r ++ " " ++ y) = false).
      { rewrite contains_split. rewrite (split_free "{" ""); [reflexivity|]. rewrite !sforall_app. rewrite (free_of x _ "{" Fx), (free_of y _ "{" Fy) by reflexivity. assert (FR : free "{" r). { revert R. apply sforall_weaken. intros c Q. apply negb_true_iff. destruct (Ascii.eqb_spec "{" c); [subst; discriminate|reflexivity]. } rewrite FR. reflexivity. }
      rewrite NB, andb_false_r. cbn [c_in]. rewrite andb_false_r.
      assert (DD : contains "--" (x ++ " " ++ r ++ " " ++ y) = true). { apply contains_iff in C as (u & v & ->). apply contains_iff. exists (x ++ " " ++ u), (v ++ " " ++ y). now rewrite !sapp_assoc. }
      rewrite DD, orb_true_r. replace (x ++ " " ++ r ++ " " ++ y) with ((x ++ " ") ++ r ++ (" " ++ y)) by (now rewrite !sapp_assoc).
      assert (W4 : forall z, without ["<"; "|"; "-"; ">"; "{"]%char z = true -> sforall (fun c => negb (one_of ["<"; "|"; "-"; ">"]%char c)) z = true).
      { intros z. apply sforall_weaken. intros c Q. apply negb_true_iff in Q. apply negb_true_iff. unfold one_of. cbn [existsb] in *. repeat (apply orb_false_elim in Q as [? Q]). now rewrite !orb_false_r, H0, H1, H2, H3. }
      rewrite (two_parts (one_of ["<"; "|"; "-"; ">"]%char)).
      - cbn [last c_classes c_name c_attrs c_methods c_rels]. rewrite trim_after by now apply tidy_solid. rewrite (tidy_before y Ty). reflexivity.
      - rewrite sforall_app, (W4 x Fx). reflexivity.
      - rewrite sforall_app, (W4 y Fy). reflexivity.
      - exact R.
      - intros ->. discriminate.
      - destruct x; reflexivity.
      - reflexivity.
      - reflexivity. }
    rewrite E. destruct (IH cs n a m (rels ++ [(x, y)])%list) as (n' & a' & m' & Q). exists n', a', m'. rewrite Q. f_equal. rewrite <- app_assoc. reflexivity.
  - cbn [fold_left app]. assert (E : class_line (Cls cs n a m false rels) t = Cls cs n a m false rels).
    { unfold class_line. destruct (String.eqb t "" || starts_with "%%" t) eqn:Q; [reflexivity|]. cbn [orb] in I. apply andb_prop in I as [NW D]. apply negb_true_iff in D. rewrite (not_starts _ "class " t NW) by now left. cbn [andb c_in]. rewrite andb_false_r.
      assert (Z : forall p q, p ++ "--" ++ q = p ++ "--" ++ q -> contains (p ++ "--" ++ q) t = false). { intros p q _. destruct (contains (p ++ "--" ++ q) t) eqn:CC; [|reflexivity]. apply contains_iff in CC as (u & v & ->). exfalso. assert (contains "--" (u ++ (p ++ "--" ++ q) ++ v) = true); [|congruence]. apply contains_iff. exists (u ++ p), (q ++ v). now rewrite !sapp_assoc. }
      pose proof (Z "<|" "" eq_refl) as Z1. pose proof (Z "" ">" eq_refl) as Z2. change (contains "<|--" t = false) in Z1. change (contains "-->" t = false) in Z2. now rewrite Z1, Z2, D. }
    rewrite E. apply IH.
Qed.

(** ** Drawing class diagrams *)
Definition ccx (k : nat) : N := cx 500000 2500000 k.
Definition ccy (k : nat) : N := cy 1600000 2000000 k.
Definition part (n : nat) : N := mul (idx (Nat.max n 1)) 250000.
Definition chead (kc : nat * (string * list string)) : shape := with_text (fst (snd kc)) (with_line "2F5496" 2 (with_fill "4472C4" (with_id (N.of_nat (10 + 3 * fst kc)) (shape_new KRectangle (ccx (fst kc)) (ccy (fst kc)) 2000000 350000)))).
Definition cattrs (kc : nat * (string * list string)) : shape := with_text (sjoin nl (attrs_of (snd (snd kc)))) (with_line "2F5496" 1 (with_fill "D6DCE5" (with_id (N.of_nat (11 + 3 * fst kc)) (shape_new KRectangle (ccx (fst kc)) (add (ccy (fst kc)) 350000) 2000000 (part (length (attrs_of (snd (snd kc))))))))).
Definition cmeths (kc : nat * (string * list string)) : shape := with_text (sjoin nl (methods_of (snd (snd kc)))) (with_line "2F5496" 1 (with_fill "FFFFFF" (with_id (N.of_nat (12 + 3 * fst kc))
  (shape_new KRectangle (ccx (fst kc)) (add (add (ccy (fst kc)) 350000) (part (length (attrs_of (snd (snd kc)))))) 2000000 (part (length (methods_of (snd (snd kc))))))))).
Lemma classes_put l : forall start a, start + length l <= 1000 -> a_next a = N.of_nat (10 + 3 * start) ->
  let nl := combine (seq start (length l)) l in
  fold_left put_class (combine (seq start (length l)) (map cls_of l)) a =
  Anchors (a_shapes a ++ flat_map (fun kc => [chead kc; cattrs kc; cmeths kc]) nl) (rev (map (fun kc => (fst (snd kc), (ccx (fst kc), ccy (fst kc)))) nl) ++ a_pos a)
    (rev (map (fun kc => (fst (snd kc), N.of_nat (10 + 3 * fst kc))) nl) ++ a_ids a) (N.of_nat (10 + 3 * (start + length l))).
Proof.
  induction l as [|[n ms] l IH]; intros start a L A; cbv zeta.
  - cbn [length seq combine map rev app flat_map fold_left]. rewrite app_nil_r, Nat.add_0_r, <- A. now destruct a.
  - cbn [length] in *. cbn [seq map combine fold_left]. cbv zeta in IH.
    assert (E1 : add (a_next a) 1 = N.of_nat (11 + 3 * start)) by (rewrite A, add_exact by lia; lia).
    assert (E2 : add (add (a_next a) 1) 1 = N.of_nat (12 + 3 * start)) by (rewrite E1, add_exact by lia; lia).
    rewrite IH; [|lia|].
    + cbn [put_class cls_of a_shapes a_pos a_ids map rev flat_map fst snd]. rewrite <- !app_assoc. cbn [app]. f_equal.
      * f_equal. unfold chead, cattrs, cmeths. cbn [fst snd]. rewrite E2, E1, A. reflexivity.
      * rewrite A. reflexivity.
      * f_equal. lia.
    + cbn [put_class cls_of a_next fst snd]. rewrite E2, add_exact by lia. lia.
Qed.
Lemma lookup_none {A} k (l : list (string * A)) : ~ In k (map fst l) -> lookup k l = None.
Proof. induction l as [|[k' v] l IH]; intros N; [reflexivity|]. cbn in *. destruct (String.eqb_spec k k'); [subst; tauto|]. apply IH. tauto. Qed.
Lemma some_in n (l : list string) : existsb (String.eqb n) l = true <-> In n l.
Proof. rewrite existsb_exists. split; [intros (x & I & E); apply String.eqb_eq in E; now subst|intros I; exists n; split; [exact I|apply String.eqb_refl]]. Qed.
Lemma in_nth_num {A} (l : list A) (a : A) : In a l -> exists i, nth_error l i = Some a /\ i < length l.
Proof. intros I. apply In_nth_error in I as [i E]. exists i. split; [exact E|]. apply nth_error_Some. congruence. Qed.
Lemma class_all o doc code : forallb class_ok doc = true -> NoDup (class_names doc) -> few (classes doc) -> Forall (fun c => few (snd c)) (classes doc) -> writes "classDiagram" (flat_map class_text doc) code ->
  exists heads attributes methods, class_drawn doc (d_shapes (draw o code)) (d_connectors (draw o code)) heads attributes methods.
Proof.
  intros H ND FC FM W. apply rows_written in W as [R L]. assert (D : draw o code = class_drawing code). { unfold draw, create_diagram_elements, detect_type. rewrite L. reflexivity. }
  rewrite D. unfold class_drawing. rewrite R. destruct (class_read doc H [] "" [] [] []) as (n' & a' & m' & ->). cbn [c_classes c_rels app]. set (cs := classes doc) in *. assert (LC : length cs <= 1000) by exact FC.
  unfold numbered. rewrite map_length. rewrite classes_put by (cbn; lia || reflexivity). cbn [a_shapes a_pos a_ids app]. fold (numbered cs). rewrite !app_nil_r.
  set (pos := rev (map _ (numbered cs))). set (ids := rev (map (fun kc => (fst (snd kc), N.of_nat (10 + 3 * fst kc))) (numbered cs))). set (nx := N.of_nat _). set (shs := flat_map _ (numbered cs)).
  unfold from_shapes_and_connectors. cbn [d_shapes d_connectors].
  assert (KP : map fst (map (fun kc : nat * (string * list string) => (fst (snd kc), (ccx (fst kc), ccy (fst kc)))) (numbered cs)) = class_names doc) by (rewrite map_map; cbn [fst]; apply (num_map fst cs)).
  assert (KI : map fst (map (fun kc : nat * (string * list string) => (fst (snd kc), N.of_nat (10 + 3 * fst kc))) (numbered cs)) = class_names doc) by (rewrite map_map; cbn [fst]; apply (num_map fst cs)).
  assert (LK : forall i n l, nth_error cs i = Some (n, l) -> lookup n pos = Some (ccx i, ccy i) /\ lookup n ids = Some (N.of_nat (10 + 3 * i))).
  { intros i n l E. split; apply lookup_rev; rewrite ?KP, ?KI; try exact ND; apply in_map_iff; exists (i, (n, l)); (split; [reflexivity|now apply num_in]). }
  assert (LN : forall n, ~ In n (class_names doc) -> lookup n pos = None). { intros n N. apply lookup_none. unfold pos. rewrite map_rev, KP. intros I. apply N. now apply in_rev. }
  exists (map chead (numbered cs)), (map cattrs (numbered cs)), (map cmeths (numbered cs)).
  assert (PX : forall n, n <= 1000 -> part n = (N.max (N.of_nat n) 1 * 250000)%N). { intros n N. unfold part. rewrite idxe by lia. rewrite mul_exact by lia. lia. }
  assert (LA : forall k c, nth_error cs k = Some c -> length (attrs_of (snd c)) <= 1000 /\ length (methods_of (snd c)) <= 1000).
  { intros k c E. apply nth_error_In in E. rewrite Forall_forall in FM. specialize (FM c E). unfold few in FM. assert (FL : forall (f : string -> bool) l, length (List.filter f l) <= length l). { intros f l. induction l as [|z l IH]; cbn; [lia|]. destruct (f z); cbn; lia. } split; (etransitivity; [apply FL|exact FM]). }
  assert (YB : forall k, k < length cs -> (1600000 <= ccy k <= 1002000000)%N). { intros k K. destruct (cell_small 500000 1600000 2500000 2000000 k) as [[_ X] [_ Y]]; [lia|lia|lia|lia|lia|]. unfold ccy. lia. }
  assert (S1 : forall k c, nth_error cs k = Some c -> stacked (chead (k, c)) (cattrs (k, c))).
  { intros k c E. assert (K : k < length cs) by (apply nth_error_Some; congruence). unfold stacked, chead, cattrs, bottom_of. cbn [sh_x sh_y sh_w sh_h with_text with_line with_fill with_id shape_new fst snd]. specialize (YB k K). rewrite add_exact by lia. auto. }
  assert (S2 : forall k c, nth_error cs k = Some c -> stacked (cattrs (k, c)) (cmeths (k, c))).
  { intros k c E. assert (K : k < length cs) by (apply nth_error_Some; congruence). unfold stacked, cattrs, cmeths, bottom_of. cbn [sh_x sh_y sh_w sh_h with_text with_line with_fill with_id shape_new fst snd]. specialize (YB k K). destruct (LA k c E) as [A1 A2]. rewrite PX by exact A1. rewrite (add_exact (ccy k) 350000) by lia. rewrite add_exact by lia. auto. }
  constructor.
  - apply flat3.
  - rewrite map_map. unfold class_names. rewrite map_map. apply (num_map (fun c => Some (fst c)) cs).
  - rewrite map_map. apply (num_map (fun c => Some (sjoin nl (List.filter (fun m => negb (is_method m)) (snd c)))) cs).
  - rewrite map_map. apply (num_map (fun c => Some (sjoin nl (List.filter is_method (snd c)))) cs).
  - split; apply both_map, num_forall; intros k c _ E; [now apply S1|now apply S2].
  - apply (own_seq 10 (3 * length cs)). unfold shs. rewrite flat_map_concat_map, concat_map, map_map, <- flat_map_concat_map. apply (num_ids _ 3 cs). intros k c. cbn [map chead cattrs cmeths sh_id with_text with_line with_fill with_id fst snd seq]. repeat (f_equal; [f_equal; lia|]). reflexivity.
  - unfold linked, relations. fold related. clear - LK LN LC.
    assert (CN : class_names doc = map fst cs) by reflexivity. induction (flat_map related doc) as [|[x y] rels IH]; [constructor|]. cbn [List.filter flat_map fst snd].
    destruct (existsb (String.eqb x) (class_names doc)) eqn:EX; cbn [andb].
    + destruct (existsb (String.eqb y) (class_names doc)) eqn:EY.
      * apply some_in in EX, EY. rewrite CN in EX, EY. apply in_map_iff in EX as ([x' lx] & Q & EX), EY as ([y' ly] & Q' & EY). cbn in Q, Q'. subst x' y'. apply in_nth_num in EX as (i & EX & I). apply in_nth_num in EY as (j & EY & J).
        destruct (LK i x lx EX) as [P1 I1]. destruct (LK j y ly EY) as [P2 I2]. cbn [put_relation a_pos a_ids]. rewrite P1, P2.
        destruct (if (ccy i <? ccy j)%N then (Bottom, Top) else if (ccy j <? ccy i)%N then (Top, Bottom) else if (ccx i <? ccx j)%N then (Right_, Left_) else (Left_, Right_)) as [ss es] eqn:SS. cbn [app]. constructor; [|exact IH].
        exists i, j, (chead (i, (x, lx))), (chead (j, (y, ly))). cbn [fst snd]. rewrite CN. split; [apply (map_nth_error fst) in EX; exact EX|]. split; [apply map_nth_error; now apply num_nth|]. split; [apply (map_nth_error fst) in EY; exact EY|]. split; [apply map_nth_error; now apply num_nth|].
        unfold ties, tied. rewrite I1, I2. cbn [start_shape end_shape start_arrow end_arrow start_site end_site]. split; [discriminate|]. split; [reflexivity|]. split; [discriminate|]. split; [reflexivity|]. split; [reflexivity|]. split; [reflexivity|]. exists ss, es. split; [reflexivity|]. split; [reflexivity|].
        unfold facing. change (sh_x (chead (i, (x, lx)))) with (ccx i). change (sh_x (chead (j, (y, ly)))) with (ccx j). change (sh_y (chead (i, (x, lx)))) with (ccy i). change (sh_y (chead (j, (y, ly)))) with (ccy j).
        destruct (N.ltb_spec (ccy i) (ccy j)); [injection SS as <- <-; tauto|]. destruct (N.ltb_spec (ccy j) (ccy i)); [injection SS as <- <-; tauto|]. destruct (N.ltb_spec (ccx i) (ccx j)); [injection SS as <- <-; tauto|]. injection SS as <- <-.
        destruct (N.eq_dec (ccx i) (ccx j)) as [E|E]; [|right; left; repeat split; lia]. right. right. right. right. assert (i = j) by (apply (cells_same 500000 1600000 2500000 2000000); try lia; [exact E|unfold ccy in *; lia]). subst j. congruence.
      * assert (NY : lookup y pos = None). { apply LN. intros I. apply some_in in I. congruence. } cbn [put_relation a_pos]. rewrite NY. destruct (lookup x pos) as [[? ?]|]; exact IH.
    + assert (NX : lookup x pos = None). { apply LN. intros I. apply some_in in I. congruence. } cbn [put_relation a_pos]. rewrite NX. exact IH.
  - intros SH. unfold shs. assert (SC : forall k c, nth_error cs k = Some c -> (bottom_of (cmeths (k, c)) <= ccy k + 1850000)%N).
    { intros k c E. assert (K : k < length cs) by (apply nth_error_Some; congruence). destruct (S1 k c E) as (_ & _ & Y1). destruct (S2 k c E) as (_ & _ & Y2). destruct (LA k c E) as [A1 A2]. unfold bottom_of in *. rewrite Y2, Y1. cbn [sh_y sh_h chead cattrs cmeths with_text with_line with_fill with_id shape_new fst snd]. rewrite !PX by assumption.
      apply nth_error_In in E. rewrite Forall_forall in SH. specialize (SH c E). unfold short_class in SH. fold (attrs_of (snd c)) in SH. fold (methods_of (snd c)) in SH. set (p := length (attrs_of (snd c))) in *. set (q := length (methods_of (snd c))) in *. lia. }
    assert (TOP : forall k c, nth_error cs k = Some c -> Forall (fun s => sh_x s = ccx k /\ sh_w s = 2000000 /\ ccy k <= sh_y s /\ bottom_of s <= ccy k + 1850000)%N [chead (k, c); cattrs (k, c); cmeths (k, c)]).
    { intros k c E. pose proof (SC k c E) as B3. destruct (S1 k c E) as (_ & _ & Y1). destruct (S2 k c E) as (_ & _ & Y2). unfold bottom_of in *. rewrite Y2, Y1 in B3. change (sh_y (chead (k, c))) with (ccy k) in *. change (sh_h (chead (k, c))) with 350000%N in *.
      repeat constructor; rewrite ?Y2, ?Y1; unfold bottom_of; change (sh_y (chead (k, c))) with (ccy k); change (sh_h (chead (k, c))) with 350000%N; rewrite ?Y2, ?Y1; unfold bottom_of; change (sh_y (chead (k, c))) with (ccy k); change (sh_h (chead (k, c))) with 350000%N; lia. }
    apply fop_flat.
    + apply num_pairs. intros i j a b IJ EA EB. pose proof (TOP i a EA) as TA. pose proof (TOP j b EB) as TB. revert TA. apply Forall_impl. intros s (X1 & X2 & X3 & X4). revert TB. apply Forall_impl. intros t (Z1 & Z2 & Z3 & Z4).
      apply (parts_clear 500000 1600000 2500000 2000000 2000000 1850000 i j); try lia; assumption.
    + apply num_forall. intros k c _ E. destruct (S1 k c E) as (_ & _ & Y1). destruct (S2 k c E) as (_ & _ & Y2). assert (OV : forall s t, (bottom_of s <= sh_y t)%N -> clear s t) by (intros s t Q; right; right; left; exact Q).
      constructor; [constructor; [|constructor; [|constructor]]|constructor; [constructor; [|constructor]|constructor; constructor]]; apply OV; rewrite ?Y2; unfold bottom_of; rewrite ?Y1; unfold bottom_of; lia.
Qed.
