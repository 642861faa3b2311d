(** Reading a whole flowchart. *)
From Coq Require Import String Ascii List Bool Arith NArith Permutation Lia.
From Verif Require Import Str Num ColorModel TableModel ShapeModel ConnectorModel ValidSpec ValidProofs FlowModel FlowSpec FlowText.
Import ListNotations.
Open Scope nat_scope.
Open Scope string_scope.

Lemma firsts_ext s t l : (forall i, existsb (String.eqb i) s = existsb (String.eqb i) t) -> firsts s l = firsts t l.
Proof.
  revert s t. induction l as [|m l IH]; intros s t H; [reflexivity|]. cbn [firsts]. rewrite H. destruct (existsb (String.eqb (m_id m)) t); [now apply IH|].
  f_equal. apply IH. intros i. cbn [existsb]. now rewrite H.
Qed.
Lemma existsb_snoc i l x : existsb (String.eqb i) (l ++ [x])%list = existsb (String.eqb i) (x :: l).
Proof. rewrite existsb_app. cbn. destruct (String.eqb i x), (existsb (String.eqb i) l); reflexivity. Qed.
Definition grow (N : list node) (m : mention) : list node := if existsb (fun k => String.eqb (n_id k) (m_id m)) N then N else (N ++ [node_of m])%list.
Definition growi (I : list string) (m : mention) : list string := if existsb (String.eqb (m_id m)) I then I else (I ++ [m_id m])%list.
Lemma growi_all l : forall I, fold_left growi l I = (I ++ map m_id (firsts I l))%list.
Proof.
  induction l as [|m l IH]; intros I; [cbn; now rewrite app_nil_r|]. cbn [fold_left firsts]. rewrite IH. unfold growi at 1. destruct (existsb (String.eqb (m_id m)) I) eqn:E.
  - unfold growi. now rewrite E.
  - unfold growi. rewrite E. cbn [map]. rewrite <- app_assoc. cbn [app]. do 3 f_equal. apply firsts_ext. intros i. apply existsb_snoc.
Qed.
Lemma existsb_ids i N : existsb (fun k => String.eqb (n_id k) i) N = existsb (String.eqb i) (map n_id N).
Proof. induction N as [|k N IH]; [reflexivity|]. cbn. now rewrite IH, String.eqb_sym. Qed.
Lemma grow_all l : forall N, fold_left grow l N = (N ++ map node_of (firsts (map n_id N) l))%list.
Proof.
  induction l as [|m l IH]; intros N; [cbn; now rewrite app_nil_r|]. cbn [fold_left firsts]. rewrite IH. unfold grow. rewrite existsb_ids. destruct (existsb (String.eqb (m_id m)) (map n_id N)) eqn:E; [reflexivity|].
  cbn [map]. rewrite <- app_assoc. cbn [app]. do 3 f_equal. apply firsts_ext. intros i. rewrite map_app. cbn [map n_id node_of]. apply existsb_snoc.
Qed.

Definition stmt_joins (s : stmt) : list joined := match s with Join a k t b => [Joined (m_id a) (m_id b) k t] | Only _ => [] end.
Definition in_group (l : list mention) (g : subgraph) : subgraph := Subgraph (g_name g) (fold_left growi l (g_nodes g)).
Lemma noted_eq m p : noted m p = PState (grow (p_nodes p) m) (p_edges p) (p_groups p) (option_map (in_group [m]) (p_current p)).
Proof.
  unfold noted, note_node, grow, in_group. cbn [n_id node_of]. f_equal. destruct (p_current p) as [g|]; [|reflexivity]. cbn. unfold growi.
  destruct (existsb (String.eqb (m_id m)) (g_nodes g)); [|reflexivity]. now destruct g.
Qed.
Lemma in_group_app a b g : in_group (a ++ b)%list g = in_group b (in_group a g).
Proof. unfold in_group. cbn. now rewrite fold_left_app. Qed.
Lemma in_group_nil o : option_map (in_group []) o = o.
Proof. destruct o as [[]|]; reflexivity. Qed.
Lemma told_eq s p : told p s = PState (fold_left grow (said s) (p_nodes p)) (p_edges p ++ map edge_of (stmt_joins s))%list (p_groups p) (option_map (in_group (said s)) (p_current p)).
Proof.
  destruct s as [m|a k t b]; cbn [told said stmt_joins map fold_left]; rewrite !noted_eq; cbn [p_nodes p_edges p_groups p_current].
  - now rewrite app_nil_r.
  - f_equal. destruct (p_current p) as [g|]; [|reflexivity]. cbn [option_map]. now rewrite <- in_group_app.
Qed.
Lemma tells_eq ss : forall p, fold_left told ss p = PState (fold_left grow (flat_map said ss) (p_nodes p)) (p_edges p ++ map edge_of (flat_map stmt_joins ss))%list (p_groups p)
  (option_map (in_group (flat_map said ss)) (p_current p)).
Proof.
  induction ss as [|s ss IH]; intros p.
  - cbn [flat_map map fold_left]. rewrite app_nil_r, in_group_nil. now destruct p.
  - cbn [fold_left flat_map]. rewrite IH, told_eq. cbn [p_nodes p_edges p_groups p_current]. rewrite fold_left_app, map_app, <- app_assoc. f_equal.
    destruct (p_current p); [|reflexivity]. cbn [option_map]. now rewrite in_group_app.
Qed.
Section Parse.
Variable wordy : string -> bool.
Variable order : list node -> list node.
Lemma stmts_read ss : forall ls p, forallb (stmt_ok wordy) ss = true -> map trim ls = map stmt_text ss -> fold_left (parse_line wordy) ls p = fold_left told ss p.
Proof.
  induction ss as [|s ss IH]; intros ls p H E; destruct ls as [|l ls]; try discriminate; [reflexivity|]. cbn [map] in E. cbn [forallb] in H. apply andb_prop in H as [H1 H2].
  injection E as E1 E2. cbn [fold_left]. rewrite (stmt_read wordy p l s H1 E1). now apply IH.
Qed.
Definition group_of (g : string * list string) : subgraph := Subgraph (fst g) (snd g).
Definition item_groups (i : item) : list (string * list string) := match i with Group n b => [(n, map m_id (firsts [] (flat_map said b)))] | _ => [] end.
Lemma item_read i ls p : item_ok wordy i = true -> p_current p = None -> map trim ls = item_lines i ->
  fold_left (parse_line wordy) ls p = PState (fold_left grow (flat_map said (stmts i)) (p_nodes p)) (p_edges p ++ map edge_of (flat_map stmt_joins (stmts i)))%list
    (p_groups p ++ map group_of (item_groups i))%list None.
Proof.
  intros H C E. destruct i as [t| |s|n b]; cbn [item_lines stmts item_groups item_ok] in *.
  - destruct ls as [|l [|l2 ls]]; try discriminate. cbn [map] in E. injection E as E. cbn [fold_left]. unfold parse_line. rewrite E. cbn. rewrite !app_nil_r. destruct p; cbn in *; now subst.
  - destruct ls as [|l [|l2 ls]]; try discriminate. cbn [map] in E. injection E as E. cbn [fold_left]. unfold parse_line. rewrite E. cbn. rewrite !app_nil_r. destruct p; cbn in *; now subst.
  - rewrite (stmts_read [s]); [|cbn; now rewrite H|exact E]. rewrite tells_eq, C. cbn [map option_map]. now rewrite app_nil_r.
  - apply andb_prop in H as [N B]. apply String.eqb_eq in N. destruct ls as [|l ls]; [discriminate|]. cbn [map] in E. injection E as E1 E2. change (trim l = "subgraph " ++ n) in E1.
    apply map_eq_app in E2 as (l1 & l2 & -> & E2 & E3). destruct l2 as [|l3 [|l4 l5]]; try discriminate. cbn [map] in E3. injection E3 as E3.
    cbn [fold_left]. rewrite fold_left_app. cbn [fold_left].
    assert (P1 : parse_line wordy p l = PState (p_nodes p) (p_edges p) (p_groups p) (Some (Subgraph n []))).
    { unfold parse_line. rewrite E1. assert (S : strip_prefix "subgraph" ("subgraph " ++ n) = Some (" " ++ n)) by (exact (strip_prefix_app "subgraph" (" " ++ n))).
      rewrite S, trim_before, N. reflexivity. }
    rewrite P1, (stmts_read b l1 _ B E2), tells_eq. cbn [p_nodes p_edges p_groups p_current option_map]. unfold parse_line. rewrite E3. cbn. unfold group_of, in_group. cbn. now rewrite growi_all.
Qed.
Lemma doc_read doc : forall ls p, doc_ok wordy doc = true -> p_current p = None -> map trim ls = flat_map item_lines doc ->
  fold_left (parse_line wordy) ls p = PState (fold_left grow (mentions doc) (p_nodes p)) (p_edges p ++ map edge_of (joins doc))%list
    (p_groups p ++ map group_of (groups doc))%list None.
Proof.
  unfold mentions, joins, groups. induction doc as [|i doc IH]; intros ls p H C E.
  - destruct ls; [|discriminate]. cbn. rewrite !app_nil_r. destruct p; cbn in *; now subst.
  - cbn [flat_map] in E. apply map_eq_app in E as (l1 & l2 & -> & E1 & E2). unfold doc_ok in H. cbn [forallb] in H. apply andb_prop in H as [H1 H2].
    rewrite fold_left_app, (item_read i l1 p H1 C E1), IH; [|exact H2|reflexivity|exact E2]. cbn [p_nodes p_edges p_groups flat_map]. rewrite !flat_map_app, fold_left_app, !map_app, !app_assoc.
    f_equal.
Qed.
Definition way_of (w : way) : FlowModel.direction := match w with LR => LeftToRight | RL => RightToLeft | TB | TD => TopToBottom | BT => BottomToTop end.
Lemma flow_read w doc code : doc_ok wordy doc = true -> FlowSpec.written w doc code ->
  flow_parse wordy order code = Flowchart (way_of w) (order (map node_of (nodes doc))) (map edge_of (joins doc)) (map group_of (groups doc)).
Proof.
  intros H (rest & L & R). unfold flow_parse. rewrite L, (doc_read doc rest (PState [] [] [] None) H eq_refl R). cbn [p_nodes p_edges p_groups app]. rewrite grow_all.
  assert (D : parse_direction (header w) = way_of w) by (destruct w; reflexivity). now rewrite D.
Qed.
End Parse.
