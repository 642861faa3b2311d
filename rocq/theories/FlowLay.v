(** Laying out the nodes of a flowchart. *)
From Coq Require Import String Ascii List Bool Arith NArith Permutation Lia.
From Verif Require Import Str Num ColorModel TableModel ShapeModel ConnectorModel FlowModel FlowSpec FlowText FlowParse.
Import ListNotations.
Open Scope nat_scope.
Open Scope string_scope.

(** A node in its place. *)
Record spot := Spot { sp_m : mention; sp_x : N; sp_y : N; sp_num : N }.
Definition spot_shape (s : spot) : shape := create_node_shape (node_of (sp_m s)) (sp_x s) (sp_y s) node_width node_height (sp_num s).
Definition sid (s : spot) : string := m_id (sp_m s).
Definition key (s : spot) : string * N * N := (sid s, sp_x s, sp_y s).
Definition nums (l : list shape) : list N := flat_map (fun s => some_list (sh_id s)) l.
Definition box_of (s : shape) : box := (sh_x s, sh_y s, sh_w s, sh_h s).
Definition num (j : nat) : N := idx (10 + j).
Record lay_is (l : lay) (P : list spot) (F T : list shape) (k : nat) : Prop := {
  li_shapes : Permutation (l_shapes l) (F ++ T ++ map spot_shape P);
  li_pos : l_pos l = rev (map (fun s => (sid s, (sp_x s, sp_y s))) P);
  li_ids : l_ids l = rev (map (fun s => (sid s, sp_num s)) P);
  li_nums : nums (l_shapes l) = map num (seq 0 k);
  li_next : l_next l = num k;
  li_boxes : Permutation (l_boxes l) (map box_of F ++ map box_of (map spot_shape P)) }.
Lemma num_next k : add (num k) 1 = num (S k).
Proof.
  unfold num, idx, add, wadd. rewrite N.add_mod_idemp_l by discriminate. f_equal. lia.
Qed.
Lemma put_is l P F T k m x y : lay_is l P F T k -> lay_is (put_node (node_of m) x y l) (P ++ [Spot m x y (num k)])%list F T (S k).
Proof.
  intros [A B C D E G]. unfold put_node. constructor; cbn [l_shapes l_boxes l_pos l_ids l_next].
  - rewrite map_app, E. cbn [map]. rewrite !app_assoc in *. apply Permutation_app_tail. exact A.
  - rewrite map_app, rev_app_distr, B. reflexivity.
  - rewrite map_app, rev_app_distr, C, E. reflexivity.
  - unfold nums in *. rewrite flat_map_app, D, seq_S, map_app, E. reflexivity.
  - rewrite E. apply num_next.
  - rewrite !map_app. cbn [map]. rewrite !app_assoc. apply Permutation_app_tail. exact G.
Qed.
Lemma lookup_app {A} i (a b : list (string * A)) : lookup i (a ++ b)%list = match lookup i a with Some v => Some v | None => lookup i b end.
Proof. induction a as [|[j v] a IH]; [reflexivity|]. cbn. destruct (String.eqb i j); [reflexivity|exact IH]. Qed.
Lemma lookup_none {A} i (a : list (string * A)) : lookup i a = None <-> ~ In i (map fst a).
Proof.
  induction a as [|[j v] a IH]; [cbn; tauto|]. cbn. destruct (String.eqb_spec i j); [split; [discriminate|subst; tauto]|]. rewrite IH. split; [intros H [E|E]; [congruence|tauto]|tauto].
Qed.
Lemma lookup_in {A} i v (a : list (string * A)) : lookup i a = Some v -> In (i, v) a.
Proof. induction a as [|[j w] a IH]; [discriminate|]. cbn. destruct (String.eqb_spec i j); [intros E; injection E as ->; subst; auto|auto]. Qed.
Lemma lookup_some {A} i v (a : list (string * A)) : NoDup (map fst a) -> In (i, v) a -> lookup i a = Some v.
Proof.
  induction a as [|[j w] a IH]; [destruct 2|]. cbn. intros N H. inversion_clear N. destruct (String.eqb_spec i j); [subst|]; destruct H as [H|H]; try congruence; [|now apply IH].
  exfalso. apply H0. apply (in_map fst) in H. exact H.
Qed.
Lemma in_rev_map {A B} (f : A -> B) x l : In x (rev (map f l)) <-> exists y, f y = x /\ In y l.
Proof. rewrite <- in_rev. apply in_map_iff. Qed.

Section Lay.
Variable M : list mention.
Hypothesis M_nodup : NoDup (map m_id M).
Lemma same_id a b : In a M -> In b M -> m_id a = m_id b -> a = b.
Proof.
  revert M_nodup. induction M as [|m l IH]; [destruct 2|]. cbn. intros N A B E. inversion_clear N. destruct A as [<-|A], B as [<-|B]; auto.
  - exfalso. apply H. rewrite E. now apply in_map.
  - exfalso. apply H. rewrite <- E. now apply in_map.
Qed.
Lemma find_node m : In m M -> find (fun n => String.eqb (n_id n) (m_id m)) (map node_of M) = Some (node_of m).
Proof.
  intros H. pose proof same_id as S. revert S. clear M_nodup. induction M as [|a l IH]; [destruct H|]. intros S. cbn [map find]. change (n_id (node_of a)) with (m_id a).
  destruct (String.eqb_spec (m_id a) (m_id m)) as [E|E]; [now rewrite (S a m (or_introl eq_refl) H E)|]. destruct H as [->|H]; [congruence|]. apply IH; [exact H|]. intros. apply S; cbn; auto.
Qed.

(** ** Groups *)
Definition gx (k : nat) : N := Nat.iter k (fun x => add x (add (add node_width 400000) 600000)) 500000%N.
Definition my (j : nat) : N := add (add (add 1600000 250000) 200000) (mul (idx j) v_spacing).
Definition oy (j : nat) : N := Nat.iter j (fun y => add y v_spacing) 1600000%N.
Lemma iter_S {A} n (f : A -> A) x : Nat.iter (S n) f x = f (Nat.iter n f x).
Proof. reflexivity. Qed.
Definition member_key (k : nat) (ji : nat * string) : string * N * N := (snd ji, add (gx k) 200000, my (fst ji)).
Lemma members_put k ids : forall j l P F T n, lay_is l P F T n -> (forall i, In i ids -> In i (map m_id M)) ->
  exists P', lay_is (fold_left (put_member (map node_of M) (gx k) 1600000) (combine (seq j (length ids)) ids) l) (P ++ P')%list F T (n + length ids)
    /\ map key P' = map (member_key k) (combine (seq j (length ids)) ids) /\ Forall (fun s => In (sp_m s) M) P'.
Proof.
  induction ids as [|i ids IH]; intros j l P F T n L H.
  - exists []. cbn. rewrite app_nil_r, Nat.add_0_r. auto.
  - cbn [length seq combine fold_left map]. unfold put_member at 2. cbn [fst snd]. assert (I : In i (map m_id M)) by (apply H; left; reflexivity). apply in_map_iff in I as (m & <- & I).
    rewrite (find_node m I). destruct (IH (S j) _ _ F T (S n) (put_is l P F T n m (add (gx k) 200000) (my j) L)) as (P' & A & B & C); [intros; apply H; now right|].
    exists (Spot m (add (gx k) 200000) (my j) (num n) :: P'). rewrite <- app_assoc in A. replace (n + S (length ids)) with (S n + length ids) by lia. split; [exact A|]. split; [cbn [map]; now rewrite B|]. now constructor.
Qed.
Definition frame_w : N := add node_width 400000.
Definition frame_h (n : nat) : N := add (add (mul (idx n) v_spacing) 400000) 250000.
Definition frame (kg : nat * (string * list string)) : shape :=
  with_line "757575" 1 (with_fill (subgraph_color (fst kg)) (shape_new KRoundedRectangle (gx (fst kg)) 1600000 frame_w (frame_h (length (snd (snd kg)))))).
Definition title (kg : nat * (string * list string)) (n : N) : shape :=
  with_text (fst (snd kg)) (with_id n (shape_new KRectangle (add (gx (fst kg)) 50000) (add 1600000 50000) (sub frame_w 100000) 250000)).
Definition group_keys (kg : nat * (string * list string)) : list (string * N * N) := map (member_key (fst kg)) (numbered (snd (snd kg))).
Lemma groups_put gs : forall k l P F T n, lay_is l P F T n -> (forall i, In i (flat_map snd gs) -> In i (map m_id M)) ->
  exists P' T' l', fold_left (put_group (map node_of M)) (combine (seq k (length gs)) (map group_of gs)) (l, gx k) = (l', gx (k + length gs))
    /\ lay_is l' (P ++ P')%list (F ++ map frame (combine (seq k (length gs)) gs))%list (T ++ T')%list (n + length (flat_map snd gs) + length gs)
    /\ map key P' = flat_map group_keys (combine (seq k (length gs)) gs) /\ Forall (fun s => In (sp_m s) M) P'
    /\ Forall2 (fun kg t => exists i, t = title kg i) (combine (seq k (length gs)) gs) T'.
Proof.
  induction gs as [|g gs IH]; intros k l P F T n L H.
  - exists [], [], l. cbn. rewrite !app_nil_r, !Nat.add_0_r. repeat split; auto; constructor || apply L.
  - cbn [length seq map combine fold_left flat_map]. destruct (put_group (map node_of M) (l, gx k) (k, group_of g)) as [l1 x1] eqn:E.
    unfold put_group in E. cbn [g_nodes g_name group_of] in E. fold frame_w (frame_h (length (snd g))) in E.
    set (l0 := Lay _ _ _ _ _) in E. assert (L0 : lay_is l0 P (F ++ [frame (k, g)])%list (T ++ [title (k, g) (num n)])%list (S n)).
    { destruct L as [A B C D X G]. constructor; subst l0; cbn [l_shapes l_boxes l_pos l_ids l_next]; auto.
      - rewrite <- X. fold (frame (k, g)). transitivity ((F ++ T ++ map spot_shape P) ++ [frame (k, g); title (k, g) (l_next l)])%list; [apply Permutation_app; [exact A|reflexivity]|].
        rewrite <- !app_assoc. apply Permutation_app_head. transitivity ([frame (k, g); title (k, g) (l_next l)] ++ T ++ map spot_shape P)%list.
        + rewrite (app_assoc T), (Permutation_app_comm (T ++ _)). reflexivity.
        + cbn [app]. constructor. apply Permutation_middle.
      - unfold nums in *. rewrite flat_map_app, D, seq_S, map_app, X. reflexivity.
      - rewrite X. apply num_next.
      - rewrite map_app. cbn [map]. rewrite <- app_assoc. cbn [app]. transitivity ((map box_of F ++ map box_of (map spot_shape P)) ++ [box_of (frame (k, g))])%list; [apply Permutation_app; [exact G|reflexivity]|].
        rewrite <- app_assoc. apply Permutation_app_head. symmetry. apply Permutation_cons_append. }
    destruct (members_put k (snd g) 0 l0 P _ _ (S n) L0) as (P1 & A & B & C). { intros i I. apply H. cbn [flat_map]. apply in_or_app. now left. }
    injection E as <- <-. fold (numbered (snd g)) in A, B.
    change (add (gx k) (add frame_w 600000)) with (gx (S k)).
    destruct (IH (S k) _ _ _ _ _ A) as (P2 & T2 & l2 & R & A2 & B2 & C2 & D2). { intros i I. apply H. cbn [flat_map]. apply in_or_app. now right. }
    exists (P1 ++ P2)%list, (title (k, g) (num n) :: T2), l2. split; [rewrite <- Nat.add_succ_comm; exact R|]. split; [|split; [|split]].
    + rewrite <- !app_assoc in A2. cbn [app] in A2. rewrite app_length. replace (n + (length (snd g) + length (flat_map snd gs)) + S (length gs)) with (S n + length (snd g) + length (flat_map snd gs) + length gs) by lia. exact A2.
    + rewrite map_app, B, B2. reflexivity.
    + now apply Forall_app.
    + constructor; [eauto|exact D2].
Qed.
Definition orphan_keys (x : N) (j : nat) (ms : list mention) : list (string * N * N) := map (fun jm => (m_id (snd jm), x, oy (fst jm))) (combine (seq j (length ms)) ms).
Definition fresh (P : list spot) (m : mention) : bool := negb (existsb (String.eqb (m_id m)) (map sid P)).
Lemma lookup_fresh l P F T n m : lay_is l P F T n -> match lookup (m_id m) (l_pos l) with Some _ => false | None => true end = fresh P m.
Proof.
  intros L. rewrite (li_pos _ _ _ _ _ L). unfold fresh. destruct (lookup _ _) as [v|] eqn:E.
  - apply lookup_in in E. apply in_rev_map in E as (s & E & I). injection E as E _. symmetry. apply negb_false_iff, existsb_exists. exists (sid s). split; [now apply in_map|apply String.eqb_eq; now symmetry].
  - apply lookup_none in E. symmetry. apply negb_true_iff. destruct (existsb _ _) eqn:X; [|reflexivity]. exfalso. apply E. apply existsb_exists in X as (i & I & J). apply String.eqb_eq in J. subst i.
    rewrite map_rev, map_map. apply in_rev. rewrite rev_involutive. exact I.
Qed.
Lemma orphans_put x ms : forall j l P P0 F T n, lay_is l (P0 ++ P)%list F T n -> NoDup (map m_id ms) -> (forall m, In m ms -> In m M /\ ~ In (m_id m) (map sid P)) ->
  exists P', lay_is (fst (fold_left (put_orphan x) (map node_of ms) (l, oy j))) ((P0 ++ P) ++ P')%list F T (n + length P')
    /\ map key P' = orphan_keys x j (filter (fresh P0) ms) /\ Forall (fun s => In (sp_m s) M) P'.
Proof.
  induction ms as [|m ms IH]; intros j l P P0 F T n L N H.
  - exists []. cbn. rewrite app_nil_r, Nat.add_0_r. auto.
  - cbn [map fold_left filter]. cbn [map] in N. inversion_clear N as [|? ? N1 N2]. destruct (H m (or_introl eq_refl)) as [HM HP].
    pose proof (lookup_fresh _ _ _ _ _ m L) as K. assert (FR : fresh (P0 ++ P)%list m = fresh P0 m).
    { unfold fresh. rewrite map_app, existsb_app. destruct (existsb (String.eqb (m_id m)) (map sid P)) eqn:X; [|now rewrite orb_false_r].
      exfalso. apply existsb_exists in X as (i & I & J). apply String.eqb_eq in J. subst i. tauto. }
    rewrite FR in K. unfold put_orphan at 2. change (n_id (node_of m)) with (m_id m). destruct (lookup (m_id m) (l_pos l)); rewrite <- K.
    + apply IH; [exact L|exact N2|]. intros m' I. apply H. now right.
    + change (add (oy j) v_spacing) with (oy (S j)). pose proof (put_is _ _ _ _ _ m x (oy j) L) as L'. rewrite <- app_assoc in L'. destruct (IH (S j) _ _ _ _ _ _ L' N2) as (P' & A & B & C).
      { intros m' I. destruct (H m' (or_intror I)) as [X Y]. split; [exact X|]. rewrite map_app. intros Q. apply in_app_or in Q as [Q|[Q|[]]]; [tauto|]. unfold sid in Q. cbn in Q. apply N1. rewrite Q. now apply in_map. }
      exists (Spot m x (oy j) (num n) :: P'). cbn [length]. rewrite <- Nat.add_succ_comm. split; [rewrite !app_assoc in A; rewrite <- !app_assoc in *; exact A|]. split; [|now constructor].
      cbn [map]. rewrite B. reflexivity.
Qed.

(** ** The grid *)
Definition cell_x (hz : bool) (count i : nat) : N := add 1000000 (mul (idx (i mod (if hz then Nat.min count 5 else 1))) h_spacing).
Definition cell_y (hz : bool) (count i : nat) : N := add 1800000 (mul (idx (if hz then i / Nat.min count 5 else i)) v_spacing).
Definition cell_keys (hz : bool) (count j : nat) (ms : list mention) : list (string * N * N) := map (fun jm => (m_id (snd jm), cell_x hz count (fst jm), cell_y hz count (fst jm))) (combine (seq j (length ms)) ms).
Lemma cells_put hz count ms : forall j l P F T n, lay_is l P F T n -> (forall m, In m ms -> In m M) ->
  exists P', lay_is (fold_left (put_cell hz count) (combine (seq j (length ms)) (map node_of ms)) l) (P ++ P')%list F T (n + length P')
    /\ map key P' = cell_keys hz count j ms /\ Forall (fun s => In (sp_m s) M) P'.
Proof.
  induction ms as [|m ms IH]; intros j l P F T n L H.
  - exists []. cbn. rewrite app_nil_r, Nat.add_0_r. auto.
  - cbn [map length seq combine fold_left]. destruct (IH (S j) _ _ _ _ _ (put_is _ _ _ _ _ m (cell_x hz count j) (cell_y hz count j) L)) as (P' & A & B & C); [intros; apply H; now right|].
    exists (Spot m (cell_x hz count j) (cell_y hz count j) (num n) :: P'). cbn [length]. rewrite <- Nat.add_succ_comm. split; [rewrite <- app_assoc in A|split; [cbn [map]; now rewrite B|constructor; [apply H; now left|exact C]]].
    unfold cell_x, cell_y in *. unfold put_cell at 2. destruct hz; exact A.
Qed.
End Lay.
