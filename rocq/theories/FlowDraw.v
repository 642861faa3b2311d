(** The drawing of a flowchart: nodes, groups and lines. *)
From Coq Require Import String Ascii List Bool Arith NArith ZArith Permutation Lia.
From Verif Require Import Str Num ColorModel TableModel ShapeModel ConnectorModel FlowModel FlowSpec FlowText FlowParse FlowLay.
Import ListNotations.
Open Scope nat_scope.
Open Scope string_scope.

Lemma combine_length_seq {A} j (l : list A) : length (combine (seq j (length l)) l) = length l.
Proof. rewrite combine_length, seq_length. lia. Qed.
Lemma combine_seq_in {A} (l : list A) : forall j p, In p (combine (seq j (length l)) l) <-> j <= fst p /\ nth_error l (fst p - j) = Some (snd p).
Proof.
  induction l as [|a l IH]; intros j [i x]; cbn [length seq combine].
  - cbn. split; [tauto|]. intros [_ H]. destruct (i - j); discriminate.
  - cbn [In fst snd]. rewrite IH. cbn [fst snd]. split.
    + intros [E|[H1 H2]]; [injection E as <- <-; rewrite Nat.sub_diag; cbn; split; [lia|reflexivity]|]. split; [lia|]. replace (i - j) with (S (i - S j)) by lia. exact H2.
    + intros [H1 H2]. destruct (Nat.eq_dec i j) as [->|N]; [left; rewrite Nat.sub_diag in H2; cbn in H2; congruence|right]. split; [lia|]. replace (i - j) with (S (i - S j)) in H2 by lia. exact H2.
Qed.
Lemma numbered_in {A} (l : list A) k x : In (k, x) (numbered l) <-> nth_error l k = Some x.
Proof. unfold numbered. rewrite combine_seq_in. cbn [fst snd]. rewrite Nat.sub_0_r. split; [tauto|]. intros H. split; [lia|exact H]. Qed.
Lemma group_key_ids kg : map (fun q => fst (fst q)) (group_keys kg) = snd (snd kg).
Proof.
  unfold group_keys, numbered. rewrite map_map. generalize 0. induction (snd (snd kg)) as [|i l IH]; intros j; [reflexivity|]. cbn. f_equal. apply IH.
Qed.
Lemma groups_key_ids gs : forall j, map (fun q => fst (fst q)) (flat_map group_keys (combine (seq j (length gs)) gs)) = flat_map snd gs.
Proof. induction gs as [|g gs IH]; intros j; [reflexivity|]. cbn [length seq combine flat_map]. now rewrite map_app, group_key_ids, IH. Qed.
Lemma key_ids P : map (fun q => fst (fst q)) (map key P) = map sid P.
Proof. rewrite map_map. reflexivity. Qed.
Lemma orphan_key_ids x j ms : map (fun q => fst (fst q)) (orphan_keys x j ms) = map m_id ms.
Proof. unfold orphan_keys. rewrite map_map. cbn [fst snd]. revert j. induction ms as [|m ms IH]; intros j; [reflexivity|]. cbn. f_equal. apply IH. Qed.
Lemma cell_key_ids hz n j ms : map (fun q => fst (fst q)) (cell_keys hz n j ms) = map m_id ms.
Proof. unfold cell_keys. rewrite map_map. cbn [fst snd]. revert j. induction ms as [|m ms IH]; intros j; [reflexivity|]. cbn. f_equal. apply IH. Qed.

Definition loose (gs : list (string * list string)) (m : mention) : bool := negb (existsb (String.eqb (m_id m)) (flat_map snd gs)).
Definition all_keys (hz : bool) (M : list mention) (gs : list (string * list string)) : list (string * N * N) :=
  match gs with
  | [] => cell_keys hz (length M) 0 M
  | _ => (flat_map group_keys (numbered gs) ++ orphan_keys (gx (length gs)) 0 (filter (loose gs) M))%list
  end.
Lemma nodup_filter {A} (f : A -> bool) (g : A -> string) l : NoDup (map g l) -> NoDup (map g (filter f l)).
Proof.
  induction l as [|a l IH]; [auto|]. cbn. intros N. inversion_clear N. destruct (f a); [|auto]. cbn. constructor; [|auto]. intros I. apply H. apply in_map_iff in I as (b & E & I).
  apply filter_In in I as [I _]. rewrite <- E. now apply in_map.
Qed.
Lemma all_key_nodup hz M gs : NoDup (map m_id M) -> NoDup (flat_map snd gs) -> NoDup (map (fun q => fst (fst q)) (all_keys hz M gs)).
Proof.
  intros N G. unfold all_keys. destruct gs as [|g gs]; [now rewrite cell_key_ids|]. rewrite map_app, orphan_key_ids. unfold numbered. rewrite groups_key_ids.
  remember (g :: gs) as gg. clear Heqgg g gs. pose proof (nodup_filter (loose gg) m_id M N) as K.
  assert (D : forall i, In i (flat_map snd gg) -> ~ In i (map m_id (filter (loose gg) M))).
  { intros i I J. apply in_map_iff in J as (m & E & J). apply filter_In in J as [_ J]. unfold loose in J. apply negb_true_iff in J. assert (existsb (String.eqb (m_id m)) (flat_map snd gg) = true); [|congruence].
    apply existsb_exists. exists i. split; [exact I|]. rewrite E. apply String.eqb_refl. }
  revert G D. generalize (flat_map snd gg) as a. generalize dependent (map m_id (filter (loose gg) M)). intros b B a. induction a as [|x a IH]; intros G D; [exact B|]. cbn. inversion_clear G. constructor.
  - intros I. apply in_app_or in I as [I|I]; [tauto|]. exact (D x (or_introl eq_refl) I).
  - apply IH; [assumption|]. intros i I. apply D. now right.
Qed.
Lemma all_key_covers hz M gs m : In m M -> In (m_id m) (map (fun q => fst (fst q)) (all_keys hz M gs)).
Proof.
  intros I. unfold all_keys. destruct gs as [|g gs]; [rewrite cell_key_ids; now apply in_map|]. rewrite map_app, orphan_key_ids. unfold numbered. rewrite groups_key_ids. apply in_or_app.
  remember (g :: gs) as gg. destruct (existsb (String.eqb (m_id m)) (flat_map snd gg)) eqn:E.
  - left. apply existsb_exists in E as (i & J & E). apply String.eqb_eq in E. now subst.
  - right. apply in_map. apply filter_In. split; [exact I|]. unfold loose. now rewrite E.
Qed.
Lemma lay_all d M es gs : NoDup (map m_id M) -> NoDup (flat_map snd gs) -> (forall i, In i (flat_map snd gs) -> In i (map m_id M)) ->
  exists P T, lay_is (lay_nodes (Flowchart d (map node_of M) es (map group_of gs))) P (map frame (numbered gs)) T (length P + length gs)
    /\ map key P = all_keys (horizontal d) M gs /\ NoDup (map sid P) /\ Permutation (map sp_m P) M /\ Forall2 (fun kg t => exists i, t = title kg i) (numbered gs) T.
Proof.
  intros N G S. assert (L0 : lay_is (Lay [] [] [] [] 10) [] [] [] 0) by (constructor; reflexivity).
  assert (X : exists P T, lay_is (lay_nodes (Flowchart d (map node_of M) es (map group_of gs))) P (map frame (numbered gs)) T (length P + length gs)
    /\ map key P = all_keys (horizontal d) M gs /\ Forall (fun s => In (sp_m s) M) P /\ Forall2 (fun kg t => exists i, t = title kg i) (numbered gs) T).
  { unfold lay_nodes. cbn [f_groups f_dir f_nodes]. destruct gs as [|g gs].
    - cbn [map]. unfold numbered. rewrite !map_length. destruct (cells_put M (horizontal d) (length M) M 0 _ _ _ _ _ L0) as (P & A & B & C); [auto|].
      exists P, []. cbn [app] in A. rewrite Nat.add_0_r. split; [exact A|]. split; [exact B|]. split; [exact C|constructor].
    - cbn [map]. change (group_of g :: map group_of gs) with (map group_of (g :: gs)). remember (g :: gs) as gg eqn:EG. unfold numbered at 1. rewrite map_length.
      destruct (groups_put M N gg 0 _ _ _ _ _ L0 S) as (P1 & T1 & l1 & E & A & B & C & D). change 500000%N with (gx 0). rewrite E. cbn [app] in A. cbn [Nat.add] in *.
      assert (A1 : lay_is l1 (P1 ++ []) (map frame (numbered gg)) T1 (length (flat_map snd gg) + length gg)) by (rewrite app_nil_r; exact A).
      destruct (orphans_put M (gx (length gg)) M 0 l1 [] P1 _ _ _ A1 N) as (P2 & A2 & B2 & C2); [auto|]. rewrite app_nil_r in A2.
      assert (ID : map sid P1 = flat_map snd gg) by (rewrite <- key_ids, B; apply groups_key_ids).
      exists (P1 ++ P2)%list, T1. split; [|split; [|split]].
      + assert (LN : length P1 = length (flat_map snd gg)) by (rewrite <- ID, map_length; reflexivity). rewrite app_length, LN. replace (length (flat_map snd gg) + length P2 + length gg) with (length (flat_map snd gg) + length gg + length P2) by lia. exact A2.
      + rewrite map_app, B, B2. unfold all_keys, numbered. subst gg. f_equal. f_equal. apply filter_ext. intros m. unfold fresh, loose. now rewrite ID.
      + now apply Forall_app.
      + exact D. }
  destruct X as (P & T & A & B & C & D). exists P, T. split; [exact A|]. split; [exact B|]. assert (ND : NoDup (map sid P)) by (rewrite <- key_ids, B; now apply all_key_nodup). split; [exact ND|]. split; [|exact D].
  apply NoDup_Permutation.
  - apply (NoDup_map_inv m_id). rewrite map_map. exact ND.
  - now apply NoDup_map_inv in N.
  - intros m. split; intros I.
    + apply in_map_iff in I as (s & <- & I). rewrite Forall_forall in C. auto.
    + pose proof (all_key_covers (horizontal d) M gs m I) as K. rewrite <- B, key_ids in K. apply in_map_iff in K as (s & E & K). rewrite Forall_forall in C.
      rewrite <- (same_id M N (sp_m s) m (C s K) I E). now apply in_map.
Qed.

(** ** Lines *)
Definition edge_conn (hz : bool) (s1 s2 : spot) (e : edge) : connector :=
  let '(ss, es, x1, y1, x2, y2) :=
    if hz then (Right_, Left_, add (sp_x s1) node_width, add (sp_y s1) (node_height / 2), sp_x s2, add (sp_y s2) (node_height / 2))
    else (Bottom, Top, add (sp_x s1) (node_width / 2), add (sp_y s1) node_height, add (sp_x s2) (node_width / 2), sp_y s2) in
  Connector (if near x1 x2 || near y1 y2 then Straight else Elbow) x1 y1 x2 y2 (style_color (e_style e)) 19050 (style_dash (e_style e)) NoArrow Triangle Medium
    (Some (sp_num s1)) (Some ss) (Some (sp_num s2)) (Some es) None.
Definition edge_ends (P : list spot) (hz : bool) (e : edge) (c : connector) : Prop :=
  exists s1 s2, In s1 P /\ In s2 P /\ sid s1 = e_from e /\ sid s2 = e_to e /\ c = edge_conn hz s1 s2 e.
Definition label_ok (s : shape) : Prop := sh_w s = 600000%N /\ sh_h s = 250000%N.
Lemma edges_put hz P es : NoDup (map sid P) -> forall l cns k,
  l_pos l = rev (map (fun s => (sid s, (sp_x s, sp_y s))) P) -> l_ids l = rev (map (fun s => (sid s, sp_num s)) P) -> l_next l = num k ->
  (forall e, In e es -> In (e_from e) (map sid P) /\ In (e_to e) (map sid P)) ->
  exists L C l', fold_left (put_edge hz) es (l, cns) = (l', (cns ++ C)%list) /\ l_shapes l' = (l_shapes l ++ L)%list
    /\ map sh_text L = map Some (flat_map (fun e => some_list (e_label e)) es) /\ nums L = map num (seq k (length L)) /\ Forall label_ok L
    /\ Forall2 (edge_ends P hz) es C.
Proof.
  intros N. assert (LK : forall {A} (f : spot -> A) i, In i (map sid P) -> exists s, In s P /\ sid s = i /\ lookup i (rev (map (fun s => (sid s, f s)) P)) = Some (f s)).
  { intros A f i I. apply in_map_iff in I as (s & <- & I). exists s. split; [exact I|]. split; [reflexivity|]. apply lookup_some.
    - rewrite map_rev, map_map. cbn [fst]. apply NoDup_rev. exact N.
    - apply in_rev_map. eauto. }
  assert (SAME : forall s t, In s P -> In t P -> sid s = sid t -> s = t).
  { clear LK. intros s t. revert N. induction P as [|a l IH]; [destruct 2|]. cbn. intros N A B E. inversion_clear N. destruct A as [<-|A], B as [<-|B]; auto.
    - exfalso. apply H. rewrite E. now apply in_map.
    - exfalso. apply H. rewrite <- E. now apply in_map. }
  induction es as [|e es IH]; intros l cns k LP LI LN H.
  - exists [], [], l. cbn. rewrite !app_nil_r. repeat split; constructor.
  - cbn [fold_left]. destruct (H e (or_introl eq_refl)) as [H1 H2].
    destruct (LK _ (fun s => (sp_x s, sp_y s)) _ H1) as (s1 & I1 & E1 & K1). destruct (LK _ (fun s => (sp_x s, sp_y s)) _ H2) as (s2 & I2 & E2 & K2).
    destruct (LK _ sp_num _ H1) as (t1 & J1 & F1 & Q1). destruct (LK _ sp_num _ H2) as (t2 & J2 & F2 & Q2).
    assert (t1 = s1) by (apply SAME; congruence). assert (t2 = s2) by (apply SAME; congruence). subst t1 t2. clear J1 J2 F1 F2.
    assert (ST : exists L0 l1, put_edge hz (l, cns) e = (l1, (cns ++ [edge_conn hz s1 s2 e])%list) /\ l_shapes l1 = (l_shapes l ++ L0)%list /\ l_pos l1 = l_pos l /\ l_ids l1 = l_ids l /\ l_next l1 = num (k + length L0)
      /\ map sh_text L0 = map Some (some_list (e_label e)) /\ nums L0 = map num (seq k (length L0)) /\ Forall label_ok L0).
    { unfold put_edge. rewrite LP, LI, K1, K2, Q1, Q2. unfold edge_conn. destruct hz; cbn [fst snd]; destruct (e_label e) as [t|].
      all: try (eexists [_], _; split; [reflexivity|]; cbn [l_shapes l_pos l_ids l_next]; split; [reflexivity|]; split; [now rewrite ?LP|]; split; [now rewrite ?LI|]; split;
        [cbn [length]; rewrite LN, num_next; f_equal; lia|]; split; [reflexivity|]; split; [cbn; now rewrite LN|]; repeat constructor).
      all: exists [], l; split; [reflexivity|]; rewrite app_nil_r, Nat.add_0_r; repeat split; auto. }
    destruct ST as (L0 & l1 & E0 & SH & P1 & I1' & N1 & TX & NU & OK). rewrite E0.
    destruct (IH l1 (cns ++ [edge_conn hz s1 s2 e])%list (k + length L0)) as (L & C & l' & A & B & D & E & O & F); [now rewrite P1|now rewrite I1'|exact N1|intros; apply H; now right|].
    exists (L0 ++ L)%list, (edge_conn hz s1 s2 e :: C), l'. split; [rewrite <- app_assoc in A; exact A|]. split; [rewrite B, SH, app_assoc; reflexivity|]. split; [|split; [|split]].
    + cbn [flat_map]. now rewrite !map_app, TX, D.
    + unfold nums in *. rewrite flat_map_app, NU, E, app_length, seq_app, map_app. reflexivity.
    + now apply Forall_app.
    + constructor; [|exact F]. exists s1, s2. auto 6.
Qed.
