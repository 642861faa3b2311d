(** The drawing of a flowchart shows the flowchart. *)
From Coq Require Import String Ascii List Bool Arith NArith ZArith Permutation Lia.
From Verif Require Import Str Num ColorModel TableModel ShapeModel ConnectorModel FlowModel FlowSpec FlowText FlowParse FlowLay FlowDraw.
Import ListNotations.
Open Scope nat_scope.
Open Scope string_scope.

Lemma firsts_fresh l : forall seen i, In i (map m_id (firsts seen l)) -> ~ In i seen.
Proof.
  induction l as [|m l IH]; intros seen i; [destruct 1|]. cbn [firsts]. destruct (existsb (String.eqb (m_id m)) seen) eqn:E; [apply IH|]. cbn [map In]. intros [<-|H].
  - intros I. assert (existsb (String.eqb (m_id m)) seen = true); [|congruence]. apply existsb_exists. exists (m_id m). split; [exact I|apply String.eqb_refl].
  - apply IH in H. intros I. apply H. now right.
Qed.
Lemma firsts_nodup l : forall seen, NoDup (map m_id (firsts seen l)).
Proof.
  induction l as [|m l IH]; intros seen; [constructor|]. cbn [firsts]. destruct (existsb (String.eqb (m_id m)) seen) eqn:E; [apply IH|]. cbn [map]. constructor; [|apply IH].
  intros I. apply firsts_fresh in I. apply I. now left.
Qed.
Lemma firsts_in l : forall seen m, In m (firsts seen l) -> In m l.
Proof. induction l as [|a l IH]; intros seen m; [destruct 1|]. cbn [firsts]. destruct (existsb _ seen); [right; eauto|]. intros [H|H]; [now left|right; eauto]. Qed.
Lemma firsts_all l : forall seen m, In m l -> In (m_id m) seen \/ In (m_id m) (map m_id (firsts seen l)).
Proof.
  induction l as [|a l IH]; intros seen m; [destruct 1|]. cbn [firsts]. intros H. destruct (existsb (String.eqb (m_id a)) seen) eqn:E.
  - destruct H as [->|H]; [|now apply IH]. left. apply existsb_exists in E as (i & I & E). apply String.eqb_eq in E. now subst.
  - destruct H as [->|H]; [right; now left|]. destruct (IH (m_id a :: seen) m H) as [[K|K]|K]; [right; now left|now left|right; now right].
Qed.
Lemma group_in doc i : In i (flat_map snd (groups doc)) -> In i (map m_id (nodes doc)).
Proof.
  intros H. apply in_flat_map in H as (g & G & I). unfold groups in G. apply in_flat_map in G as (it & D & G). destruct it as [t| |s|n b]; try destruct G as [<-|[]]; try destruct G.
  cbn [snd] in I. apply in_map_iff in I as (m & <- & I). apply firsts_in in I. destruct (firsts_all (mentions doc) [] m) as [[]|K]; [|exact K]. unfold mentions.
  apply in_flat_map in I as (s & S & I). apply in_flat_map. exists s. split; [|exact I]. apply in_flat_map. exists (Group n b). auto.
Qed.
Lemma join_in doc j : In j (joins doc) -> In (j_from j) (map m_id (nodes doc)) /\ In (j_to j) (map m_id (nodes doc)).
Proof.
  intros H. unfold joins in H. apply in_flat_map in H as (s & S & H). destruct s as [m|a k t b]; [destruct H|]. destruct H as [<-|[]]. cbn [j_from j_to].
  assert (A : forall m, In m [a; b] -> In (m_id m) (map m_id (nodes doc))).
  { intros m I. destruct (firsts_all (mentions doc) [] m) as [[]|K]; [|exact K]. unfold mentions. apply in_flat_map. exists (Join a k t b). auto. }
  split; apply A; cbn; auto.
Qed.
Lemma Forall2_map_l {A B C} (f : A -> B) (R : B -> C -> Prop) l r : Forall2 R (map f l) r -> Forall2 (fun x y => R (f x) y) l r.
Proof. revert r. induction l as [|a l IH]; intros r H; inversion_clear H; constructor; auto. Qed.
Lemma Forall2_weaken {A B} (R S : A -> B -> Prop) l r : (forall x y, In x l -> R x y -> S x y) -> Forall2 R l r -> Forall2 S l r.
Proof. intros H F. induction F as [|x y l r X F IH]; constructor; [apply H; [now left|exact X]|]. apply IH. intros. apply H; [now right|assumption]. Qed.

(** ** Exact coordinates *)
Open Scope N_scope.
Lemma idx_exact n : (N.of_nat n <= u32_max) -> idx n = N.of_nat n.
Proof. intros H. unfold idx. apply N.mod_small. lia. Qed.
Lemma add_exact a b : a + b <= 4294967295 -> add a b = a + b.
Proof. intros H. unfold add. apply wadd_exact. exact H. Qed.
Lemma mul_exact a b : a * b <= 4294967295 -> mul a b = a * b.
Proof. intros H. unfold mul. apply wmul_exact. exact H. Qed.
Lemma gx_exact k : (k <= 800)%nat -> gx k = 500000 + 2400000 * N.of_nat k.
Proof.
  induction k as [|k IH]; intros H; [reflexivity|]. unfold gx in *. rewrite iter_S, IH by lia. change (add (add node_width 400000) 600000) with 2400000. rewrite add_exact by lia. lia.
Qed.
Lemma oy_exact j : (j <= 800)%nat -> oy j = 1600000 + 900000 * N.of_nat j.
Proof. induction j as [|j IH]; intros H; [reflexivity|]. unfold oy in *. rewrite iter_S, IH by lia. unfold v_spacing. rewrite add_exact by lia. lia. Qed.
Lemma my_exact j : (j <= 800)%nat -> my j = 2050000 + 900000 * N.of_nat j.
Proof. intros H. unfold my, v_spacing. rewrite idx_exact by (unfold u32_max; lia). rewrite mul_exact by lia. change (add (add 1600000 250000) 200000) with 2050000. rewrite add_exact by lia. lia. Qed.
Lemma frame_h_exact n : (n <= 800)%nat -> frame_h n = 650000 + 900000 * N.of_nat n.
Proof. intros H. unfold frame_h, v_spacing. rewrite idx_exact by (unfold u32_max; lia). rewrite mul_exact by lia. rewrite (add_exact _ 400000) by lia. rewrite add_exact by lia. lia. Qed.
Lemma cell_x_exact hz n i : (0 < n)%nat -> cell_x hz n i = 1000000 + 1800000 * N.of_nat (i mod (if hz then Nat.min n 5 else 1))%nat.
Proof.
  intros H. unfold cell_x, h_spacing. assert (B : (i mod (if hz then Nat.min n 5 else 1) < 5)%nat).
  { destruct hz; [|rewrite Nat.mod_1_r; lia]. pose proof (Nat.mod_upper_bound i (Nat.min n 5)). lia. }
  rewrite idx_exact by (unfold u32_max; lia). rewrite mul_exact by lia. rewrite add_exact by lia. lia.
Qed.
Lemma cell_y_exact hz n i : (0 < n)%nat -> (i <= 800)%nat -> cell_y hz n i = 1800000 + 900000 * N.of_nat (if hz then i / Nat.min n 5 else i)%nat.
Proof.
  intros H I. unfold cell_y, v_spacing. assert (B : ((if hz then i / Nat.min n 5 else i) <= 800)%nat).
  { destruct hz; [|lia]. pose proof (Nat.div_le_upper_bound i (Nat.min n 5) i). assert (i <= Nat.min n 5 * i)%nat by nia. lia. }
  rewrite idx_exact by (unfold u32_max; lia). rewrite mul_exact by lia. rewrite add_exact by lia. lia.
Qed.
Lemma num_nodup k n : (k + n <= 2000)%nat -> NoDup (map num (seq k n)).
Proof.
  intros H. assert (I : forall a, (a <= 2000)%nat -> num a = N.of_nat (10 + a)) by (intros a A; unfold num; rewrite idx_exact by (unfold u32_max; lia); reflexivity).
  rewrite (map_ext_in num (fun a => N.of_nat (10 + a))) by (intros a A; apply in_seq in A; apply I; lia).
  apply FinFun.Injective_map_NoDup; [intros a b E; lia|apply seq_NoDup].
Qed.
Open Scope nat_scope.

Definition place_of (P : list spot) : list (mention * shape) := map (fun s => (sp_m s, spot_shape s)) P.
Lemma label_count es : length (flat_map (fun e : edge => some_list (e_label e)) es) <= length es.
Proof. induction es as [|e es IH]; [cbn; lia|]. cbn [flat_map length]. rewrite app_length. destruct (e_label e); cbn [some_list length]; lia. Qed.
Lemma shown m x y i : shown_as m (create_node_shape (node_of m) x y node_width node_height i).
Proof. split; [reflexivity|]. unfold create_node_shape, outline. cbn. unfold kind_of. destruct (m_look m) as [[[] t]|]; reflexivity. Qed.

Section Thm.
Variable wordy : string -> bool.
Variable order : list node -> list node.
Hypothesis order_perm : forall l, Permutation (order l) l.
Variable w : way.
Variable doc : list item.
Variable code : string.
Hypothesis H_ok : doc_ok wordy doc = true.
Hypothesis H_written : written w doc code.
Hypothesis H_some : mentions doc <> [].
Hypothesis H_apart : apart doc.

(** Where a node is. *)
Definition position (M : list mention) (s : spot) : Prop :=
  match groups doc with
  | [] => exists i, i < length M /\ nth_error (map m_id M) i = Some (sid s) /\ sp_x s = cell_x (horizontal (way_of w)) (length M) i /\ sp_y s = cell_y (horizontal (way_of w)) (length M) i
  | _ => (exists k g j, nth_error (groups doc) k = Some g /\ nth_error (snd g) j = Some (sid s) /\ sp_x s = add (gx k) 200000 /\ sp_y s = my j)
         \/ (exists j, j < length M /\ nth_error (map m_id (filter (loose (groups doc)) M)) j = Some (sid s) /\ sp_x s = gx (length (groups doc)) /\ sp_y s = oy j)
  end.
Lemma filter_le {A} (f : A -> bool) l : length (filter f l) <= length l.
Proof. induction l as [|a l IH]; [cbn; lia|]. cbn. destruct (f a); cbn; lia. Qed.
Lemma positions M P : map key P = all_keys (horizontal (way_of w)) M (groups doc) -> forall s, In s P -> position M s.
Proof.
  intros K s I. apply (in_map key) in I. rewrite K in I. unfold position. unfold all_keys in I. destruct (groups doc) as [|g0 gs0] eqn:EG.
  - unfold cell_keys in I. apply in_map_iff in I as ([i m] & E & I). apply combine_seq_in in I as [_ I]. cbn [fst snd] in *. rewrite Nat.sub_0_r in I. injection E as E1 E2 E3.
    exists i. split; [apply nth_error_Some; congruence|]. split; [rewrite nth_error_map, I; cbn; now rewrite E1|]. now rewrite E2, E3.
  - rewrite <- EG in *. apply in_app_or in I as [I|I].
    + left. apply in_flat_map in I as ([k g] & G & I). apply numbered_in in G. unfold group_keys in I. cbn [fst snd] in I. apply in_map_iff in I as ([j i] & E & I). apply numbered_in in I. unfold member_key in E. cbn [fst snd] in E.
      injection E as E1 E2 E3. exists k, g, j. rewrite E1 in I. split; [exact G|]. split; [exact I|]. now rewrite E2, E3.
    + right. unfold orphan_keys in I. apply in_map_iff in I as ([j m] & E & I). apply combine_seq_in in I as [_ I]. cbn [fst snd] in *. rewrite Nat.sub_0_r in I. injection E as E1 E2 E3.
      exists j. assert (j < length (filter (loose (groups doc)) M)) by (apply nth_error_Some; congruence). pose proof (filter_le (loose (groups doc)) M).
      split; [lia|]. split; [rewrite nth_error_map, I; cbn; now rewrite E1|]. now rewrite E2, E3.
Qed.

Lemma flow_all : exists M P T L C, Permutation M (nodes doc)
  /\ d_shapes (flow_drawing wordy order code) = (l_shapes (lay_nodes (Flowchart (way_of w) (map node_of M) (map edge_of (joins doc)) (map group_of (groups doc)))) ++ L)%list
  /\ d_connectors (flow_drawing wordy order code) = C
  /\ lay_is (lay_nodes (Flowchart (way_of w) (map node_of M) (map edge_of (joins doc)) (map group_of (groups doc)))) P (map frame (numbered (groups doc))) T (length P + length (groups doc))
  /\ map key P = all_keys (horizontal (way_of w)) M (groups doc) /\ NoDup (map sid P) /\ Permutation (map sp_m P) M /\ Forall2 (fun kg t => exists i, t = title kg i) (numbered (groups doc)) T
  /\ map sh_text L = map Some (flat_map (fun j => some_list (j_label j)) (joins doc)) /\ nums L = map num (seq (length P + length (groups doc)) (length L)) /\ Forall label_ok L
  /\ Forall2 (fun j => edge_ends P (horizontal (way_of w)) (edge_of j)) (joins doc) C.
Proof.
  unfold flow_drawing. rewrite (flow_read wordy order w doc code H_ok H_written). pose proof (order_perm (map node_of (nodes doc))) as O.
  apply Permutation_map_inv in O as (M & E & PM). rewrite E. apply Permutation_sym in PM.
  assert (N : NoDup (map m_id M)). { apply (Permutation_NoDup (l := map m_id (nodes doc))); [apply Permutation_map; now apply Permutation_sym|apply firsts_nodup]. }
  assert (G : forall i, In i (flat_map snd (groups doc)) -> In i (map m_id M)). { intros i I. apply group_in in I. revert I. apply Permutation_in. apply Permutation_map. now apply Permutation_sym. }
  destruct (lay_all (way_of w) M (map edge_of (joins doc)) (groups doc) N H_apart G) as (P & T & A & B & C & D & F).
  assert (PID : Permutation (map sid P) (map m_id M)) by (change (map sid P) with (map (fun s => m_id (sp_m s)) P); rewrite <- map_map; now apply Permutation_map).
  destruct (edges_put (horizontal (way_of w)) P (map edge_of (joins doc)) C _ [] _ (li_pos _ _ _ _ _ A) (li_ids _ _ _ _ _ A) (li_next _ _ _ _ _ A)) as (L & CC & l' & Q1 & Q2 & Q3 & Q4 & Q5 & Q6).
  { intros e I. apply in_map_iff in I as (j & <- & I). apply join_in in I as [I1 I2]. cbn [edge_of e_from e_to].
    split; (eapply Permutation_in; [apply Permutation_sym; exact PID|]); (eapply Permutation_in; [apply Permutation_map, Permutation_sym; exact PM|]); assumption. }
  exists M, P, T, L, CC. split; [exact PM|]. unfold flow_draw. cbn [f_nodes f_dir f_edges].
  assert (NE : map node_of M <> []). { intros Z. apply map_eq_nil in Z. subst M. apply Permutation_nil in PM. destruct (mentions doc) as [|m ms] eqn:X; [congruence|]. unfold nodes in PM. rewrite X in PM. discriminate. }
  destruct (map node_of M) as [|n0 ns0] eqn:EN; [congruence|]. rewrite <- EN in *. rewrite Q1. cbn [d_shapes d_connectors app]. split; [exact Q2|]. split; [reflexivity|]. split; [exact A|].
  split; [exact B|]. split; [exact C|]. split; [exact D|]. split; [exact F|]. split; [|split; [exact Q4|split; [exact Q5|]]].
  - rewrite Q3. f_equal. clear. induction (joins doc) as [|j l IH]; [reflexivity|]. cbn [map flat_map]. now rewrite IH.
  - now apply Forall2_map_l in Q6.
Qed.

Lemma numbered_length {A} (l : list A) : length (numbered l) = length l.
Proof. apply combine_length_seq. Qed.
Lemma numbered_snd {A} (l : list A) : map snd (numbered l) = l.
Proof. unfold numbered. generalize 0. induction l as [|a l IH]; intros j; [reflexivity|]. cbn. f_equal. apply IH. Qed.
Lemma place_in P m s : In (m, s) (place_of P) <-> exists p, In p P /\ m = sp_m p /\ s = spot_shape p.
Proof. unfold place_of. rewrite in_map_iff. split; [intros (p & E & I); injection E as <- <-; eauto|intros (p & I & -> & ->); eauto]. Qed.

Lemma drawn_ok M P T L C :
  Permutation M (nodes doc) ->
  d_shapes (flow_drawing wordy order code) = (l_shapes (lay_nodes (Flowchart (way_of w) (map node_of M) (map edge_of (joins doc)) (map group_of (groups doc)))) ++ L)%list ->
  d_connectors (flow_drawing wordy order code) = C ->
  lay_is (lay_nodes (Flowchart (way_of w) (map node_of M) (map edge_of (joins doc)) (map group_of (groups doc)))) P (map frame (numbered (groups doc))) T (length P + length (groups doc)) ->
  Permutation (map sp_m P) M -> Forall2 (fun kg t => exists i, t = title kg i) (numbered (groups doc)) T ->
  map sh_text L = map Some (flat_map (fun j => some_list (j_label j)) (joins doc)) ->
  Forall2 (fun j => edge_ends P (horizontal (way_of w)) (edge_of j)) (joins doc) C ->
  drawn doc (d_shapes (flow_drawing wordy order code)) (d_connectors (flow_drawing wordy order code)) (place_of P) (map frame (numbered (groups doc))) T L.
Proof.
  intros PM SH CN A D F TX ED. rewrite SH, CN. constructor.
  - unfold place_of. rewrite map_map. cbn [snd]. pose proof (li_shapes _ _ _ _ _ A) as X. transitivity ((map frame (numbered (groups doc)) ++ T ++ map spot_shape P) ++ L)%list; [now apply Permutation_app_tail|]. rewrite <- !app_assoc. reflexivity.
  - unfold place_of. rewrite map_map. cbn [fst]. now transitivity M.
  - unfold place_of. apply Forall_map, Forall_forall. intros s _. cbn [fst snd]. apply shown.
  - split; [now rewrite map_length, numbered_length|]. apply Forall_map, Forall_forall. reflexivity.
  - transitivity (map (fun g : string * list string => Some (fst g)) (map snd (numbered (groups doc)))); [|now rewrite numbered_snd]. rewrite map_map. clear - F. induction F as [|[k g] t l r (i & ->) F IH]; [reflexivity|]. cbn [map]. rewrite IH. reflexivity.
  - exact TX.
  - revert ED. apply Forall2_weaken. intros j c _ (s1 & s2 & I1 & I2 & E1 & E2 & ->). cbn [edge_of e_from e_to] in E1, E2.
    exists (sp_m s1), (spot_shape s1), (sp_m s2), (spot_shape s2). split; [apply place_in; eauto|]. split; [exact E1|]. split; [apply place_in; eauto|]. split; [exact E2|].
    unfold edge_conn. destruct (horizontal (way_of w)); cbn [start_shape end_shape line_color line_dash end_arrow];
      (split; [exists (sp_num s1); split; reflexivity|]; split; [exists (sp_num s2); split; reflexivity|]; split; [|reflexivity]; cbn; destruct (j_kind j); reflexivity).
Qed.

(** ** Places *)
Lemma nth_unique {A} (l : list (string * list A)) : NoDup (flat_map snd l) -> forall k k' g g' i, nth_error l k = Some g -> nth_error l k' = Some g' -> In i (snd g) -> In i (snd g') -> k = k'.
Proof.
  induction l as [|a l IH]; intros N k k' g g' i K K' I I'; [destruct k; discriminate|]. cbn [flat_map] in N.
  assert (N2 : NoDup (flat_map snd l) /\ (forall x, In x (snd a) -> ~ In x (flat_map snd l))).
  { clear - N. revert N. generalize (flat_map snd l) as b. induction (snd a) as [|x c IH]; intros b N; [split; [exact N|intros x []]|]. cbn in N. inversion_clear N as [|? ? N1 N2]. destruct (IH b N2) as [A1 A2]. split; [exact A1|].
    intros y [<-|Y]; [intros B; apply N1, in_or_app; now right|now apply A2]. }
  destruct N2 as [N2 N3]. destruct k as [|k], k' as [|k']; cbn in K, K'; auto.
  - exfalso. injection K as <-. apply (N3 i I). apply in_flat_map. exists g'. split; [now apply nth_error_In in K'|exact I'].
  - exfalso. injection K' as <-. apply (N3 i I'). apply in_flat_map. exists g. split; [now apply nth_error_In in K|exact I].
  - f_equal. eapply IH; eauto.
Qed.
Lemma fop {A} (R : A -> A -> Prop) l : NoDup l -> (forall x y, In x l -> In y l -> x <> y -> R x y) -> ForallOrdPairs R l.
Proof.
  induction l as [|a l IH]; intros N H; [constructor|]. inversion_clear N as [|? ? N1 N2]. constructor.
  - apply Forall_forall. intros y Y. apply H; [now left|now right|]. intros ->. contradiction.
  - apply IH; [exact N2|]. intros. apply H; auto; now right.
Qed.
Lemma flat_len (gs : list (string * list string)) M : (forall i, In i (flat_map snd gs) -> In i (map m_id M)) -> NoDup (flat_map snd gs) -> length (flat_map snd gs) <= length M.
Proof. intros S N. rewrite <- (map_length m_id M). apply NoDup_incl_length; [exact N|exact S]. Qed.
Lemma part_len (gs : list (string * list string)) k g : nth_error gs k = Some g -> length (snd g) <= length (flat_map snd gs).
Proof. revert k. induction gs as [|a l IH]; intros k E; [destruct k; discriminate|]. cbn [flat_map]. rewrite app_length. destruct k; cbn in E; [injection E as ->; lia|]. apply IH in E. lia. Qed.
Definition exact_at (M : list mention) (s : spot) : Prop :=
  match groups doc with
  | [] => exists i, i < length M /\ nth_error (map m_id M) i = Some (sid s)
      /\ sp_x s = (1000000 + 1800000 * N.of_nat (i mod (if horizontal (way_of w) then Nat.min (length M) 5 else 1)))%N
      /\ sp_y s = (1800000 + 900000 * N.of_nat (if horizontal (way_of w) then i / Nat.min (length M) 5 else i))%N
  | _ => (exists k g j, nth_error (groups doc) k = Some g /\ k < length (groups doc) /\ nth_error (snd g) j = Some (sid s) /\ j < length (snd g) /\ length (snd g) <= 800
            /\ sp_x s = (700000 + 2400000 * N.of_nat k)%N /\ sp_y s = (2050000 + 900000 * N.of_nat j)%N)
         \/ (exists j, nth_error (map m_id (filter (loose (groups doc)) M)) j = Some (sid s)
            /\ sp_x s = (500000 + 2400000 * N.of_nat (length (groups doc)))%N /\ sp_y s = (1600000 + 900000 * N.of_nat j)%N)
  end.
Lemma exact_ok M s : length M + length (groups doc) <= 800 -> NoDup (map m_id M) -> (forall i, In i (flat_map snd (groups doc)) -> In i (map m_id M)) -> position M s -> exact_at M s.
Proof.
  intros B N S. pose proof (flat_len (groups doc) M S H_apart) as FL. unfold position, exact_at. destruct (groups doc) as [|g0 gs0] eqn:EG.
  - intros (i & I & E & X & Y). exists i. split; [exact I|]. split; [exact E|]. rewrite X, Y. cbn [length] in B. split; [apply cell_x_exact; lia|apply cell_y_exact; lia].
  - rewrite <- EG in *. intros [(k & g & j & E & J & X & Y)|(j & L & J & X & Y)]; [left|right].
    + assert (KB : k < length (groups doc)) by (apply nth_error_Some; congruence). assert (JB : j < length (snd g)) by (apply nth_error_Some; congruence). pose proof (part_len _ _ _ E) as PL.
      exists k, g, j. split; [exact E|]. split; [exact KB|]. split; [exact J|]. split; [exact JB|]. split; [lia|]. rewrite X, Y. rewrite gx_exact, my_exact by lia. split; [|reflexivity]. rewrite add_exact by lia. lia.
    + exists j. split; [exact J|]. rewrite X, Y, gx_exact, oy_exact by lia. split; reflexivity.
Qed.
Lemma spots_beside M s t : NoDup (map m_id M) -> exact_at M s -> exact_at M t -> sid s <> sid t -> beside (spot_shape s) (spot_shape t).
Proof.
  intros N A B D. unfold beside. change (sh_x (spot_shape s)) with (sp_x s). change (sh_y (spot_shape s)) with (sp_y s). change (sh_x (spot_shape t)) with (sp_x t). change (sh_y (spot_shape t)) with (sp_y t).
  change (sh_w (spot_shape s)) with 1400000%N. change (sh_w (spot_shape t)) with 1400000%N. change (sh_h (spot_shape s)) with 500000%N. change (sh_h (spot_shape t)) with 500000%N.
  unfold exact_at in *. destruct (groups doc) as [|g0 gs0] eqn:EG.
  - destruct A as (i & IL & IE & IX & IY), B as (j & JL & JE & JX & JY). rewrite IX, IY, JX, JY. assert (i <> j) by (intros ->; congruence).
    destruct (horizontal (way_of w)).
    + pose proof (Nat.div_mod i (Nat.min (length M) 5)) as D1. pose proof (Nat.div_mod j (Nat.min (length M) 5)) as D2. assert (Z : Nat.min (length M) 5 <> 0) by lia. specialize (D1 Z). specialize (D2 Z).
      remember (i mod Nat.min (length M) 5) as a. remember (j mod Nat.min (length M) 5) as b. remember (i / Nat.min (length M) 5) as c. remember (j / Nat.min (length M) 5) as d. remember (Nat.min (length M) 5) as n.
      assert (a <> b \/ c <> d) as [X|X]; [|clear - X; lia|clear - X; lia]. destruct (Nat.eq_dec a b); [|auto]. destruct (Nat.eq_dec c d); [|auto]. exfalso. subst c d a b. congruence.
    + clear - H. lia.
  - rewrite <- EG in *. destruct A as [(k & g & i & KE & KB & IE & IB & LB & X & Y)|(i & IE & X & Y)], B as [(k' & g' & j & KE' & KB' & JE & JB & LB' & X' & Y')|(j & JE & X' & Y')]; rewrite X, Y, X', Y'.
    + destruct (Nat.eq_dec k k') as [<-|NK]; [|clear - NK; lia]. assert (g' = g) by congruence. subst g'. assert (i <> j) by (intros ->; congruence). clear - H. lia.
    + clear - KB. lia.
    + clear - KB'. lia.
    + assert (i <> j) by (intros ->; congruence). clear - H. lia.
Qed.
Lemma bounded M s : length M + length (groups doc) <= 800 -> exact_at M s -> (sp_x s <= 2000000000)%N /\ (sp_y s <= 2000000000)%N.
Proof.
  intros B A. unfold exact_at in A. destruct (groups doc) as [|g0 gs0] eqn:EG.
  - destruct A as (i & IL & _ & -> & ->). cbn [length] in B. assert (X : i mod (if horizontal (way_of w) then Nat.min (length M) 5 else 1) < 5).
    { destruct (horizontal (way_of w)); [|rewrite Nat.mod_1_r; lia]. pose proof (Nat.mod_upper_bound i (Nat.min (length M) 5)). lia. }
    assert (Y : (if horizontal (way_of w) then i / Nat.min (length M) 5 else i) <= 800).
    { destruct (horizontal (way_of w)); [|lia]. pose proof (Nat.div_le_upper_bound i (Nat.min (length M) 5) i). assert (i <= Nat.min (length M) 5 * i) by nia. lia. }
    clear - X Y. lia.
  - rewrite <- EG in *. destruct A as [(k & g & j & KE & KB & JE & JB & LB & -> & ->)|(j & JE & -> & ->)]; [lia|].
    assert (j < length (map m_id (filter (loose (groups doc)) M))) by (apply nth_error_Some; congruence). rewrite map_length in H. pose proof (filter_le (loose (groups doc)) M). lia.
Qed.
Lemma laid_ok M P T L C : small doc ->
  Permutation M (nodes doc) ->
  d_shapes (flow_drawing wordy order code) = (l_shapes (lay_nodes (Flowchart (way_of w) (map node_of M) (map edge_of (joins doc)) (map group_of (groups doc)))) ++ L)%list ->
  d_connectors (flow_drawing wordy order code) = C ->
  lay_is (lay_nodes (Flowchart (way_of w) (map node_of M) (map edge_of (joins doc)) (map group_of (groups doc)))) P (map frame (numbered (groups doc))) T (length P + length (groups doc)) ->
  map key P = all_keys (horizontal (way_of w)) M (groups doc) -> NoDup (map sid P) ->
  Permutation (map sp_m P) M -> Forall2 (fun kg t => exists i, t = title kg i) (numbered (groups doc)) T ->
  map sh_text L = map Some (flat_map (fun j => some_list (j_label j)) (joins doc)) -> nums L = map num (seq (length P + length (groups doc)) (length L)) ->
  Forall2 (fun j => edge_ends P (horizontal (way_of w)) (edge_of j)) (joins doc) C ->
  laid_out w doc (d_shapes (flow_drawing wordy order code)) (d_connectors (flow_drawing wordy order code)) (place_of P) (map frame (numbered (groups doc))) T L.
Proof.
  intros SM PM SH CN A KE ND D F TX NU ED. rewrite SH, CN. unfold small in SM.
  assert (LM : length M = length (nodes doc)) by now apply Permutation_length. assert (LP : length P = length M) by (rewrite <- (map_length sp_m); now apply Permutation_length).
  assert (LL : length L <= length (joins doc)). { rewrite <- (map_length sh_text L), TX, map_length. clear. induction (joins doc) as [|j l IH]; [cbn; lia|]. cbn [flat_map length]. rewrite app_length. destruct (j_label j); cbn [some_list length]; lia. }
  assert (N : NoDup (map m_id M)). { apply (Permutation_NoDup (l := map m_id (nodes doc))); [apply Permutation_map; now apply Permutation_sym|apply firsts_nodup]. }
  assert (G : forall i, In i (flat_map snd (groups doc)) -> In i (map m_id M)). { intros i I. apply group_in in I. revert I. apply Permutation_in. apply Permutation_map. now apply Permutation_sym. }
  assert (AT : forall s, In s P -> exact_at M s). { intros s I. apply exact_ok; auto; [lia|]. now apply (positions M P KE). }
  assert (SAME : forall s t, In s P -> In t P -> sid s = sid t -> s = t).
  { clear - ND. intros s t. revert ND. induction P as [|a l IH]; [destruct 2|]. cbn. intros N A B E. inversion_clear N. destruct A as [<-|A], B as [<-|B]; auto.
    - exfalso. apply H. rewrite E. now apply in_map.
    - exfalso. apply H. rewrite <- E. now apply in_map. }
  constructor.
  - change (fun s : shape => some_list (sh_id s)) with (fun s : shape => some_list (sh_id s)). change (NoDup (nums (l_shapes (lay_nodes (Flowchart (way_of w) (map node_of M) (map edge_of (joins doc)) (map group_of (groups doc)))) ++ L)%list)).
    unfold nums in *. rewrite flat_map_app, NU. pose proof (li_nums _ _ _ _ _ A) as X. unfold nums in X. rewrite X, <- map_app. rewrite <- (seq_app (length P + length (groups doc)) (length L) 0 : _ = (_ ++ seq (length P + length (groups doc)) _)%list). apply num_nodup. lia.
  - unfold place_of. apply (fop (fun p q => beside (snd p) (snd q))).
    + apply (NoDup_map_inv (fun p => m_id (fst p))). rewrite map_map. exact ND.
    + intros [m s] [m' s'] I I' NE. apply place_in in I as (p & I & -> & ->). apply place_in in I' as (p' & I' & -> & ->). cbn [snd]. apply (spots_beside M); auto. intros E. apply NE. now rewrite (SAME p p' I I' E).
  - assert (X : Forall2 (fun g f => exists k, nth_error (groups doc) k = Some g /\ f = frame (k, g)) (groups doc) (map frame (numbered (groups doc)))).
    { assert (Y : forall j gs, (forall i g, nth_error gs i = Some g -> nth_error (groups doc) (j + i) = Some g) -> Forall2 (fun g f => exists k, nth_error (groups doc) k = Some g /\ f = frame (k, g)) gs (map frame (combine (seq j (length gs)) gs))).
      { intros j gs. revert j. induction gs as [|g gs IH]; intros j Q; [constructor|]. cbn [length seq combine map]. constructor; [exists j; split; [rewrite <- (Nat.add_0_r j); apply Q; reflexivity|reflexivity]|].
        apply IH. intros i g' E. rewrite Nat.add_succ_comm. apply Q. exact E. }
      apply Y. intros i g E. exact E. }
    revert X. apply Forall2_weaken. intros g f _ (k & EK & ->) m s I. apply place_in in I as (p & I & -> & ->). specialize (AT p I).
    assert (KB : k < length (groups doc)) by (apply nth_error_Some; congruence). pose proof (part_len _ _ _ EK) as PL. pose proof (flat_len (groups doc) M G H_apart) as FL.
    unfold beside, inside, frame, spot_shape, create_node_shape. cbn [sh_x sh_y sh_w sh_h with_text with_line with_fill with_id shape_new fst snd]. unfold node_width, node_height.
    rewrite gx_exact, frame_h_exact by lia. change frame_w with 1800000%N.
    assert (NG : groups doc <> []) by (intros Z; rewrite Z in KB; cbn in KB; lia). unfold exact_at in AT. destruct (groups doc) as [|g0 gs0] eqn:EG; [congruence|]. rewrite <- EG in *.
    destruct (existsb (String.eqb (m_id (sp_m p))) (snd g)) eqn:EX.
    + apply existsb_exists in EX as (i & IG & EI). apply String.eqb_eq in EI. subst i. destruct AT as [(k' & g' & j & KE' & KB' & JE & JB & LB' & X' & Y')|(j & JE & X' & Y')].
      * assert (k = k') by (eapply (nth_unique (groups doc) H_apart k k' g g'); eauto; apply nth_error_In in JE; exact JE). subst k'. assert (g' = g) by congruence. subst g'. rewrite X', Y'. clear - JB LB'. lia.
      * exfalso. apply nth_error_In in JE. apply in_map_iff in JE as (m & E & JE). apply filter_In in JE as [_ JE]. unfold loose in JE. apply negb_true_iff in JE.
        assert (existsb (String.eqb (m_id m)) (flat_map snd (groups doc)) = true); [|congruence]. apply existsb_exists. exists (sid p). split; [|apply String.eqb_eq; exact E].
        apply in_flat_map. exists g. split; [now apply nth_error_In in EK|exact IG].
    + destruct AT as [(k' & g' & j & KE' & KB' & JE & JB & LB' & X' & Y')|(j & JE & X' & Y')]; rewrite X', Y'.
      * assert (k <> k'). { intros <-. assert (g' = g) by congruence. subst g'. assert (existsb (String.eqb (m_id (sp_m p))) (snd g) = true); [|congruence]. apply existsb_exists. exists (sid p). split; [now apply nth_error_In in JE|apply String.eqb_refl]. }
        clear - H. lia.
      * clear - KB. lia.
  - assert (Y : forall j gs, j + length gs <= length (groups doc) -> ForallOrdPairs beside (map frame (combine (seq j (length gs)) gs))).
    { intros j gs. revert j. induction gs as [|g gs IH]; intros j Q; [constructor|]. cbn [length seq combine map] in *. constructor; [|apply IH; lia].
      apply Forall_map, Forall_forall. intros [k g'] I. apply combine_seq_in in I as [IK IE]. cbn [fst snd] in *. assert (k - S j < length gs) by (apply nth_error_Some; congruence).
      unfold beside, frame. cbn [sh_x sh_w with_line with_fill shape_new fst snd]. rewrite !gx_exact by lia. change frame_w with 1800000%N. left. lia. }
    apply Y. lia.
  - assert (LT : forall kg, In kg (numbered (groups doc)) -> fst kg < length (groups doc)). { intros [k g] I. apply numbered_in in I. cbn. apply nth_error_Some. congruence. }
    assert (GB : forall kg, In kg (numbered (groups doc)) -> length (snd (snd kg)) <= 800). { intros [k g] I. apply numbered_in in I. cbn. pose proof (part_len _ _ _ I). pose proof (flat_len (groups doc) M G H_apart). lia. }
    clear - F LT GB LM LP SM. induction F as [|[k g] t l r (i & ->) F IH]; [constructor|]. cbn [map]. constructor; [|apply IH; intros; [apply LT|apply GB]; now right].
    specialize (LT (k, g) (or_introl eq_refl)). cbn [fst] in LT. unfold inside, frame, title. cbn [sh_x sh_y sh_w sh_h with_text with_id with_line with_fill shape_new fst snd]. rewrite gx_exact by lia. change frame_w with 1800000%N. change (add 1600000 50000) with 1650000%N. change (sub 1800000 100000) with 1700000%N.
    rewrite add_exact by lia. specialize (GB (k, g) (or_introl eq_refl)). cbn [snd] in GB. rewrite frame_h_exact by exact GB. lia.
  - revert ED. apply Forall2_weaken. intros j c _ (s1 & s2 & I1 & I2 & E1 & E2 & ->). cbn [edge_of e_from e_to] in E1, E2.
    exists (sp_m s1), (spot_shape s1), (sp_m s2), (spot_shape s2). split; [apply place_in; eauto|]. split; [exact E1|]. split; [apply place_in; eauto|]. split; [exact E2|].
    destruct (bounded M s1) as [B1 B2]; [lia|auto|]. destruct (bounded M s2) as [B3 B4]; [lia|auto|]. unfold touches, edge_conn.
    change (sh_x (spot_shape s1)) with (sp_x s1). change (sh_y (spot_shape s1)) with (sp_y s1). change (sh_x (spot_shape s2)) with (sp_x s2). change (sh_y (spot_shape s2)) with (sp_y s2).
    change (sh_w (spot_shape s1)) with 1400000%N. change (sh_w (spot_shape s2)) with 1400000%N. change (sh_h (spot_shape s1)) with 500000%N. change (sh_h (spot_shape s2)) with 500000%N.
    unfold node_width, node_height. change (1400000 / 2)%N with 700000%N. change (500000 / 2)%N with 250000%N.
    destruct w; cbn [way_of horizontal start_x start_y end_x end_y]; rewrite ?add_exact by lia; auto.
Qed.
Lemma flow_shown : exists place frames titles labels,
  drawn doc (d_shapes (flow_drawing wordy order code)) (d_connectors (flow_drawing wordy order code)) place frames titles labels
  /\ (small doc -> laid_out w doc (d_shapes (flow_drawing wordy order code)) (d_connectors (flow_drawing wordy order code)) place frames titles labels).
Proof.
  destruct flow_all as (M & P & T & L & C & H1 & H2 & H3 & H4 & H5 & H6 & H7 & H8 & H9 & H10 & H11 & H12).
  exists (place_of P), (map frame (numbered (groups doc))), T, L. split; [now apply (drawn_ok M P T L C)|]. intros S. now apply (laid_ok M P T L C).
Qed.
End Thm.
