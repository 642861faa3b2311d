From Coq Require Import List Bool NArith Lia.
From Verif Require Import Num MergeModel MergeSpec.
Import ListNotations.
Open Scope N_scope.

Definition ok (x : region) : Prop := fits (row x, col x, row_span x, col_span x) /\ 1 <= row_span x /\ 1 <= col_span x.

Lemma last_row_ok x : ok x -> last_row x = row x + row_span x - 1.
Proof.
  intros [[H1 H2] [H3 H4]]. unfold last_row, usize_max, u64_max. rewrite wadd_exact by lia. rewrite wsub_exact; lia.
Qed.
Lemma last_col_ok x : ok x -> last_col x = col x + col_span x - 1.
Proof.
  intros [[H1 H2] [H3 H4]]. unfold last_col, usize_max, u64_max. rewrite wadd_exact by lia. rewrite wsub_exact; lia.
Qed.
Lemma contains_ok x r c : ok x -> contains x r c = true <-> covered x r c.
Proof.
  intros H. unfold contains, covered, in_rect. rewrite (last_row_ok x H), (last_col_ok x H).
  rewrite !andb_true_iff, !N.leb_le. destruct H as [_ [H3 H4]]. lia.
Qed.
Lemma overlaps_ok x y : ok x -> ok y -> overlaps x y = true <-> exists r c, covered x r c /\ covered y r c.
Proof.
  intros Hx Hy. unfold overlaps, covered, in_rect. rewrite (last_row_ok x Hx), (last_col_ok x Hx), (last_row_ok y Hy), (last_col_ok y Hy).
  rewrite !andb_true_iff, !N.leb_le. destruct Hx as [_ [H1 H2]], Hy as [_ [H3 H4]]. split.
  - intros H. exists (N.max (row x) (row y)), (N.max (col x) (col y)). lia.
  - intros (r & c & H). lia.
Qed.

Definition inv (nrows ncols : N) (m : merge_map) : Prop :=
  rows m = nrows /\ cols m = ncols /\ Forall ok (regions m) /\
  Forall (fun x => row x + row_span x <= nrows /\ col x + col_span x <= ncols) (regions m) /\
  ForallOrdPairs (fun x y => overlaps x y = false) (regions m).

Lemma ForallOrdPairs_snoc {A} (R : A -> A -> Prop) l x : ForallOrdPairs R l -> Forall (fun y => R y x) l -> ForallOrdPairs R (l ++ [x]).
Proof.
  induction 1 as [|y l H1 H2 IH]; intros H; cbn.
  - constructor; constructor.
  - inversion H; subst. constructor; [apply Forall_app; split; [assumption|now constructor]|now apply IH].
Qed.

Lemma add_inv nr nc x m : ok x -> inv nr nc m -> inv nr nc (snd (add_merge x m)).
Proof.
  intros Hx (H1 & H2 & H3 & H4 & H5). unfold add_merge.
  destruct (N.leb_spec (rows m) (last_row x)) as [L|L]; [now repeat split|].
  destruct (N.leb_spec (cols m) (last_col x)) as [L2|L2]; [now repeat split|].
  destruct (existsb _ _) eqn:E; [now repeat split|]. cbn [snd].
  rewrite (last_row_ok x Hx) in L. rewrite (last_col_ok x Hx) in L2.
  split; [assumption|]. split; [assumption|]. cbn [regions]. split; [|split].
  - apply Forall_app. split; [assumption|]. now constructor.
  - apply Forall_app. split; [assumption|]. constructor; [|constructor]. destruct Hx as [_ [? ?]]. lia.
  - apply ForallOrdPairs_snoc; [assumption|]. apply Forall_forall. intros y Hy.
    destruct (overlaps y x) eqn:O; [|reflexivity]. rewrite <- E. symmetry. apply existsb_exists. now exists y.
Qed.

Lemma new_ok r c rs cs x : fits (r, c, rs, cs) -> region_new r c rs cs = Some x -> ok x /\ x = Region r c rs cs.
Proof.
  unfold region_new. destruct (N.eqb_spec rs 0); [discriminate|]. destruct (N.eqb_spec cs 0); [discriminate|].
  cbn [orb]. intros H E. injection E as <-. split; [|reflexivity]. split; [exact H|]. cbn. lia.
Qed.
Lemma merge_inv nr nc q m : fits q -> inv nr nc m -> inv nr nc (snd (let '(r, c, rs, cs) := q in merge_cells r c rs cs m)).
Proof.
  destruct q as [[[r c] rs] cs]. intros F I. unfold merge_cells. destruct (region_new r c rs cs) as [x|] eqn:E; [|exact I].
  destruct (new_ok r c rs cs x F E) as [O _]. now apply add_inv.
Qed.
Lemma merge_all_inv nr nc reqs : Forall fits reqs -> forall m, inv nr nc m -> inv nr nc (merge_all reqs m).
Proof.
  induction 1 as [|q reqs Hq _ IH]; intros m I; [exact I|]. unfold merge_all. cbn [fold_left]. apply IH.
  destruct q as [[[r c] rs] cs]. exact (merge_inv nr nc (r, c, rs, cs) m Hq I).
Qed.
Lemma reachable_inv nr nc m : reachable nr nc m -> inv nr nc m.
Proof.
  intros (reqs & F & ->). apply merge_all_inv; [exact F|]. now repeat split; constructor.
Qed.

Lemma pairs_nth {A} (R : A -> A -> Prop) l : (forall x y, R x y -> R y x) -> ForallOrdPairs R l ->
  forall i j x y, i <> j -> nth_error l i = Some x -> nth_error l j = Some y -> R x y.
Proof.
  intros Sym. induction 1 as [|z l H1 H2 IH]; intros i j x y N Hi Hj.
  - destruct i; discriminate.
  - rewrite Forall_forall in H1. destruct i as [|i], j as [|j]; cbn in *.
    + congruence.
    + injection Hi as <-. apply H1. now apply nth_error_In in Hj.
    + injection Hj as <-. apply Sym, H1. now apply nth_error_In in Hi.
    + apply (IH i j); [congruence|assumption|assumption].
Qed.

Lemma regions_disjoint nr nc m : reachable nr nc m ->
  (forall x r c, In x (regions m) -> covered x r c -> r < nr /\ c < nc) /\
  (forall i j x y r c, nth_error (regions m) i = Some x -> nth_error (regions m) j = Some y ->
     covered x r c -> covered y r c -> i = j).
Proof.
  intros H. apply reachable_inv in H. destruct H as (_ & _ & H3 & H4 & H5). rewrite Forall_forall in H3, H4. split.
  - intros x r c Hx [C1 C2]. specialize (H4 x Hx). lia.
  - intros i j x y r c Hi Hj Cx Cy. destruct (PeanoNat.Nat.eq_dec i j) as [E|N]; [exact E|exfalso].
    pose proof (pairs_nth (fun x y => overlaps x y = false) (regions m)) as P. cbv beta in P.
    specialize (P (fun a b Q => ltac:(unfold overlaps in *; destruct (row a <=? last_row b), (row b <=? last_row a), (col a <=? last_col b), (col b <=? last_col a); try reflexivity; discriminate)) H5 i j x y N Hi Hj).
    assert (O : overlaps x y = true).
    { apply overlaps_ok; [apply H3; now apply nth_error_In in Hi|apply H3; now apply nth_error_In in Hj|]. now exists r, c. }
    congruence.
Qed.

Lemma accept_iff nr nc m r c rs cs : reachable nr nc m -> fits (r, c, rs, cs) ->
  (fst (merge_cells r c rs cs m) = true <->
   1 <= rs /\ 1 <= cs /\ r + rs <= nr /\ c + cs <= nc /\
   forall x i j, In x (regions m) -> covered x i j -> ~ in_rect i j r c rs cs) /\
  regions (snd (merge_cells r c rs cs m)) =
    (if fst (merge_cells r c rs cs m) then regions m ++ [Region r c rs cs] else regions m)%list /\
  (fst (merge_cells r c rs cs m) = false -> snd (merge_cells r c rs cs m) = m).
Proof.
  intros R F. apply reachable_inv in R. destruct R as (H1 & H2 & H3 & H4 & H5). rewrite Forall_forall in H3.
  unfold merge_cells. destruct (region_new r c rs cs) as [x|] eqn:E.
  - destruct (new_ok r c rs cs x F E) as [O ->]. set (x := Region r c rs cs) in *. unfold add_merge.
    pose proof (last_row_ok x O) as LR. pose proof (last_col_ok x O) as LC. cbn in LR, LC. rewrite LR, LC.
    destruct O as [OF [O1 O2]]. cbn in O1, O2.
    destruct (N.leb_spec (rows m) (r + rs - 1)) as [L|L]; [split; [|split; reflexivity]; cbn [fst]; split; [discriminate|lia]|].
    destruct (N.leb_spec (cols m) (c + cs - 1)) as [L2|L2]; [split; [|split; reflexivity]; cbn [fst]; split; [discriminate|lia]|].
    assert (Ox : ok x) by (split; [exact OF|split; assumption]).
    destruct (existsb _ _) eqn:X; cbn [fst snd regions].
    + split; [|split; reflexivity]. split; [discriminate|]. intros (_ & _ & _ & _ & D). exfalso.
      apply existsb_exists in X. destruct X as (e & He & V). apply overlaps_ok in V; [|now apply H3|exact Ox].
      destruct V as (i & j & C1 & C2). exact (D e i j He C1 C2).
    + split; [|split; [reflexivity|discriminate]]. split; [|reflexivity]. intros _. repeat split; try lia.
      intros e i j He C1 C2. assert (V : existsb (fun e => overlaps e x) (regions m) = true).
      { apply existsb_exists. exists e. split; [exact He|]. apply overlaps_ok; [now apply H3|exact Ox|]. exists i, j. now split. }
      congruence.
  - cbn [fst snd]. split; [|split; reflexivity]. split; [discriminate|]. intros (P1 & P2 & _).
    unfold region_new in E. destruct (N.eqb_spec rs 0); [lia|]. destruct (N.eqb_spec cs 0); [lia|]. discriminate.
Qed.

Lemma cell_state_at l r c : Forall ok l -> ForallOrdPairs (fun x y => overlaps x y = false) l ->
  (forall x, In x l -> covered x r c ->
     cell_state_in l r c = if (r =? row x) && (c =? col x) then Anchor (row_span x) (col_span x)
                           else if r =? row x then HMerge else VMerge) /\
  ((forall x, In x l -> ~ covered x r c) -> cell_state_in l r c = Normal).
Proof.
  induction l as [|y l IH]; intros H1 H2; [split; [intros x []|reflexivity]|].
  inversion H1 as [|? ? Oy Ol]; subst. inversion H2 as [|? ? Dy Dl]; subst. destruct (IH Ol Dl) as [IH1 IH2]. clear IH.
  cbn [cell_state_in]. unfold is_anchor.
  assert (A : covered y (row y) (col y)) by (destruct Oy as [_ [? ?]]; unfold covered, in_rect; lia).
  split.
  - intros x [->|Hx] C.
    + destruct ((r =? row x) && (c =? col x)); [reflexivity|]. now rewrite (proj2 (contains_ok x r c Oy) C).
    + assert (NC : ~ covered y r c).
      { intros Cy. rewrite Forall_forall in Dy, Ol. specialize (Dy x Hx). specialize (Ol x Hx).
        assert (overlaps y x = true) by (apply overlaps_ok; [assumption|assumption|now exists r, c]). congruence. }
      destruct ((r =? row y) && (c =? col y)) eqn:E.
      { apply andb_true_iff in E. rewrite !N.eqb_eq in E. destruct E as [-> ->]. contradiction. }
      destruct (contains y r c) eqn:E2; [apply contains_ok in E2; [contradiction|assumption]|]. now apply IH1.
  - intros H. assert (NC : ~ covered y r c) by (apply H; now left).
    destruct ((r =? row y) && (c =? col y)) eqn:E.
    { apply andb_true_iff in E. rewrite !N.eqb_eq in E. destruct E as [-> ->]. contradiction. }
    destruct (contains y r c) eqn:E2; [apply contains_ok in E2; [contradiction|assumption]|].
    apply IH2. intros x Hx. apply H. now right.
Qed.

Lemma cell_state_reachable nr nc m r c : reachable nr nc m ->
  (forall x, In x (regions m) -> covered x r c ->
     cell_state m r c = if (r =? row x) && (c =? col x) then Anchor (row_span x) (col_span x)
                        else if r =? row x then HMerge else VMerge) /\
  ((forall x, In x (regions m) -> ~ covered x r c) -> cell_state m r c = Normal).
Proof. intros H. apply reachable_inv in H. destruct H as (_ & _ & H3 & _ & H5). now apply cell_state_at. Qed.
