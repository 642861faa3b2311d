(** Proofs: shapes arranged on a slide. *)
From Coq Require Import String Ascii List Bool Arith NArith Lia.
From Verif Require Import Str Num ColorModel ArrangeModel ArrangeSpec.
Import ListNotations.
Open Scope N_scope.

Lemma mul_u a n : a * n <= u32_max -> a *u as_u32 n = a * n.
Proof. intros H. unfold wmul, as_u32. rewrite N.mul_mod_idemp_r by discriminate. apply N.mod_small. lia. Qed.
Lemma mul_u' n a : n * a <= u32_max -> as_u32 n *u a = n * a.
Proof. intros H. unfold wmul, as_u32. rewrite N.mul_mod_idemp_l by discriminate. apply N.mod_small. lia. Qed.
Lemma step_u i w s : i * (w + s) <= u32_max -> as_u32 i *u (w +u s) = i * (w + s).
Proof. intros H. unfold wmul, as_u32, wadd. rewrite N.mul_mod_idemp_l, N.mul_mod_idemp_r by discriminate. apply N.mod_small. lia. Qed.
Lemma half a : exists q, a / 2 = q /\ (a = 2 * q \/ a = 2 * q + 1).
Proof. exists (a / 2). split; [reflexivity|]. pose proof (N.div_mod a 2 ltac:(discriminate)). pose proof (N.mod_lt a 2 ltac:(discriminate)). set (q := a / 2) in *. set (r := a mod 2) in *. clearbody q r. lia. Qed.
Lemma centred t : forall total, total <= u32_max -> t <= total -> in_the_middle ((total -u t) / 2) ((total -u t) / 2 + t) total.
Proof.
  intros total T H. rewrite wsub_exact by assumption. destruct (half (total - t)) as (q & -> & Q). unfold in_the_middle. lia.
Qed.
Lemma w_ok : SLIDE_WIDTH = slide_w /\ SLIDE_HEIGHT = slide_h /\ slide_w <= u32_max /\ slide_h <= u32_max.
Proof. repeat split; discriminate. Qed.
Lemma center_in_x t : t <= slide_w -> in_the_middle (center_x t) (center_x t + t) slide_w.
Proof. destruct w_ok as (W & _ & B & _). intros H. unfold center_x. rewrite W. now apply centred. Qed.
Lemma center_in_y t : t <= slide_h -> in_the_middle (center_y t) (center_y t + t) slide_h.
Proof. destruct w_ok as (_ & W & _ & B). intros H. unfold center_y. rewrite W. now apply centred. Qed.

Lemma nth_seq {A} (f : nat -> A) n k x : nth_error (map f (seq 0 n)) k = Some x -> (k < n)%nat /\ x = f k.
Proof.
  intros H. assert (K : (k < n)%nat). { rewrite <- (seq_length n 0), <- (map_length f). apply nth_error_Some. congruence. } split; [exact K|].
  erewrite map_nth_error in H by (apply (nth_error_nth' _ 0%nat); now rewrite seq_length). rewrite seq_nth in H by exact K. now injection H as <-.
Qed.
Lemma nth_seq' {A} (f : nat -> A) n k : (k < n)%nat -> nth_error (map f (seq 0 n)) k = Some (f k).
Proof. intros K. erewrite map_nth_error by (apply (nth_error_nth' _ 0%nat); now rewrite seq_length). now rewrite seq_nth by exact K. Qed.

(** ** A grid *)
Section G.
  Context (rows cols : nat) (cw ch : N) (HW : cw * N.of_nat cols <= slide_w) (HH : ch * N.of_nat rows <= slide_h).
  Let x0 := center_x (cw * N.of_nat cols).
  Let y0 := center_y (ch * N.of_nat rows).
  Lemma x0_mid : in_the_middle x0 (x0 + cw * N.of_nat cols) slide_w.
  Proof. now apply center_in_x. Qed.
  Lemma y0_mid : in_the_middle y0 (y0 + ch * N.of_nat rows) slide_h.
  Proof. now apply center_in_y. Qed.
  Lemma grid_eq : grid rows cols cw ch = flat_map (fun r => map (fun c => (x0 + N.of_nat c * cw, y0 + N.of_nat r * ch)) (seq 0 cols)) (seq 0 rows).
  Proof.
    destruct w_ok as (_ & _ & B1 & B2). unfold grid. rewrite !mul_u by lia. fold x0 y0. rewrite !flat_map_concat_map. f_equal. apply map_ext_in. intros r R. apply in_seq in R. apply map_ext_in. intros c C. apply in_seq in C.
    destruct x0_mid as (_ & X & _), y0_mid as (_ & Y & _).
    assert (C1 : N.of_nat c * cw <= cw * N.of_nat cols). { rewrite N.mul_comm. apply N.mul_le_mono_l. lia. }
    assert (R1 : N.of_nat r * ch <= ch * N.of_nat rows). { rewrite N.mul_comm. apply N.mul_le_mono_l. lia. }
    rewrite !mul_u' by lia. rewrite !wadd_exact by lia. reflexivity.
  Qed.
  Lemma nth_rows (f : nat -> nat -> N * N) n s : forall r c, (r < n)%nat -> (c < cols)%nat -> nth_error (flat_map (fun r => map (f r) (seq 0 cols)) (seq s n)) (r * cols + c) = Some (f (s + r)%nat c).
  Proof.
    revert s. induction n as [|n IH]; intros s r c R C; [lia|]. cbn [seq flat_map]. destruct r as [|r].
    - rewrite nth_error_app1 by (rewrite map_length, seq_length; lia). rewrite Nat.add_0_r. cbn [Nat.mul Nat.add]. now apply nth_seq'.
    - rewrite nth_error_app2 by (rewrite map_length, seq_length; cbn [Nat.mul]; lia). rewrite map_length, seq_length. replace (S r * cols + c - cols)%nat with (r * cols + c)%nat by (cbn [Nat.mul]; lia).
      rewrite IH by lia. f_equal. f_equal. lia.
  Qed.
  Lemma grid_nth r c : (r < rows)%nat -> (c < cols)%nat -> nth_error (grid rows cols cw ch) (r * cols + c) = Some (x0 + N.of_nat c * cw, y0 + N.of_nat r * ch).
  Proof. intros R C. rewrite grid_eq. exact (nth_rows (fun r c => (x0 + N.of_nat c * cw, y0 + N.of_nat r * ch)) rows 0 r c R C). Qed.
  Lemma grid_length : length (grid rows cols cw ch) = (rows * cols)%nat.
  Proof.
    rewrite grid_eq. generalize 0%nat at 2. induction rows as [|n IH]; intros s; [reflexivity|]. cbn [seq flat_map]. rewrite app_length, map_length, seq_length. cbn [Nat.mul]. f_equal.
    clear -IH. assert (Z : forall n s (f : nat -> nat -> N * N), length (flat_map (fun r => map (f r) (seq 0 cols)) (seq s n)) = (n * cols)%nat).
    { induction n0 as [|m IHm]; intros t f; [reflexivity|]. cbn [seq flat_map]. rewrite app_length, map_length, seq_length, IHm. reflexivity. }
    apply (Z n (S s) (fun r c => (x0 + N.of_nat c * cw, y0 + N.of_nat r * ch))).
  Qed.
  Lemma grid_cell k p : nth_error (grid rows cols cw ch) k = Some p -> exists r c, (r < rows)%nat /\ (c < cols)%nat /\ k = (r * cols + c)%nat /\ p = (x0 + N.of_nat c * cw, y0 + N.of_nat r * ch).
  Proof.
    intros H. assert (K : (k < rows * cols)%nat) by (rewrite <- grid_length; apply nth_error_Some; congruence). assert (Z : cols <> 0%nat) by (destruct cols; lia).
    assert (R : (k / cols < rows)%nat) by (apply Nat.div_lt_upper_bound; lia). assert (C : (k mod cols < cols)%nat) by now apply Nat.mod_upper_bound.
    assert (E : k = (k / cols * cols + k mod cols)%nat) by (rewrite Nat.mul_comm; now apply Nat.div_mod). exists (k / cols)%nat, (k mod cols)%nat. repeat split; try assumption. rewrite E, grid_nth in H by assumption. now injection H as <-.
  Qed.
  Lemma grid_all : exists x0 y0, in_the_middle x0 (x0 + cw * N.of_nat cols) slide_w /\ in_the_middle y0 (y0 + ch * N.of_nat rows) slide_h
    /\ length (grid rows cols cw ch) = (rows * cols)%nat
    /\ (forall r c, (r < rows)%nat -> (c < cols)%nat -> nth_error (grid rows cols cw ch) (r * cols + c) = Some (x0 + N.of_nat c * cw, y0 + N.of_nat r * ch))
    /\ Forall on_slide (boxes cw ch (grid rows cols cw ch)) /\ no_overlap (boxes cw ch (grid rows cols cw ch)).
  Proof.
    exists x0, y0. split; [exact x0_mid|]. split; [exact y0_mid|]. split; [exact grid_length|]. split; [exact grid_nth|].
    destruct x0_mid as (_ & X & _), y0_mid as (_ & Y & _).
    assert (CW : forall c, (c < cols)%nat -> N.of_nat c * cw + cw <= cw * N.of_nat cols). { intros c C. replace (N.of_nat c * cw + cw) with (cw * N.of_nat (S c)) by lia. apply N.mul_le_mono_l. lia. }
    assert (CH : forall r, (r < rows)%nat -> N.of_nat r * ch + ch <= ch * N.of_nat rows). { intros c C. replace (N.of_nat c * ch + ch) with (ch * N.of_nat (S c)) by lia. apply N.mul_le_mono_l. lia. }
    assert (Z : forall k b, nth_error (boxes cw ch (grid rows cols cw ch)) k = Some b -> exists r c, (r < rows)%nat /\ (c < cols)%nat /\ k = (r * cols + c)%nat /\ b = Box (x0 + N.of_nat c * cw) (y0 + N.of_nat r * ch) cw ch).
    { intros k b H. unfold boxes in H. rewrite nth_error_map in H. destruct (nth_error (grid rows cols cw ch) k) as [p|] eqn:E; [|discriminate]. apply grid_cell in E. destruct E as (r & c & R & C & -> & ->). injection H as <-. now exists r, c. }
    split.
    - apply Forall_forall. intros b I. apply In_nth_error in I. destruct I as (k & I). apply Z in I. destruct I as (r & c & R & C & _ & ->). unfold on_slide, right, bottom. cbn [left top wide high].
      specialize (CW c C). specialize (CH r R). lia.
    - intros i j a b A B IJ. apply Z in A, B. destruct A as (r & c & R & C & -> & ->), B as (r' & c' & R' & C' & -> & ->). unfold apart, right, bottom. cbn [left top wide high].
      assert (M : forall w n m, (n < m)%nat -> N.of_nat n * w + w <= N.of_nat m * w). { intros w n m NM. replace (N.of_nat n * w + w) with (N.of_nat (S n) * w) by lia. apply N.mul_le_mono_r. lia. }
      destruct (Nat.lt_total c c') as [L|[->|L]].
      + left. specialize (M cw _ _ L). lia.
      + destruct (Nat.lt_total r r') as [L|[->|L]]; [right; right; left; specialize (M ch _ _ L); lia|now destruct IJ|right; right; right; specialize (M ch _ _ L); lia].
      + right. left. specialize (M cw _ _ L). lia.
  Qed.
End G.

(** ** A row *)
Definition line (a w gap : N) (n : nat) : list N := map (fun i => a + N.of_nat i * (w + gap)) (seq 0 n).
Lemma line_spread a w gap n : spread a w gap n (line a w gap n).
Proof.
  split; [unfold line; now rewrite map_length, seq_length|]. split.
  - intros x H. apply nth_seq in H. destruct H as (_ & ->). lia.
  - intros i x y H1 H2. apply nth_seq in H1, H2. destruct H1 as (_ & ->), H2 as (_ & ->). lia.
Qed.
Lemma line_end w gap n i : (i < n)%nat -> N.of_nat i * (w + gap) + w <= span w gap n.
Proof.
  intros I. destruct n as [|n]; [lia|]. unfold span. assert (N.of_nat i * w <= N.of_nat n * w) by (apply N.mul_le_mono_r; lia). assert (N.of_nat i * gap <= N.of_nat n * gap) by (apply N.mul_le_mono_r; lia).
  rewrite Nnat.Nat2N.inj_succ. lia.
Qed.
Lemma line_h a w gap n y h : a + span w gap n <= slide_w -> y + h <= slide_h ->
  Forall on_slide (boxes w h (map (fun x => (x, y)) (line a w gap n))) /\ no_overlap (boxes w h (map (fun x => (x, y)) (line a w gap n))).
Proof.
  intros W H. unfold line, boxes. rewrite !map_map. cbn [fst snd]. split.
  - apply Forall_forall. intros b I. apply in_map_iff in I. destruct I as (i & <- & I). apply in_seq in I. pose proof (line_end w gap n i ltac:(lia)). unfold on_slide, right, bottom. cbn [left top wide high]. lia.
  - intros i j p q P Q IJ. apply nth_seq in P, Q. destruct P as (_ & ->), Q as (_ & ->). unfold apart, right, bottom. cbn [left top wide high].
    assert (M : forall n m, (n < m)%nat -> N.of_nat n * (w + gap) + w <= N.of_nat m * (w + gap)).
    { intros k m KM. assert (N.of_nat (S k) * (w + gap) <= N.of_nat m * (w + gap)) by (apply N.mul_le_mono_r; lia). lia. }
    destruct (Nat.lt_total i j) as [L|[->|L]]; [left|now destruct IJ|right; left]; specialize (M _ _ L); lia.
Qed.
Lemma line_v a w gap n y h : a + span w gap n <= slide_h -> y + h <= slide_w ->
  Forall on_slide (boxes h w (map (fun x => (y, x)) (line a w gap n))) /\ no_overlap (boxes h w (map (fun x => (y, x)) (line a w gap n))).
Proof.
  intros W H. unfold line, boxes. rewrite !map_map. cbn [fst snd]. split.
  - apply Forall_forall. intros b I. apply in_map_iff in I. destruct I as (i & <- & I). apply in_seq in I. pose proof (line_end w gap n i ltac:(lia)). unfold on_slide, right, bottom. cbn [left top wide high]. lia.
  - intros i j p q P Q IJ. apply nth_seq in P, Q. destruct P as (_ & ->), Q as (_ & ->). unfold apart, right, bottom. cbn [left top wide high].
    assert (M : forall n m, (n < m)%nat -> N.of_nat n * (w + gap) + w <= N.of_nat m * (w + gap)).
    { intros k m KM. assert (N.of_nat (S k) * (w + gap) <= N.of_nat m * (w + gap)) by (apply N.mul_le_mono_r; lia). lia. }
    destruct (Nat.lt_total i j) as [L|[->|L]]; [right; right; left|now destruct IJ|right; right; right]; specialize (M _ _ L); lia.
Qed.
Lemma total_eq n w s : (n <> 0)%nat -> span w s n <= u32_max -> (w *u as_u32 (N.of_nat n)) +u (s *u as_u32 (wsub usize_max (N.of_nat n) 1)) = span w s n.
Proof.
  intros Z H. destruct n as [|n]; [easy|]. unfold span in *.
  rewrite mul_u by lia. assert (E : s *u as_u32 (wsub usize_max (N.of_nat (S n)) 1) = s * N.of_nat n).
  { assert (E : as_u32 (wsub usize_max (N.of_nat (S n)) 1) = as_u32 (N.of_nat n)).
    { unfold as_u32, wsub. replace (N.of_nat (S n) + (usize_max + 1) - 1) with (N.of_nat n + 1 * (usize_max + 1)) by (rewrite Nnat.Nat2N.inj_succ; unfold usize_max, u64_max, u32_max; lia).
      rewrite N.mod_add by discriminate. change (usize_max + 1) with ((u32_max + 1) * (u32_max + 1)). rewrite N.mod_mul_r by discriminate.
      rewrite N.add_mod, (N.mul_comm (u32_max + 1) (_ mod _)), N.mod_mul, N.add_0_r, !N.mod_mod by discriminate. reflexivity. }
    rewrite E. apply mul_u. lia. }
  rewrite E. apply wadd_exact. lia.
Qed.
Lemma steps_eq a w s n : a + span w s n <= u32_max -> map (fun i => a +u (as_u32 (N.of_nat i) *u (w +u s))) (seq 0 n) = line a w s n.
Proof.
  intros H. apply map_ext_in. intros i I. apply in_seq in I. pose proof (line_end w s n i ltac:(lia)). rewrite step_u by lia. apply wadd_exact. lia.
Qed.
Lemma stack_h count w s y : span w s count <= slide_w ->
  exists a, in_the_middle a (a + span w s count) slide_w /\ spread a w s count (map fst (stack_horizontal count w s y)) /\ Forall (fun p => snd p = y) (stack_horizontal count w s y)
    /\ forall h, y + h <= slide_h -> Forall on_slide (boxes w h (stack_horizontal count w s y)) /\ no_overlap (boxes w h (stack_horizontal count w s y)).
Proof.
  intros H. pose proof (center_in_x _ H) as M. exists (center_x (span w s count)). split; [exact M|]. destruct w_ok as (_ & _ & B1 & B2). destruct M as (_ & M & _).
  assert (E : stack_horizontal count w s y = map (fun x => (x, y)) (line (center_x (span w s count)) w s count)).
  { destruct count as [|count]; [reflexivity|]. unfold stack_horizontal. rewrite total_eq by (discriminate || lia). rewrite <- steps_eq by lia. now rewrite map_map. }
  rewrite E. split; [rewrite map_map; cbn [fst]; rewrite map_id; apply line_spread|]. split.
  - apply Forall_forall. intros p P. apply in_map_iff in P. now destruct P as (x & <- & _).
  - intros h Y. now apply line_h.
Qed.
Lemma stack_v count h s x : span h s count <= slide_h ->
  exists a, in_the_middle a (a + span h s count) slide_h /\ spread a h s count (map snd (stack_vertical count h s x)) /\ Forall (fun p => fst p = x) (stack_vertical count h s x)
    /\ forall w, x + w <= slide_w -> Forall on_slide (boxes w h (stack_vertical count h s x)) /\ no_overlap (boxes w h (stack_vertical count h s x)).
Proof.
  intros H. pose proof (center_in_y _ H) as M. exists (center_y (span h s count)). split; [exact M|]. destruct w_ok as (_ & _ & B1 & B2). destruct M as (_ & M & _).
  assert (E : stack_vertical count h s x = map (fun y => (x, y)) (line (center_y (span h s count)) h s count)).
  { destruct count as [|count]; [reflexivity|]. unfold stack_vertical. rewrite total_eq by (discriminate || lia). rewrite <- steps_eq by lia. now rewrite map_map. }
  rewrite E. split; [rewrite map_map; cbn [snd]; rewrite map_id; apply line_spread|]. split.
  - apply Forall_forall. intros p P. apply in_map_iff in P. now destruct P as (y & <- & _).
  - intros w Y. now apply line_v.
Qed.
(** ** Over the width *)
Lemma distribute count w y : (2 <= count)%nat -> N.of_nat count <= u32_max -> w * N.of_nat count <= slide_w - inch ->
  exists gap l, distribute_horizontal count w y = Ret l /\ spread (inch / 2) w gap count (map fst l) /\ Forall (fun p => snd p = y) l
    /\ inch / 2 + span w gap count <= slide_w - inch / 2 /\ slide_w - inch / 2 < inch / 2 + span w gap count + N.of_nat (count - 1)
    /\ forall h, y + h <= slide_h -> Forall on_slide (boxes w h l) /\ no_overlap (boxes w h l).
Proof.
  intros C B H. destruct count as [|[|n]]; [lia|lia|]. clear C. unfold distribute_horizontal. cbv zeta.
  assert (G : as_u32 (N.of_nat (S (S n))) -u 1 = N.of_nat (S n)).
  { unfold as_u32. rewrite N.mod_small by lia. rewrite wsub_exact by lia. lia. }
  rewrite G. destruct (N.eqb_spec (N.of_nat (S n)) 0) as [Z|_]; [lia|].
  change (SLIDE_WIDTH -u (2 *u MARGIN)) with (slide_w - inch). change MARGIN with (inch / 2). assert (W : slide_w - inch <= u32_max) by discriminate.
  rewrite mul_u by lia. rewrite wsub_exact by lia. set (rest := slide_w - inch - w * N.of_nat (S (S n))). set (gap := rest / N.of_nat (S n)).
  assert (D1 : N.of_nat (S n) * gap <= rest) by (apply N.mul_div_le; lia). assert (D2 : rest < N.of_nat (S n) * N.succ gap) by (apply N.mul_succ_div_gt; lia).
  assert (SP : span w gap (S (S n)) = w * N.of_nat (S (S n)) + gap * N.of_nat (S n)) by reflexivity. set (ww := w * N.of_nat (S (S n))) in *. clearbody gap.
  assert (E1 : inch / 2 + inch / 2 = inch) by reflexivity. assert (E2 : inch <= slide_w) by discriminate. assert (E3 : slide_w <= u32_max) by discriminate.
  assert (T : inch / 2 + span w gap (S (S n)) <= slide_w - inch / 2). { rewrite SP. subst rest. lia. }
  exists gap, (map (fun x => (x, y)) (line (inch / 2) w gap (S (S n)))). split.
  - f_equal. rewrite <- steps_eq by lia. now rewrite map_map.
  - split; [rewrite map_map; cbn [fst]; rewrite map_id; apply line_spread|]. split.
    { apply Forall_forall. intros p P. apply in_map_iff in P. now destruct P as (x & <- & _). }
    split; [exact T|]. split; [rewrite SP; subst rest; replace (S (S n) - 1)%nat with (S n) by lia; lia|]. intros h Y. apply line_h; [lia|exact Y].
Qed.
Lemma distribute_one w y : w <= slide_w -> exists x, distribute_horizontal 1 w y = Ret [(x, y)] /\ in_the_middle x (x + w) slide_w.
Proof. intros H. exists (center_x w). split; [reflexivity|now apply center_in_x]. Qed.
Lemma center_mid w h : w <= slide_w -> h <= slide_h -> exists x y, center w h = (x, y) /\ in_the_middle x (x + w) slide_w /\ in_the_middle y (y + h) slide_h.
Proof. intros W H. exists (center_x w), (center_y h). split; [reflexivity|]. split; [now apply center_in_x|now apply center_in_y]. Qed.
(** ** What does not fit is not on the slide: the position wraps around. *)
Lemma too_wide : exists x y, center 9144001 914400 = (x, y) /\ slide_w < x.
Proof. exists 2147483647, 2971800. split; reflexivity. Qed.
Lemma too_many : Exists (fun b => ~ on_slide b) (boxes 2000000 914400 (stack_horizontal 5 2000000 100000 0)) /\ Exists (fun b => ~ on_slide b) (boxes 2000000 914400 (grid 2 5 2000000 914400))
  /\ exists l, distribute_horizontal 5 2000000 0 = Ret l /\ Exists (fun b => ~ on_slide b) (boxes 2000000 914400 l).
Proof.
  split; [apply Exists_cons_hd; intros [A _]; now apply A|]. split; [apply Exists_cons_hd; intros [A _]; now apply A|].
  eexists. split; [reflexivity|]. apply Exists_cons_tl, Exists_cons_hd. intros [A _]. now apply A.
Qed.
