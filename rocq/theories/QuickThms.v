(** Proofs: quick decks and quick tables. *)
From Coq Require Import String Ascii List Bool Arith NArith Lia.
From Verif Require Import Str Num XmlSpec ColorModel TableModel TableSpec ShapeModel SlideModel SlideInput SlideWant SlideBackSpec DeckModel DeckInput ReaderModel MdParseModel ImportProofs McpModel McpSpec McpProofs WebSpec WebThms QuickModel QuickSpec QuickPlain.
Import ListNotations.
Open Scope nat_scope.
Open Scope string_scope.

(** ** Decks *)
Definition slide_of (c : call) : slide :=
  match c with Bullets t l => base t l [] None | OnlyTitle t => base t [] [] None | Own s => s | Drawn t l => with_shapes l (slide_new t) end.
Lemma made title calls : make title calls = Quick title (map slide_of calls).
Proof.
  unfold make, quick_new. rewrite <- (app_nil_l (map slide_of calls)). generalize (@nil slide) as acc. induction calls as [|c calls IH]; intros acc; [cbn; now rewrite app_nil_r|].
  cbn [fold_left map]. replace (acc ++ slide_of c :: map slide_of calls)%list with ((acc ++ [slide_of c]) ++ map slide_of calls)%list by (rewrite <- app_assoc; reflexivity).
  rewrite <- IH. f_equal. destruct c; try reflexivity. unfold quick_slide. cbn [q_title q_slides slide_of]. now rewrite base_new, base_bullets.
Qed.
Lemma good3 s : slide_good s = true -> deck_slide_ok s = true /\ slide_fits s = true /\ sizes_ok s = true.
Proof. unfold slide_good. intros H. apply andb_true_iff in H as [H H3]. apply andb_true_iff in H as [H1 H2]. now split. Qed.
Lemma call_slides calls : forallb call_ok calls = true -> slides_in (map slide_of calls).
Proof.
  intros H. unfold slides_in. induction calls as [|c calls IH]; [constructor|]. cbn [forallb] in H. apply andb_true_iff in H as [H1 H2]. cbn [map]. constructor; [|now apply IH]. clear IH H2.
  destruct c as [t l|t|s|t l]; cbn [call_ok slide_of] in *.
  - apply andb_true_iff in H1 as [T L]. now apply bullets_in.
  - now apply bullets_in.
  - now apply good3.
  - now apply good3.
Qed.
Lemma call_given c r : given_back (slide_of c) r -> call_ok c = true -> call_read r c.
Proof.
  intros G OK. destruct c as [t l|t|s|t l]; cbn [slide_of call_read call_ok] in *.
  - apply andb_true_iff in OK as [T L]. apply (proj2 (page_shows (t, l) T L)). exact G.
  - apply (proj2 (page_shows (t, []) OK eq_refl)). exact G.
  - exact G.
  - destruct G as (Ti & Bo & _ & Tb & front & us & cs & S & Fr & U & C). cbn in C. inversion C; subst cs. rewrite app_nil_r in S.
    split; [exact Ti|]. split; [exact Bo|]. split; [exact Tb|]. exists front, us. split; [exact S|]. split; [exact Fr|exact U].
Qed.
Lemma quick_back X title calls : calls <> [] -> forallb call_ok calls = true -> (N.of_nat (length calls) < u32_max)%N ->
  reads_as (quick_build X (make title calls)) (fun l => Forall2 call_read l calls).
Proof.
  intros NE OK L. rewrite made. unfold quick_build. cbn [q_slides q_title]. destruct (map slide_of calls) as [|s l] eqn:E; [destruct calls; [congruence|discriminate]|]. rewrite <- E. clear E s l.
  apply read_back; [now apply call_slides|now rewrite map_length|]. clear NE L. intros l G. revert l G. induction calls as [|c calls IH]; intros l G; inversion G as [|x y p q H F']; subst; [constructor|].
  cbn [forallb] in OK. apply andb_true_iff in OK as [O1 O2]. constructor; [now apply call_given|now apply IH].
Qed.
Lemma quick_empty X title : reads_as (quick_build X (make title [])) (fun l => Forall2 page_read l [("Presentation", [])]).
Proof. apply (numbered_back X title 1). reflexivity. Qed.
Definition some_calls : list call := [OnlyTitle "Welcome"; Bullets "Plan & scope" ["First"; "Second <here>"]; Drawn "Sketch" [shape_new KRectangle 914400 914400 1828800 914400]].
Lemma some_calls_ok : forallb call_ok some_calls = true.
Proof. reflexivity. Qed.
(** The title given is not on the slide made when there is none. *)
Lemma title_not_shown : exists title, forall X, ~ reads_as (quick_build X (make title [])) (fun l => Forall2 page_read l [(title, [])]).
Proof.
  exists "Budget". intros X R. pose proof (quick_empty X "Budget") as Q. set (files := quick_build X (make "Budget" [])) in *.
  set (is_dir := fun _ : string => false). set (pk := PackageModel.open_entries is_dir files).
  assert (KE : exists keys, PackageModel.keys_order pk keys) by (eexists; unfold PackageModel.keys_order; apply Permutation.Permutation_refl). destruct KE as (keys & K). destruct (R is_dir keys) as (l & G & F); [reflexivity|exact K|]. destruct (Q is_dir keys) as (l' & G' & F'); [reflexivity|exact K|].
  rewrite G in G'. injection G' as <-. inversion F as [|r p l1 l2 H _]; subst. inversion F' as [|r' p' l3 l4 H' _]; subst. destruct H as [H _], H' as [H' _]. rewrite H in H'. discriminate.
Qed.

(** ** Tables *)
Lemma equal_width_ok cols : (1 <= cols) -> (N.of_nat cols <= u32_max)%N -> exists w, equal_width cols = Ret w /\ equal_columns cols (repeat w cols).
Proof.
  intros C B. unfold equal_width. rewrite N.mod_small by lia. destruct (N.eqb_spec (N.of_nat cols) 0) as [Z|_]; [lia|]. eexists. split; [reflexivity|]. eexists. split; [reflexivity|].
  assert (D1 : (N.of_nat cols * (9144000 / N.of_nat cols) <= 9144000)%N) by (apply N.mul_div_le; lia). assert (D2 : (9144000 < N.of_nat cols * N.succ (9144000 / N.of_nat cols))%N) by (apply N.mul_succ_div_gt; lia).
  set (w := (9144000 / N.of_nat cols)%N) in *. clearbody w. split; [lia|]. rewrite N.add_1_r. lia.
Qed.
Lemma equal_width_0 : equal_width 0 = Panic.
Proof. reflexivity. Qed.
Lemma add_rows {A} (f : A -> row) l : forall t, fold_left (fun t x => add_row (f x) t) l t = Table (rows t ++ map f l)%list (widths t) (tx t) (ty t).
Proof.
  induction l as [|x l IH]; intros t; [cbn; rewrite app_nil_r; now destruct t|]. cbn [fold_left map]. rewrite IH. unfold add_row. cbn [rows widths tx ty]. now rewrite <- app_assoc.
Qed.
Lemma plain_new t : plain_cell (cell_new t) t.
Proof. repeat split. Qed.
Lemma head_new t : head_cell (quick_header t) t.
Proof. repeat split. Qed.
Lemma data_like l : row_like (data_row l) (Texts l).
Proof. cbn. induction l; constructor; [apply plain_new|assumption]. Qed.
Lemma head_like l : row_like (row_new (map quick_header l)) (Heads l).
Proof. cbn. induction l; constructor; [apply head_new|assumption]. Qed.
Lemma empty_like n : row_like (row_new (repeat (cell_new "") n)) (Texts (repeat "" n)).
Proof. cbn. induction n; constructor; [apply plain_new|assumption]. Qed.
Lemma F2_map {A B C} (P : B -> C -> Prop) (f : A -> B) (g : A -> C) l : (forall x, P (f x) (g x)) -> Forall2 P (map f l) (map g l).
Proof. intros H. induction l; constructor; [apply H|assumption]. Qed.
Lemma map_const {A B} (y : B) (l : list A) : map (fun _ => y) l = repeat y (length l).
Proof. induction l as [|a l IH]; [reflexivity|]. cbn. now rewrite IH. Qed.
Lemma simple_made n cols : 1 <= cols -> (N.of_nat cols <= u32_max)%N ->
  exists t, simple_table n cols = Ret t /\ equal_columns cols (widths t) /\ Forall2 row_like (rows t) (repeat (Texts (repeat "" cols)) n).
Proof.
  intros C B. destruct (equal_width_ok cols C B) as (w & E & W). unfold simple_table. rewrite E. cbn [omap]. rewrite (add_rows (fun _ => row_new (repeat (cell_new "") cols))). eexists. split; [reflexivity|]. split; [exact W|].
  cbn [rows table_builder app]. replace (repeat (Texts (repeat "" cols)) n) with (map (fun _ : nat => Texts (repeat "" cols)) (seq 0 n)) by (now rewrite map_const, seq_length). apply F2_map. intros _. apply empty_like.
Qed.
Lemma data_made first rest : 1 <= length first -> (N.of_nat (length first) <= u32_max)%N ->
  exists t, table_from_data (first :: rest) None = Ret t /\ equal_columns (length first) (widths t) /\ Forall2 row_like (rows t) (map Texts (first :: rest)).
Proof.
  intros C B. destruct (equal_width_ok (length first) C B) as (w & E & W). unfold table_from_data. rewrite E. cbn [omap]. rewrite (add_rows data_row). eexists. split; [reflexivity|]. split; [exact W|].
  cbn [rows table_builder app]. apply F2_map. intros x. apply data_like.
Qed.
Lemma data_widths first rest ws : exists t, table_from_data (first :: rest) (Some ws) = Ret t /\ widths t = ws /\ Forall2 row_like (rows t) (map Texts (first :: rest)).
Proof.
  unfold table_from_data. cbn [omap]. rewrite (add_rows data_row). eexists. split; [reflexivity|]. split; [reflexivity|]. cbn [rows table_builder app]. apply F2_map. intros x. apply data_like.
Qed.
Lemma header_made headers n : 1 <= length headers -> (N.of_nat (length headers) <= u32_max)%N ->
  exists t, table_with_header headers n = Ret t /\ equal_columns (length headers) (widths t) /\ Forall2 row_like (rows t) (Heads headers :: repeat (Texts (repeat "" (length headers))) n).
Proof.
  intros C B. destruct (equal_width_ok (length headers) C B) as (w & E & W). unfold table_with_header. rewrite E. cbn [omap]. rewrite (add_rows (fun _ => row_new (repeat (cell_new "") (length headers)))). eexists. split; [reflexivity|]. split; [exact W|].
  cbn [rows table_builder add_row app]. constructor; [apply head_like|].
  replace (repeat (Texts (repeat "" (length headers))) n) with (map (fun _ : nat => Texts (repeat "" (length headers))) (seq 0 n)) by (now rewrite map_const, seq_length). apply F2_map. intros _. apply empty_like.
Qed.
Lemma filled_step t f : widths (fill_step t f) = widths t /\ exists l, rows (fill_step t f) = (rows t ++ l)%list /\ Forall2 row_like l (contents f).
Proof.
  destruct f as [l|l|l|d|x y]; cbn [fill_step contents]; (split; [try reflexivity|]).
  - eexists. split; [reflexivity|]. constructor; [apply head_like|constructor].
  - eexists. split; [reflexivity|]. constructor; [apply data_like|constructor].
  - eexists. split; [reflexivity|]. constructor; [reflexivity|constructor].
  - unfold qt_rows. now rewrite (add_rows data_row).
  - unfold qt_rows. rewrite (add_rows data_row). eexists. split; [reflexivity|]. apply F2_map. intros x. apply data_like.
  - exists []. split; [cbn; now rewrite app_nil_r|constructor].
Qed.
Lemma fills fs : forall t, widths (fold_left fill_step fs t) = widths t
  /\ (exists l, rows (fold_left fill_step fs t) = (rows t ++ l)%list /\ Forall2 row_like l (flat_map contents fs))
  /\ (tx (fold_left fill_step fs t), ty (fold_left fill_step fs t)) = last_place (tx t, ty t) fs.
Proof.
  induction fs as [|f fs IH]; intros t.
  - split; [reflexivity|]. split; [exists []; split; [cbn; now rewrite app_nil_r|constructor]|reflexivity].
  - cbn [fold_left flat_map]. destruct (IH (fill_step t f)) as (W & (l & R & F) & P). destruct (filled_step t f) as (W' & l' & R' & F'). split; [congruence|]. split.
    + exists (l' ++ l)%list. split; [rewrite R, R', app_assoc; reflexivity|now apply Forall2_app].
    + rewrite P. destruct f; cbn [last_place fill_step]; try reflexivity. unfold qt_rows. now rewrite (add_rows data_row).
Qed.
Lemma quick_made cols fs : 1 <= cols -> (N.of_nat cols <= u32_max)%N ->
  exists t0 t, qt_new cols = Ret t0 /\ t = fold_left fill_step fs t0 /\ equal_columns cols (widths t) /\ Forall2 row_like (rows t) (flat_map contents fs) /\ (tx t, ty t) = last_place (0%N, 0%N) fs.
Proof.
  intros C B. destruct (equal_width_ok cols C B) as (w & E & W). unfold qt_new. rewrite E. cbn [omap]. eexists. eexists. split; [reflexivity|]. split; [reflexivity|].
  destruct (fills fs (table_builder (repeat w cols))) as (A1 & (l & A2 & A3) & A4). rewrite A1, A2. split; [exact W|]. split; [exact A3|exact A4].
Qed.
Lemma quick_given ws fs : let t := fold_left fill_step fs (qt_with_widths ws) in widths t = ws /\ Forall2 row_like (rows t) (flat_map contents fs) /\ (tx t, ty t) = last_place (0%N, 0%N) fs.
Proof. cbv zeta. destruct (fills fs (qt_with_widths ws)) as (A1 & (l & A2 & A3) & A4). rewrite A1, A2. split; [reflexivity|]. split; [exact A3|exact A4]. Qed.
(** No columns: the width is a division by zero, also for no data at all. *)
Lemma no_columns : table_from_data [] None = Panic /\ (forall ws, table_from_data [] (Some ws) = Panic) /\ (forall rest, table_from_data ([] :: rest) None = Panic)
  /\ (forall n, table_with_header [] n = Panic) /\ (forall n, simple_table n 0 = Panic) /\ qt_new 0 = Panic.
Proof. repeat split. Qed.
(** On a slide *)
Lemma cells_plain (f : cell -> bool) l : (forall r t, In r l -> In t r -> f (cell_new t) = true) -> forallb (fun r => forallb f (cells r)) (map data_row l) = true.
Proof.
  intros H. apply forallb_forall. intros r R. apply in_map_iff in R as (ts & <- & R). cbn [data_row row_new cells]. apply forallb_forall. intros c C. apply in_map_iff in C as (t & <- & T). now apply (H ts t).
Qed.
Lemma data_grid l : map (map pc_text) (filter (fun r => match r with [] => false | _ => true end) (map (fun r => map back_cell (cells r)) (map data_row l))) = map (map visible) (filter filled l).
Proof.
  induction l as [|r l IH]; [reflexivity|]. cbn [map filter].
  assert (E : map pc_text (map back_cell (cells (data_row r))) = map visible r) by (cbn [data_row row_new cells]; rewrite !map_map; apply map_ext; reflexivity).
  destruct r as [|t r]; [exact IH|]. cbn [filled map]. destruct (map back_cell (cells (data_row (t :: r)))) as [|c k] eqn:F; [discriminate|]. cbn [map] in *. rewrite IH. now rewrite E.
Qed.
Lemma data_on_slide X deck title data t : table_from_data data None = Ret t -> text_ok title = true -> forallb (forallb text_ok) data = true ->
  reads_as (quick_build X (make deck [Own (with_table t (slide_new title))])) (fun l => Forall2 table_slide_read l [TableArg title data]).
Proof.
  intros D T OK. destruct data as [|first rest]; [discriminate|]. unfold table_from_data in D. destruct (equal_width (length first)) as [w|] eqn:E; [|discriminate]. cbn [omap] in D.
  rewrite (add_rows data_row) in D. injection D as <-. cbn [rows table_builder app widths tx ty].
  assert (NE : filled first = true) by (destruct first; [discriminate|reflexivity]).
  set (tb := Table (map data_row (first :: rest)) (repeat w (length first)) 0 0). change (data_row first :: map data_row rest) with (map data_row (first :: rest)). fold tb.
  rewrite made. unfold quick_build. cbn [q_slides q_title map slide_of].
  change (with_table tb (slide_new title)) with (base title [] [] (Some tb)).
  apply read_back.
  - unfold slides_in. constructor; [|constructor]. apply bullets_in; [exact T|reflexivity| |].
    + unfold table_ok, tb. cbn [rows]. apply cells_plain. intros r u R U. rewrite forallb_forall in OK. specialize (OK r R). rewrite forallb_forall in OK. unfold cell_ok. cbn. now rewrite (OK u U).
    + unfold tb. cbn [rows]. apply cells_plain. reflexivity.
  - reflexivity.
  - intros l G. inversion G as [|x y p q H F']; subst. inversion F'; subst. constructor; [|constructor]. destruct H as (Ti & Bo & _ & Tb & _). unfold table_slide_read. cbn [t_title t_rows]. rewrite Ti, Bo, Tb. split; [reflexivity|]. split; [reflexivity|].
    unfold back_tables. cbn [base s_layout s_table]. unfold tb. cbn [rows]. pose proof (data_grid (first :: rest)) as Gd.
    destruct (filter _ (map _ (map data_row (first :: rest)))) as [|g gs]; [|cbn [map]; f_equal; exact Gd].
    exfalso. cbn [filter] in Gd. rewrite NE in Gd. discriminate.
Qed.
