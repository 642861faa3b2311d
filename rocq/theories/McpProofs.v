(** Proofs about the tools of the server. *)
From Coq Require Import String Ascii List Bool Arith NArith ZArith Lia.
From Verif Require Import Str Num XmlSpec FontsModel FontsSpec PackageModel TableModel TableSpec ShapeModel ChartModel SlideModel SlideInput SlideSpec SlideWant SlideBackSpec DeckModel DeckInput DeckBack ReaderModel ReaderSpec
  DocPropsProofs MdParseModel ImportModel ImportSpec ImportProofs ImportDeck ImportAgain ImportRefute McpModel McpSpec.
Import ListNotations.
Open Scope nat_scope.
Open Scope string_scope.

Lemma fold_slides l : forall p, fold_left add_slide l p = Presentation (p_title p) (p_slides p ++ l) (p_settings p).
Proof. induction l as [|s l IH]; intros p; [cbn; rewrite app_nil_r; now destruct p|]. cbn [fold_left]. rewrite IH. cbn. now rewrite <- app_assoc. Qed.
Lemma build_some X t l : l <> [] -> build X (Presentation t l no_settings) = Some (create_pptx_with_settings X t l no_settings).
Proof. intros H. unfold build. cbn [p_slides p_title p_settings]. now destruct l. Qed.
Lemma read_back X t slides (P : list pslide -> Prop) : slides_in slides -> (N.of_nat (length slides) < u32_max)%N -> (forall l, Forall2 given_back slides l -> P l) -> reads_as (create_pptx_with_settings X t slides no_settings) P.
Proof.
  intros A L H is_dir keys D K. destruct (DeckBack.deck_slides X t slides no_settings is_dir) with (keys := keys) as (l & G & B); try assumption; [constructor|reflexivity|].
  exists l. split; [exact G|]. now apply H.
Qed.
Lemma created a : create_slide a = base (a_title a) (a_bullets a) [] None.
Proof. unfold create_slide. now rewrite base_new, base_bullets. Qed.
Lemma bullets_in t bs tb : text_ok t = true -> forallb text_ok bs = true -> match tb with Some t => table_ok t | None => true end = true ->
  match tb with Some t => forallb (fun r => forallb (fun c => span_fits (row_span_of c) && span_fits (grid_span c)) (cells r)) (rows t) | None => true end = true ->
  let s := base t bs [] tb in deck_slide_ok s = true /\ slide_fits s = true /\ sizes_ok s = true.
Proof.
  intros T B O F. cbv zeta.
  assert (BO : forallb bullet_ok (map (fun t => BulletPoint t 0 Bullet None) bs) = true).
  { rewrite forallb_forall in *. intros b I. apply in_map_iff in I as (u & <- & I). unfold bullet_ok. cbn. now rewrite (B u I). }
  assert (BL : forall f, (forall u, f (BulletPoint u 0 Bullet None) = true) -> forallb f (map (fun t => BulletPoint t 0 Bullet None) bs) = true).
  { intros f H. apply forallb_forall. intros b I. apply in_map_iff in I as (u & <- & I). apply H. }
  split; [|split].
  - unfold deck_slide_ok, slide_ok, base. cbn [s_title s_tcolor s_content s_style s_bullets s_ccolor s_table s_shapes s_images s_connectors s_code opt_ok style_ok forallb]. rewrite T, B, BO. cbn [andb].
    destruct tb as [tb|]; [rewrite O; reflexivity|reflexivity].
  - unfold slide_fits, base. cbn [s_bullets s_table s_shapes s_code forallb]. rewrite BL by reflexivity. cbn [andb]. destruct tb as [tb|]; [rewrite F; reflexivity|reflexivity].
  - unfold sizes_ok, base. cbn [s_csize s_bullets]. rewrite BL by reflexivity. reflexivity.
Qed.
Lemma base_wanted t bs tb : wanted (base t bs [] tb) = map (fun t => BulletPoint t 0 Bullet None) bs.
Proof. unfold wanted, base. cbn [s_bullets s_content s_style]. now destruct bs. Qed.
Lemma create_works X title path args : args <> [] -> forallb slide_arg_ok args = true -> (N.of_nat (length args) < u32_max)%N ->
  exists files, handle_create_presentation X title path args = Done ("Created presentation '" ++ title ++ "' with " ++ decn (length args) ++ " slide(s) at: " ++ path) files
    /\ reads_as files (fun l => Forall2 bullets_slide l args).
Proof.
  intros NE OK L. unfold handle_create_presentation. destruct (map create_slide args) as [|s l] eqn:E; [destruct args; [congruence|discriminate]|].
  cbv zeta. rewrite fold_slides, <- E. cbn [with_title p_title p_slides p_settings app]. rewrite map_length. unfold save. rewrite build_some by congruence. eexists. split; [reflexivity|].
  apply read_back.
  - clear -OK. unfold slides_in. induction args as [|a l IH]; [constructor|]. cbn [forallb] in OK. apply andb_true_iff in OK as [O1 O2]. cbn [map]. constructor; [|now apply IH].
    rewrite created. unfold slide_arg_ok in O1. apply andb_true_iff in O1 as [O1 O3]. now apply (bullets_in _ _ None).
  - now rewrite map_length.
  - clear. intros l F. revert l F. induction args as [|a args IH]; intros l F; inversion F as [|x y m n H F']; subst; [constructor|]. constructor; [|now apply IH].
    rewrite created in H. destruct H as (T & B & _ & Tb & front & us & cs & S & Fr & U & C). cbn [base s_shapes s_code] in U, C. inversion U; subst. inversion C; subst. rewrite !app_nil_r in S.
    unfold bullets_slide. rewrite T, B, Tb, S. split; [reflexivity|]. split; [|split; [reflexivity|exact Fr]]. unfold shown_bullets. cbn [base s_layout s_table]. change (Slide (a_title a) _ _ _ _ _ _ _ _ _ _ _ _ _ _ _ _ _ _ _ _ _ _) with (base (a_title a) (a_bullets a) [] None).
    rewrite base_wanted, map_map. cbn [b_text]. now rewrite map_id.
Qed.

(** ** Tables *)
Lemma tables_fold args : forall p, fold_left (fun p a => fold_left add_slide (table_slide a) p) args p = Presentation (p_title p) (p_slides p ++ flat_map table_slide args) (p_settings p).
Proof. induction args as [|a l IH]; intros p; [cbn; rewrite app_nil_r; now destruct p|]. cbn [fold_left]. rewrite IH, fold_slides. cbn [p_title p_slides p_settings flat_map]. now rewrite <- app_assoc. Qed.
Definition arg_table (a : table_arg) : table := Table (enum_map table_row 0 (t_rows a)) (repeat 2800000%N (length (hd [] (t_rows a)))) 0 0.
Lemma table_slides args : flat_map table_slide args = map (fun a => base (t_title a) [] [] (Some (arg_table a))) (filter tabular args).
Proof.
  induction args as [|a l IH]; [reflexivity|]. cbn [flat_map filter]. unfold table_slide at 1, tabular at 1. destruct (t_rows a) as [|r rs] eqn:E; [exact IH|]. destruct r as [|t r]; [exact IH|].
  cbn [length Nat.eqb filled map app]. rewrite IH. f_equal. unfold arg_table. rewrite E. reflexivity.
Qed.
Lemma row_cells k r : map ctext (cells (table_row k r)) = r.
Proof. unfold table_row. cbn [cells]. rewrite map_map. transitivity (map (fun t => t) r); [|apply map_id]. apply map_ext. intros t. now destruct (Nat.eqb k 0). Qed.
Lemma row_each (f : cell -> bool) k r : (forall t, In t r -> f (cell_new t) = true /\ f (bold_cell (cell_new t)) = true) -> forallb f (cells (table_row k r)) = true.
Proof. intros H. unfold table_row. cbn [cells]. apply forallb_forall. intros c I. apply in_map_iff in I as (t & <- & I). destruct (H t I). now destruct (Nat.eqb k 0). Qed.
Lemma rows_each (f : cell -> bool) rs : (forall r t, In r rs -> In t r -> f (cell_new t) = true /\ f (bold_cell (cell_new t)) = true) -> forall k, forallb (fun r => forallb f (cells r)) (enum_map table_row k rs) = true.
Proof.
  induction rs as [|r rs IH]; intros H k; [reflexivity|]. cbn [enum_map forallb]. apply andb_true_iff. split; [apply row_each; intros t T; apply (H r t); [now left|exact T]|].
  apply IH. intros r' t R T. apply (H r' t); [now right|exact T].
Qed.
Lemma grid_read rs : forall k, map (map pc_text) (filter (fun r => match r with [] => false | _ => true end) (map (fun r => map back_cell (cells r)) (enum_map table_row k rs))) = map (map visible) (filter filled rs).
Proof.
  induction rs as [|r rs IH]; intros k; [reflexivity|]. cbn [enum_map map filter].
  assert (E : map pc_text (map back_cell (cells (table_row k r))) = map visible r).
  { unfold table_row. cbn [cells]. rewrite !map_map. apply map_ext. intros t. destruct (Nat.eqb k 0); reflexivity. }
  destruct r as [|t r]; [cbn [filled]; exact (IH (S k))|]. cbn [filled map].
  destruct (map back_cell (cells (table_row k (t :: r)))) as [|c l] eqn:F; [discriminate|]. cbn [map] in *. rewrite (IH (S k)). now rewrite E.
Qed.
Lemma rows_of rs : forall k, Forall2 (fun r ts => map ctext (cells r) = ts) (enum_map table_row k rs) rs
  /\ (forall j r, nth_error (enum_map table_row k rs) j = Some r -> Forall (fun c => cbold c = Nat.eqb (k + j) 0) (cells r)).
Proof.
  induction rs as [|r rs IH]; intros k; cbn [enum_map]; [split; [constructor|intros [|j] r; discriminate]|]. destruct (IH (S k)) as [A B]. split; [constructor; [apply row_cells|exact A]|].
  intros [|j] r' E; cbn [nth_error] in E.
  - injection E as <-. rewrite Nat.add_0_r. unfold table_row. cbn [cells]. apply Forall_forall. intros c I. apply in_map_iff in I as (t & <- & _). now destruct (Nat.eqb k 0).
  - rewrite Nat.add_succ_r. exact (B j r' E).
Qed.
Lemma tables_work X title path args : forallb table_arg_ok args = true -> (N.of_nat (length args) < u32_max)%N ->
  (filter tabular args = [] -> handle_create_with_tables X title path args = Failed)
  /\ (filter tabular args <> [] -> exists slides files, handle_create_with_tables X title path args = Done ("Created presentation with " ++ decn (length args) ++ " table slide(s) at: " ++ path) files
     /\ files = create_pptx_with_settings X title slides no_settings /\ Forall2 table_of slides (filter tabular args) /\ reads_as files (fun l => Forall2 table_slide_read l (filter tabular args))).
Proof.
  intros OK L. unfold handle_create_with_tables, save. rewrite tables_fold, table_slides. cbn [with_title p_title p_slides p_settings app]. split.
  - intros ->. reflexivity.
  - intros NE. rewrite build_some by (destruct (filter tabular args); [congruence|discriminate]). eexists. eexists. split; [reflexivity|]. split; [reflexivity|]. split.
    { clear. induction (filter tabular args) as [|a l IH]; constructor; [|exact IH]. split; [reflexivity|]. eexists. split; [reflexivity|]. unfold arg_table. cbn [rows]. apply (rows_of (t_rows a) 0). }
    assert (OK' : forallb table_arg_ok (filter tabular args) = true) by (rewrite forallb_forall in *; intros a I; apply filter_In in I; now apply OK).
    assert (TA : forallb tabular (filter tabular args) = true) by (apply forallb_forall; intros a I; now apply filter_In in I).
    apply read_back.
    + clear -OK'. unfold slides_in. induction (filter tabular args) as [|a l IH]; [constructor|]. cbn [forallb] in OK'. apply andb_true_iff in OK' as [O1 O2]. cbn [map]. constructor; [|now apply IH].
      unfold table_arg_ok in O1. apply andb_true_iff in O1 as [O1 O3]. apply bullets_in; [exact O1|reflexivity| |].
      * unfold table_ok, arg_table. cbn [rows]. apply rows_each. intros r t R T. rewrite forallb_forall in O3. specialize (O3 r R). rewrite forallb_forall in O3. unfold cell_ok. cbn. now rewrite (O3 t T).
      * unfold arg_table. cbn [rows]. apply rows_each. intros r t R T. split; reflexivity.
    + rewrite map_length. assert (H : length (filter tabular args) <= length args) by (clear; induction args as [|a l IH]; cbn; [lia|destruct (tabular a); cbn; lia]). lia.
    + clear -TA. intros l F. revert l F. induction (filter tabular args) as [|a m IH]; intros l F; inversion F as [|x y p q H F']; subst; [constructor|]. cbn [forallb] in TA. apply andb_true_iff in TA as [T1 T2].
      constructor; [|now apply IH]. destruct H as (T & B & _ & Tb & _). unfold table_slide_read. rewrite T, B, Tb. split; [reflexivity|]. split; [reflexivity|].
      unfold back_tables. cbn [base s_layout s_table]. unfold arg_table. cbn [rows]. pose proof (grid_read (t_rows a) 0) as G.
      destruct (filter _ (map _ (enum_map table_row 0 (t_rows a)))) as [|g gs]; [|cbn [map]; f_equal; exact G].
      exfalso. unfold tabular in T1. destruct (t_rows a) as [|r rs]; [discriminate|]. cbn [filter] in G. rewrite T1 in G. discriminate.
Qed.

(** ** Charts *)
Lemma charts_fold args : forall p, fold_left (fun p a => add_slide p (chart_slide a)) args p = Presentation (p_title p) (p_slides p ++ map chart_slide args) (p_settings p).
Proof. induction args as [|a l IH]; intros p; [cbn; rewrite app_nil_r; now destruct p|]. cbn [fold_left]. rewrite IH. cbn [add_slide p_title p_slides p_settings map]. now rewrite <- app_assoc. Qed.
Lemma charts_work X title path args : handle_create_with_charts X title path args = match args with [] => Failed | _ => handle_create_with_charts X title path args end
  /\ (args <> [] -> exists slides files, handle_create_with_charts X title path args = Done ("Created presentation with " ++ decn (length args) ++ " chart slide(s) at: " ++ path) files
     /\ files = create_pptx_with_settings X title slides no_settings /\ Forall2 chart_of slides args).
Proof.
  split; [now destruct args|]. intros NE. exists (map chart_slide args). unfold handle_create_with_charts, save. rewrite charts_fold. cbn [with_title p_title p_slides p_settings app].
  rewrite build_some by (destruct args; [congruence|discriminate]). eexists. split; [reflexivity|]. split; [reflexivity|]. clear. induction args as [|a l IH]; constructor; [|exact IH].
  split; [reflexivity|]. eexists. split; [reflexivity|]. repeat split; cbn [ctype]. unfold kind_named, chart_kind.
  destruct (String.eqb_spec (c_type a) "line") as [->|N1]; [left; now left|]. destruct (String.eqb_spec (c_type a) "pie") as [->|N2]; [left; right; now left|].
  destruct (String.eqb_spec (c_type a) "area") as [->|N3]; [left; right; right; now left|]. right. split; [|reflexivity]. cbn. intuition congruence.
Qed.

(** ** Merging and summaries *)
Section M.
  Context (fit : string -> N -> N -> N) (load : string -> option (package * list string)).
  Lemma deck_loads path title slides : saved_deck (load path) title slides ->
    exists q, from_path fit load path = Some q /\ p_settings q = no_settings /\ p_title q = visible title /\ Forall2 (fits_in fit) slides (p_slides q) /\ Forall (imported fit) (p_slides q).
  Proof.
    intros (X & st & is_dir & keys & E & A & B & C & D & L & S & N1 & N2). unfold from_path. rewrite E.
    destruct (deck_import fit X title slides st is_dir A B C keys D L S) as (q & I & P & F & T). exists q. split; [exact I|]. split; [exact P|]. split; [now apply T|]. split; [exact F|]. exact (deck_imported fit _ _ S F).
  Qed.
  Lemma rest_merges paths decks : Forall2 (fun p d => saved_deck (load p) (fst d) (snd d)) paths decks -> forall m, exists q, merge_rest fit load m paths = Some q
    /\ p_title q = p_title m /\ p_settings q = p_settings m /\ exists l, p_slides q = (p_slides m ++ l)%list /\ Forall2 (fits_in fit) (flat_map snd decks) l /\ Forall (imported fit) l.
  Proof.
    induction 1 as [|p d ps ds H _ IH]; intros m; [exists m; repeat split; exists []; repeat split; [now rewrite app_nil_r|constructor|constructor]|].
    destruct (deck_loads _ _ _ H) as (q & Q & S & T & F & I). cbn [merge_rest flat_map]. rewrite Q. destruct (IH (add_presentation m q)) as (r & R & R1 & R2 & l & R3 & R4 & R5).
    exists r. split; [exact R|]. split; [exact R1|]. split; [exact R2|]. exists (p_slides q ++ l)%list. cbn [add_presentation p_slides] in R3. split; [now rewrite R3, app_assoc|]. split; [now apply Forall2_app|now apply Forall_app].
  Qed.
  Lemma rest_fails paths : forall m, (exists p, In p paths /\ from_path fit load p = None) -> merge_rest fit load m paths = None.
  Proof.
    induction paths as [|p l IH]; intros m (x & I & E); [destruct I|]. cbn [merge_rest]. destruct I as [<-|I]; [now rewrite E|]. destruct (from_path fit load p); [|reflexivity]. apply IH. now exists x.
  Qed.
  Lemma merge_fails X paths out : length paths < 2 \/ (exists p, In p paths /\ from_path fit load p = None) -> handle_merge_pptx X fit load paths out = Failed.
  Proof.
    unfold handle_merge_pptx. intros [H|(p & I & E)]; [now rewrite (proj2 (Nat.ltb_lt _ _) H)|]. destruct (Nat.ltb (length paths) 2); [reflexivity|]. destruct paths as [|x l]; [destruct I|].
    destruct I as [<-|I]; [now rewrite E|]. destruct (from_path fit load x); [|reflexivity]. rewrite rest_fails; [reflexivity|now exists p].
  Qed.
  Lemma merge_works X paths decks first slides out : Forall2 (fun p d => saved_deck (load p) (fst d) (snd d)) paths decks -> 2 <= length paths -> slides = flat_map snd decks -> slides <> [] -> (N.of_nat (length slides) < u32_max)%N ->
    plain_title (x_now X) = true -> hd_error decks = Some first ->
    exists files, handle_merge_pptx X fit load paths out = Done ("Merged " ++ decn (length paths) ++ " files (" ++ decn (length slides) ++ " total slides) to: " ++ out) files
      /\ forall is_dir keys, (forall n c, In (n, c) files -> is_dir n = false) -> keys_order (open_entries is_dir files) keys ->
         exists q, import_pptx fit (open_entries is_dir files) keys = Some q /\ p_title q = visible (fst first) /\ Forall2 kept_slide slides (p_slides q).
  Proof.
    intros F L -> NE LT NW H. unfold handle_merge_pptx. rewrite (proj2 (Nat.ltb_ge _ _) L). destruct F as [|p d ps ds Hd F]; [cbn in L; lia|]. cbn [hd_error] in H. injection H as ->.
    assert (PT : plain_title (fst first) = true) by (destruct Hd as (? & ? & ? & ? & _ & _ & _ & _ & _ & _ & _ & _ & ?); assumption).
    destruct (deck_loads _ _ _ Hd) as (q & Q & S & T & Fq & I). rewrite Q. destruct (rest_merges _ _ F q) as (r & R & R1 & R2 & l & R3 & R4 & R5). rewrite R.
    assert (K : Forall2 (fits_in fit) (flat_map snd (first :: ds)) (p_slides r)) by (rewrite R3; cbn [flat_map]; now apply Forall2_app).
    assert (IM : Forall (imported fit) (p_slides r)) by (rewrite R3; now apply Forall_app).
    assert (LE : length (p_slides r) = length (flat_map snd (first :: ds))) by (clear -K; induction K; cbn; congruence). rewrite LE.
    assert (NR : p_slides r <> []) by (destruct (p_slides r); [destruct (flat_map snd (first :: ds)); [congruence|discriminate]|discriminate]).
    unfold save, build. destruct (p_slides r) as [|v w] eqn:V; [congruence|]. rewrite <- V in *. clear NR V. rewrite R2, S, R1, T. eexists. split; [reflexivity|]. intros is_dir keys D KO.
    pose proof (imported_again fit X (Presentation (visible (fst first)) (p_slides r) no_settings) is_dir keys) as G. cbn [p_title p_slides p_settings] in G.
    destruct (G D KO) as (z & Z1 & _ & Z2 & Z3); [now rewrite LE|exact IM|]. exists z. split; [exact Z1|]. split; [rewrite (Z3 NW (plain_visible _ PT)); apply visible_idem|].
    rewrite Z2. clear -K. induction K as [|? ? ? ? [HK _] _ IH]; constructor; assumption.
  Qed.
  Lemma info_works path title slides : saved_deck (load path) title slides ->
    exists ms, handle_get_pptx_info fit load path = Some (visible title, length slides, ms) /\ length ms = length slides /\ forall k m, nth_error ms k = Some m -> summed_up slides k m.
  Proof.
    intros H. destruct (deck_loads _ _ _ H) as (q & Q & _ & T & F & _). unfold handle_get_pptx_info. rewrite Q, T.
    assert (LE : length (p_slides q) = length slides) by (clear -F; induction F; cbn; congruence). rewrite LE. eexists. split; [reflexivity|].
    split; [rewrite map_length, combine_length, seq_length, LE; apply Nat.min_id|]. intros k m E. rewrite <- LE in E. clear LE H Q T.
    assert (G : forall j slides l, Forall2 (fits_in fit) slides l -> nth_error (map (fun e => Summary (fst e + 1) (s_title (snd e)) (length (s_bullets (snd e))) (features (snd e))) (combine (seq j (length l)) l)) k = Some m ->
      exists s v, nth_error slides k = Some s /\ fits_in fit s v /\ m = Summary (j + k + 1) (s_title v) (length (s_bullets v)) (features v)).
    { clear. revert m. induction k as [|k IH]; intros m j slides l F E; destruct F as [|s v ss l H F]; try discriminate; cbn [length seq combine map nth_error] in *.
      - injection E as <-. exists s, v. split; [reflexivity|]. split; [exact H|]. cbn [fst snd]. now rewrite Nat.add_0_r.
      - destruct (IH _ _ _ _ F E) as (s' & v' & H1 & H2 & ->). exists s', v'. split; [exact H1|]. split; [exact H2|]. f_equal. lia. }
    destruct (G 0 slides _ F E) as (s & v & N & [(us & cs & U & C & ->) _] & ->). exists s. split; [exact N|]. cbn [m_number m_title m_bullets m_features s_title s_bullets]. rewrite map_length.
    split; [lia|]. split; [reflexivity|]. split; [reflexivity|]. unfold features. cbn [s_table s_images s_charts s_shapes]. cbn [app].
    assert (SH : (us ++ cs)%list <> [] <-> s_shapes s <> [] \/ s_code s <> []).
    { destruct U; [|split; [intros _; left; discriminate|discriminate]]. destruct C; [|split; [intros _; right; discriminate|discriminate]]. split; [intros X; now elim X|intros [X|X]; now elim X]. }
    assert (TB : plain_table (shown_cells s) <> None <-> shown_cells s <> []) by (unfold plain_table; destruct (shown_cells s); split; congruence).
    split; [rewrite <- TB; destruct (plain_table (shown_cells s)), (us ++ cs)%list; cbn; intuition (try discriminate; congruence)|].
    split; [rewrite <- SH; destruct (plain_table (shown_cells s)), (us ++ cs)%list; cbn; intuition (try discriminate; congruence)|].
    destruct (plain_table (shown_cells s)), (us ++ cs)%list; cbn; intuition discriminate.
  Qed.
End M.
